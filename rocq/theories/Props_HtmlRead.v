(** C58: documents made from HTML. *)
From Coq Require Import Ascii String.
From Verif Require Import Base FormatRunsModel RopeModel DocModel DocSpec PropSpec DocRefuted ListModel ListSpec ListDocModel ListDocSpec
  ExportSpec ExportRefuted ImportModel ImportSpec MdReadModel DocShows MdReadSpec MdReadTheorems MdReadRefuted HtmlReadModel HtmlReadSpec HtmlReadTheorems.

(** Setting the content of any document to a gentle page gives the paragraphs of
    the page in order with their kinds and styles, and in them the characters with
    their looks. [lh] reads the numbers of line heights. *)
Theorem html_import_partial : forall lh L page, lreach L -> gentle_html page ->
  exists L', import_html lh L page = Some L' /\ lreach L' /\ document_shows L' (page_shown lh page).
Proof. exact html_import_theorem. Qed.
Print Assumptions html_import_partial.
Example html_import_case : lreach MdReadRefuted.blank /\ gentle_html sample_page
  /\ map (fun p => length (dp_items p)) (page_shown no_number sample_page) = [1; 4; 1; 1; 1; 3]
  /\ map dp_piece (page_shown no_number sample_page) = [Other; Other; ListModel.Item Decimal 0; ListModel.Item Disc 1; ListModel.Item Decimal 0; Other]
  /\ nth_error (map dp_items (page_shown no_number sample_page)) 1 =
     Some (shown_items [(97, bare); (98, with_bold bare); (99, with_italic (with_bold bare)); (100, with_link bare (txt "u"))]%N)
  /\ map (fun p => (f_direction (dp_fmt p), f_background_color (dp_fmt p))) (firstn 2 (page_shown no_number sample_page)) = [(None, None); (Some 1%N, Some (txt "red"))]
  /\ markers (read_html sample_page) = [Ok None; Ok None; Ok (Some (txt "1")); Ok (Some [8226%N]); Ok (Some (txt "2")); Ok None].
Proof.
  split; [apply blank_lreach|]. split; [apply sample_page_gentle|]. do 4 (split; [vm_compute; reflexivity|]). vm_compute. reflexivity.
Qed.
(** A line break in a paragraph disappears: the words before and after it join. *)
Theorem html_br_refuted : exists page L', import_html no_number MdReadRefuted.blank page = Some L' /\ page = [el "p" [tx "a"; el "br" []; tx "b"]]
  /\ export_plain_text (l_doc L') = Ok (txt "ab").
Proof. exact html_br_w. Qed.
Print Assumptions html_br_refuted.
(** Text before a block comes after it. *)
Theorem html_order_refuted : exists page L', import_html no_number MdReadRefuted.blank page = Some L' /\ page = [tx "a"; el "p" [tx "b"]]
  /\ export_plain_text (l_doc L') = Ok (txt "b" ++ [NL] ++ txt "a").
Proof. exact html_order_w. Qed.
Print Assumptions html_order_refuted.
(** Text of a division behind its blocks comes before them. *)
Theorem html_nested_order_refuted : exists page L', import_html no_number MdReadRefuted.blank page = Some L'
  /\ page = [el "div" [el "p" [tx "a"]; tx "b"]] /\ export_plain_text (l_doc L') = Ok (txt "b" ++ [NL] ++ txt "a").
Proof. exact html_nested_order_w. Qed.
Print Assumptions html_nested_order_refuted.
(** White space between two paragraphs becomes a paragraph at the end. *)
Theorem html_space_refuted : exists page L', import_html no_number MdReadRefuted.blank page = Some L'
  /\ page = [el "p" [tx "a"]; DText [NL]; el "p" [tx "b"]]
  /\ length (d_order (l_doc L')) = 3 /\ export_plain_text (l_doc L') = Ok (txt "a" ++ [NL] ++ txt "b" ++ [NL; NL]).
Proof. exact html_space_w. Qed.
Print Assumptions html_space_refuted.
(** Empty paragraphs disappear. *)
Theorem html_empty_refuted : exists page L', import_html no_number MdReadRefuted.blank page = Some L'
  /\ page = [el "p" [tx "a"]; el "p" []; el "p" [tx "b"]] /\ export_plain_text (l_doc L') = Ok (txt "a" ++ [NL] ++ txt "b").
Proof. exact html_empty_w. Qed.
Print Assumptions html_empty_refuted.
(** An item whose text is in a paragraph element is not an item. *)
Theorem html_item_paragraph_refuted : exists page L', import_html no_number MdReadRefuted.blank page = Some L'
  /\ page = [el "ol" [el "li" [el "p" [tx "a"]]; el "li" [tx "b"]]] /\ markers L' = [Ok None; Ok (Some (txt "1"))].
Proof. exact html_item_w. Qed.
Print Assumptions html_item_paragraph_refuted.
(** Text inside more than 256 elements disappears. *)
Theorem html_deep_refuted : exists n L', import_html no_number MdReadRefuted.blank [deep n] = Some L' /\ export_plain_text (l_doc L') = Ok [].
Proof. exact html_deep_w. Qed.
Print Assumptions html_deep_refuted.
(** Two sections become one paragraph. *)
Theorem html_section_refuted : exists page L', import_html no_number MdReadRefuted.blank page = Some L'
  /\ page = [el "section" [tx "a"]; el "section" [tx "b"]] /\ export_plain_text (l_doc L') = Ok (txt "ab").
Proof. exact html_section_w. Qed.
Print Assumptions html_section_refuted.
(** A line end in the source of a paragraph becomes a newline character of the paragraph. *)
Theorem html_newline_refuted : exists page L' its, import_html no_number MdReadRefuted.blank page = Some L'
  /\ page = [el "p" [DText (txt "a" ++ [NL] ++ txt "b")]] /\ length (d_order (l_doc L')) = 1
  /\ export_plain_text (l_doc L') = Ok its /\ its = txt "a" ++ [NL] ++ txt "b".
Proof. exact html_wrap_w. Qed.
Print Assumptions html_newline_refuted.
