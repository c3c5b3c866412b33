(** C57: documents made from Markdown. *)
From Coq Require Import Ascii String.
From Verif Require Import Base FormatRunsModel RopeModel DocModel DocSpec PropSpec DocRefuted ListModel ListSpec ListDocModel ListDocSpec
  ExportSpec ExportRefuted ImportModel ImportSpec MdReadModel DocShows MdReadSpec MdReadTheorems MdReadRefuted.

(** Setting the content of any document to a gentle page gives the paragraphs of
    the page in order with their kinds, and in them the characters with their
    looks. *)
Theorem markdown_import_partial : forall L p, lreach L -> gentle_page p ->
  exists L', import_markdown L (page_events p) = Some L' /\ lreach L' /\ document_shows L' (map expected (page_paras p)).
Proof. exact markdown_import_theorem. Qed.
Print Assumptions markdown_import_partial.
Example markdown_import_case : lreach blank /\ gentle_page list_page
  /\ map fst (page_paras list_page) = [KHead 1; KPara; KPara; KItem true 0; KItem false 1; KItem true 0; KCode (Some (txt "rust"))]
  /\ map snd (page_paras list_page) =
     [[(84, bare)]; [(97, bare); (32, bare); (98, with_bold bare); (99, with_italic (with_bold bare)); (32, bare); (100, with_code bare)];
      [(101, with_link bare (txt "u"))]; [(120, bare)]; [(121, bare)]; [(122, bare)];
      [(102, with_code bare); (10, with_code bare); (103, with_code bare)]]%N
  /\ markers (read list_page) = [Ok None; Ok None; Ok None; Ok (Some (txt "1")); Ok (Some [8226%N]); Ok (Some (txt "2")); Ok None].
Proof. split; [apply blank_lreach|]. split; [apply list_page_gentle|]. do 2 (split; [vm_compute; reflexivity|]). vm_compute. reflexivity. Qed.
(** The character format given to a look has that look. *)
Theorem import_look : forall k f, look_fmt k = f -> look_of f = k.
Proof. exact look_of_fmt. Qed.
Print Assumptions import_look.
Example import_look_case : look_fmt (with_bold bare) <> look_fmt bare.
Proof. discriminate. Qed.

(** Bold ends where a bold part inside it ends. *)
Theorem import_nested_refuted : exists p L' its, import_markdown blank (page_events p) = Some L' /\ doc_items (l_doc L') = Ok its
  /\ map snd (page_paras p) = [map (fun c => (c, with_bold bare)) (txt "abc")]
  /\ nth_error its 2 = Some (Chr 99%N cfmt_default).
Proof. exact nested_w. Qed.
Print Assumptions import_nested_refuted.
(** An empty item is not in the document, and the next item gets its number. *)
Theorem import_empty_item_refuted : exists p L', import_markdown blank (page_events p) = Some L' /\ length (page_paras p) = 2
  /\ length (d_order (l_doc L')) = 1 /\ markers L' = [Ok (Some (txt "1"))].
Proof. exact empty_item_w. Qed.
Print Assumptions import_empty_item_refuted.
(** The text of an item becomes part of the code block after it. *)
Theorem import_item_code_refuted : exists p L' its, import_markdown blank (page_events p) = Some L' /\ doc_items (l_doc L') = Ok its
  /\ page_paras p = [(KItem false 0, [(97%N, bare)]); (KCode None, [(98%N, with_code bare)])]
  /\ paragraphs its = [shown_items [(97%N, with_code bare); (98%N, with_code bare)]]
  /\ para_attrs (l_doc L') = [Some (None, kind_fmt (KCode None))].
Proof. exact item_code_w. Qed.
Print Assumptions import_item_code_refuted.
(** After a hard break a heading goes on as an ordinary paragraph. *)
Theorem import_heading_break_refuted : exists p L', import_markdown blank (page_events p) = Some L'
  /\ page_paras p = [(KHead 1, [(97%N, bare); (98%N, bare)])]
  /\ para_attrs (l_doc L') = [Some (None, kind_fmt (KHead 1)); Some (None, kind_fmt KPara)].
Proof. exact long_head_w. Qed.
Print Assumptions import_heading_break_refuted.
(** A hard break in an item makes another item. *)
Theorem import_item_break_refuted : exists p L', import_markdown blank (page_events p) = Some L'
  /\ map fst (page_paras p) = [KItem true 0; KItem true 0]
  /\ markers L' = [Ok (Some (txt "1")); Ok (Some (txt "2")); Ok (Some (txt "3"))].
Proof. exact long_item_w. Qed.
Print Assumptions import_item_break_refuted.
(** After an item of two paragraphs the numbers start again. *)
Theorem import_numbering_refuted : exists p L', import_markdown blank (page_events p) = Some L'
  /\ p = [MList true false [[MPara (word "a"); MPara (word "b")]; [MPara (word "c")]]]
  /\ markers L' = [Ok (Some (txt "1")); Ok None; Ok (Some (txt "1"))].
Proof. exact two_para_item_w. Qed.
Print Assumptions import_numbering_refuted.
(** Two lists one after the other are read as one. *)
Theorem import_two_lists_refuted : exists p1 p2 L', p1 = [MList true true [[MPara (word "a")]]; MList true true [[MPara (word "b")]]]
  /\ p2 = [MList true true [[MPara (word "a")]; [MPara (word "b")]]]
  /\ import_markdown blank (page_events p1) = Some L' /\ import_markdown blank (page_events p2) = Some L'
  /\ markers L' = [Ok (Some (txt "1")); Ok (Some (txt "2"))].
Proof. exact two_lists_w. Qed.
Print Assumptions import_two_lists_refuted.
(** An image is its alternative text. *)
Theorem import_image_refuted : exists p L', import_markdown blank (page_events p) = Some L' /\ p = [MPara [IImage (word "cat")]]
  /\ doc_items (l_doc L') = Ok (map (fun c => Chr c cfmt_default) (txt "cat")).
Proof. exact alt_text_w. Qed.
Print Assumptions import_image_refuted.
(** The lines of a code block are one paragraph with newline characters in it, so
    that the paragraph count is not the number of lines of the plain text. *)
Theorem import_code_lines_refuted : exists p L', gentle_page p /\ import_markdown blank (page_events p) = Some L'
  /\ d_nblocks (l_doc L') = 1%Z /\ export_plain_text (l_doc L') = Ok (txt "a" ++ [NL] ++ txt "b")
  /\ d_nblocks (import_plain_text new_document (txt "a" ++ [NL] ++ txt "b")) = 2%Z.
Proof. exact code_lines_w. Qed.
Print Assumptions import_code_lines_refuted.
