(** Properties C62: inserting Markdown and HTML. *)
From Coq Require Import Ascii String.
From Verif Require Import Base FormatRunsModel RopeModel DocModel DocSpec PropSpec QuerySpec DocRefuted ListModel ListDocModel ListDocSpec FragmentModel FragmentText
  FragmentSpec FragmentTheorems FragmentRefuted ExportSpec ImportModel MdReadModel DocShows MdReadSpec MdReadRefuted HtmlReadModel HtmlReadSpec HtmlReadTheorems
  FragmentReadModel FragmentReadSpec FragmentReadTheorems.

(** A fragment made from Markdown has the plain text of the document that setting
    the Markdown makes, and, without code blocks, its paragraphs with their
    formatted characters, formats and lists. *)
Theorem fragment_from_markdown_partial : forall L0 es Li its, lreach L0 -> import_markdown L0 es = Some Li -> doc_items (l_doc Li) = Ok its ->
  exists fbs, fragment_from_markdown es = Some (mk_dfrag (Some fbs) (plain its)) /\ (no_code_blocks Li -> same_paragraphs fbs Li).
Proof. exact from_markdown_theorem. Qed.
Print Assumptions fragment_from_markdown_partial.
Example fragment_from_markdown_case : exists fbs, import_markdown MdReadRefuted.blank (page_events mixed_page) = Some (MdReadRefuted.read mixed_page)
  /\ no_code_blocks (MdReadRefuted.read mixed_page)
  /\ fragment_from_markdown (page_events mixed_page) = Some (mk_dfrag (Some fbs) (txt "T" ++ NL :: txt "ab" ++ NL :: txt "x"))
  /\ map fb_list fbs = [None; None; Some (mk_list Disc 0 [] [])].
Proof.
  eexists. split; [vm_compute; reflexivity|]. split; [exact mixed_no_code|]. split; [vm_compute; reflexivity|]. reflexivity.
Qed.
Theorem fragment_from_html_partial : forall lh L0 page Li its, lreach L0 -> import_html lh L0 page = Some Li -> doc_items (l_doc Li) = Ok its ->
  exists fbs, fragment_from_html lh page = Some (mk_dfrag (Some fbs) (plain its)) /\ (no_code_blocks Li -> same_paragraphs fbs Li).
Proof. exact from_html_theorem. Qed.
Print Assumptions fragment_from_html_partial.
Example fragment_from_html_case : exists fbs, fragment_from_html no_number [el "h2" [tx "T"]; el "ol" [el "li" [tx "x"]]] = Some (mk_dfrag (Some fbs) (txt "T" ++ NL :: txt "x"))
  /\ map fb_list fbs = [None; Some (mk_list Decimal 0 [] [])].
Proof. eexists. split; [vm_compute; reflexivity|]. reflexivity. Qed.

(** Inserting Markdown in place of the selection puts what setting it shows in a
    document there, kept apart from the text around it where it starts or ends
    with a paragraph that is not a plain one, and the cursor behind it, unless it
    is one such paragraph alone and text follows. *)
Theorem insert_markdown_partial : forall L0 es Li L its its2 p a first_plain last_plain, lreach L0 -> import_markdown L0 es = Some Li ->
  reach (l_doc L) -> doc_items (l_doc L) = Ok its -> p <= length its -> a <= length its ->
  doc_items (l_doc Li) = Ok its2 -> no_code_blocks Li ->
  (first_plain = true <-> plain_attr (hd None (para_attrs (l_doc Li)))) -> (last_plain = true <-> plain_attr (last (para_attrs (l_doc Li)) None)) ->
  p <> a \/ in_order (l_doc L) \/ one_para its2 = true /\ first_plain = true ->
  let n := Nat.min p a in let m := Nat.max p a in
  exists L' r, cursor_insert_markdown L p a es = Some (Ok (L', Some r))
   /\ doc_items (l_doc L') = Ok (put first_plain last_plain n m its its2)
   /\ (one_para its2 = false \/ last_plain = true \/ at_end (firstn n its ++ skipn m its) n = true -> r = put_end first_plain last_plain n m its its2).
Proof. exact insert_markdown_theorem. Qed.
Print Assumptions insert_markdown_partial.
Example insert_markdown_case : exists L', cursor_insert_markdown (no_lists two_paras) 1 4 (page_events mixed_page) = Some (Ok (L', Some 9))
  /\ export_plain_text (l_doc L') = Ok (txt "a" ++ NL :: txt "T" ++ NL :: txt "ab" ++ NL :: txt "x" ++ NL :: txt "d")
  /\ put_end false false 1 4 (text_items [97; 98; 10; 99; 100]%N) (text_items (txt "T" ++ NL :: txt "ab" ++ NL :: txt "x")) = 9.
Proof. eexists. split; [vm_compute; reflexivity|]. split; vm_compute; reflexivity. Qed.
Theorem insert_html_partial : forall lh L0 page Li L its its2 p a first_plain last_plain, lreach L0 -> import_html lh L0 page = Some Li ->
  reach (l_doc L) -> doc_items (l_doc L) = Ok its -> p <= length its -> a <= length its ->
  doc_items (l_doc Li) = Ok its2 -> no_code_blocks Li ->
  (first_plain = true <-> plain_attr (hd None (para_attrs (l_doc Li)))) -> (last_plain = true <-> plain_attr (last (para_attrs (l_doc Li)) None)) ->
  p <> a \/ in_order (l_doc L) \/ one_para its2 = true /\ first_plain = true ->
  let n := Nat.min p a in let m := Nat.max p a in
  exists L' r, cursor_insert_html lh L p a page = Some (Ok (L', Some r))
   /\ doc_items (l_doc L') = Ok (put first_plain last_plain n m its its2)
   /\ (one_para its2 = false \/ last_plain = true \/ at_end (firstn n its ++ skipn m its) n = true -> r = put_end first_plain last_plain n m its its2).
Proof. exact insert_html_theorem. Qed.
Print Assumptions insert_html_partial.
Example insert_html_case : exists L' r, cursor_insert_html no_number (no_lists two_paras) 2 2 [el "p" [tx "x"]; el "p" [tx "y"]] = Some (Ok (L', r))
  /\ export_plain_text (l_doc L') = Ok (txt "abx" ++ NL :: txt "y" ++ NL :: txt "cd").
Proof. do 2 eexists. split; vm_compute; reflexivity. Qed.

(** The text is put there with code blocks, too. *)
Theorem insert_markdown_text : forall L0 es Li L its its2 p a, lreach L0 -> import_markdown L0 es = Some Li ->
  reach (l_doc L) -> doc_items (l_doc L) = Ok its -> p <= length its -> a <= length its ->
  doc_items (l_doc Li) = Ok its2 -> p <> a \/ in_order (l_doc L) ->
  exists L' r its' fp lp, cursor_insert_markdown L p a es = Some (Ok (L', Some r))
   /\ doc_items (l_doc L') = Ok its' /\ plain its' = plain (put fp lp (Nat.min p a) (Nat.max p a) its its2).
Proof. exact insert_markdown_text_theorem. Qed.
Print Assumptions insert_markdown_text.
Example insert_markdown_text_case : exists L' r, cursor_insert_markdown (no_lists two_paras) 1 1 (page_events code_page) = Some (Ok (L', r))
  /\ export_plain_text (l_doc L') = Ok (txt "afb" ++ NL :: txt "cd").
Proof. do 2 eexists. split; vm_compute; reflexivity. Qed.
Theorem insert_html_text : forall lh L0 page Li L its its2 p a, lreach L0 -> import_html lh L0 page = Some Li ->
  reach (l_doc L) -> doc_items (l_doc L) = Ok its -> p <= length its -> a <= length its ->
  doc_items (l_doc Li) = Ok its2 -> p <> a \/ in_order (l_doc L) ->
  exists L' r its' fp lp, cursor_insert_html lh L p a page = Some (Ok (L', Some r))
   /\ doc_items (l_doc L') = Ok its' /\ plain its' = plain (put fp lp (Nat.min p a) (Nat.max p a) its its2).
Proof. exact insert_html_text_theorem. Qed.
Print Assumptions insert_html_text.
Example insert_html_text_case : in_order two_paras /\ exists Li, import_html no_number MdReadRefuted.blank [el "pre" [tx "x"]] = Some Li.
Proof. split; [apply tidy_in_order, two_paras_tidy|]. eexists. vm_compute. reflexivity. Qed.

(** In an empty document inserting shows what setting shows: the same formatted
    characters, paragraph formats, and lists of the same style and indent. *)
Theorem insert_markdown_blank_partial : forall L0 es Li L, lreach L0 -> import_markdown L0 es = Some Li -> no_code_blocks Li ->
  lreach L -> doc_items (l_doc L) = Ok [] -> para_attrs (l_doc L) = [Some (None, bfmt_default)] ->
  exists L' r atts atts', cursor_insert_markdown L 0 0 es = Some (Ok (L', Some r))
   /\ doc_items (l_doc L') = doc_items (l_doc Li)
   /\ para_attrs (l_doc Li) = map Some atts /\ para_attrs (l_doc L') = map Some atts'
   /\ map snd atts' = map snd atts /\ Forall2 (joins L') (map (list_at Li) atts) (map fst atts').
Proof. exact blank_markdown_theorem. Qed.
Print Assumptions insert_markdown_blank_partial.
Theorem insert_html_blank_partial : forall lh L0 page Li L, lreach L0 -> import_html lh L0 page = Some Li -> no_code_blocks Li ->
  lreach L -> doc_items (l_doc L) = Ok [] -> para_attrs (l_doc L) = [Some (None, bfmt_default)] ->
  exists L' r atts atts', cursor_insert_html lh L 0 0 page = Some (Ok (L', Some r))
   /\ doc_items (l_doc L') = doc_items (l_doc Li)
   /\ para_attrs (l_doc Li) = map Some atts /\ para_attrs (l_doc L') = map Some atts'
   /\ map snd atts' = map snd atts /\ Forall2 (joins L') (map (list_at Li) atts) (map fst atts').
Proof. exact blank_html_theorem. Qed.
Print Assumptions insert_html_blank_partial.
Example insert_blank_case : lreach MdReadRefuted.blank /\ doc_items (l_doc MdReadRefuted.blank) = Ok []
  /\ para_attrs (l_doc MdReadRefuted.blank) = [Some (None, bfmt_default)]
  /\ exists L' r, cursor_insert_markdown MdReadRefuted.blank 0 0 (page_events mixed_page) = Some (Ok (L', r))
     /\ export_plain_text (l_doc L') = Ok (txt "T" ++ NL :: txt "ab" ++ NL :: txt "x").
Proof.
  split; [exact blank_lreach|]. split; [vm_compute; reflexivity|]. split; [vm_compute; reflexivity|]. do 2 eexists. split; vm_compute; reflexivity.
Qed.

(** A line of Markdown with marks, links and code goes in between the characters
    around, in any document, and the cursor behind it. *)
Theorem insert_markdown_line : forall L its l p a, reach (l_doc L) -> doc_items (l_doc L) = Ok its -> p <= length its -> a <= length its ->
  clean_all l = true -> one_line l = true ->
  let n := Nat.min p a in let m := Nat.max p a in
  exists L', cursor_insert_markdown L p a (page_events [MPara l]) = Some (Ok (L', Some (n + length (one_shown l))))
   /\ doc_items (l_doc L') = Ok (firstn n its ++ shown_items (one_shown l) ++ skipn m its).
Proof. exact markdown_line_theorem. Qed.
Print Assumptions insert_markdown_line.
Example insert_markdown_line_case : let l := [IText (txt "x"); IStrong [IEmph [IText (txt "y")]]; ILink (txt "u") [ICode (txt "z")]] in
  clean_all l = true /\ one_line l = true /\ one_shown l = [(120%N, bare); (121%N, with_italic (with_bold bare)); (122%N, with_code (with_link bare (txt "u")))].
Proof. repeat split. Qed.
Theorem insert_html_line : forall lh L its page p a, reach (l_doc L) -> doc_items (l_doc L) = Ok its -> p <= length its -> a <= length its ->
  forallb inline_only page = true -> Forall (fun d => height d <= 128) page ->
  let n := Nat.min p a in let m := Nat.max p a in
  exists L', cursor_insert_html lh L p a page = Some (Ok (L', Some (n + length (own_chars bare page))))
   /\ doc_items (l_doc L') = Ok (firstn n its ++ shown_items (own_chars bare page) ++ skipn m its).
Proof. exact html_line_theorem. Qed.
Print Assumptions insert_html_line.
Example insert_html_line_case : let page := [tx "x"; el "b" [tx "y"]] in
  forallb inline_only page = true /\ own_chars bare page = [(120%N, bare); (121%N, with_bold bare)].
Proof. split; reflexivity. Qed.

(** A code block comes in as a plain paragraph. *)
Theorem insert_code_refuted : exists es Li L' r f f', import_markdown MdReadRefuted.blank es = Some Li /\ para_attrs (l_doc Li) = [Some (None, f)]
  /\ f_is_code_block f = Some true /\ f_code_language f = Some (txt "rust")
  /\ cursor_insert_markdown MdReadRefuted.blank 0 0 es = Some (Ok (L', r)) /\ para_attrs (l_doc L') = [Some (None, f')]
  /\ f_is_code_block f' = None /\ f_code_language f' = None.
Proof. exact insert_code_w. Qed.
Print Assumptions insert_code_refuted.
(** From HTML, its text does not keep the fixed-width font. *)
Theorem insert_pre_refuted : exists page Li L' r f f', import_html no_number MdReadRefuted.blank page = Some Li
  /\ doc_items (l_doc Li) = Ok [Chr 120%N f] /\ font_family f = Some (txt "monospace")
  /\ cursor_insert_html no_number MdReadRefuted.blank 0 0 page = Some (Ok (L', r))
  /\ doc_items (l_doc L') = Ok [Chr 120%N f'] /\ font_family f' = None.
Proof. exact insert_pre_w. Qed.
Print Assumptions insert_pre_refuted.
(** A quoted paragraph and one outside quotes make the same fragment. *)
Theorem insert_quote_refuted : exists es es' b b', parse_markdown es = [PBlock b] /\ pb_quotes b = 1 /\ parse_markdown es' = [PBlock b'] /\ pb_quotes b' = 0
  /\ fragment_from_markdown es = fragment_from_markdown es'.
Proof. exact insert_quote_w. Qed.
Print Assumptions insert_quote_refuted.
