(** C79: inserting HTML at a position. *)
From Verif Require Import Base FormatRunsModel FormatRunsSpec RopeModel DocModel DocSpec HistModel QueryModel QuerySpec
  PropSpec DocTheorems QueryTheorems DocRefuted ListModel ListDocModel FragmentModel FragmentSpec FragmentRefuted
  ImportModel ImportSpec MdInsertModel MdInsertSpec MdInsertTheorems MdInsertRefuted HtmlInsertModel HtmlInsertSpec HtmlInsertTheorems HtmlInsertRefuted.

(** The text of the HTML is inserted at the place, with its character formats,
    with the breaks between its paragraphs and those that keep formatted
    paragraphs apart; the stored positions stay right, the count of paragraphs
    grows by what was inserted and the position returned is the end of it. The
    number of paragraphs returned is right unless one formatted paragraph was
    inserted away from the start of a paragraph. The count of characters grows
    by what was inserted less the characters it misses, of which there are none
    at the end of a paragraph and when the text before the place keeps its
    paragraph to itself. Left out: documents with stale positions, and the
    paragraph before an empty last one. *)
Theorem insert_html_partial : forall L its n es, tidy (l_doc L) -> doc_items (l_doc L) = Ok its -> n <= length its ->
  let bs := flatten_to_blocks es in one_bare bs \/ ~ before_empty_end n its ->
  exists L' k, insert_html_at L (Z.of_nat n) (Z.of_nat n) es = Ok (L', Z.of_nat (html_end n bs its), k)
   /\ doc_items (l_doc L') = Ok (with_html n bs its)
   /\ fresh_positions (l_doc L')
   /\ d_nblocks (l_doc L') = (d_nblocks (l_doc L) + Z.of_nat (html_added n bs its))%Z
   /\ d_chars (l_doc L') = (d_chars (l_doc L) + Z.of_nat (count_chars (html_items n bs its)) - Z.of_nat (missed n bs its))%Z
   /\ (one_bare bs \/ at_end n its = true \/ stands_alone n bs its -> missed n bs its = 0)
   /\ (length bs <> 1 \/ one_bare bs \/ at_start n its = true -> k = Z.of_nat (html_added n bs its)).
Proof. exact html_theorem. Qed.
Print Assumptions insert_html_partial.
Example insert_html_case : tidy two_paras /\ ~ before_empty_end 2 (text_items [97; 98; 10; 99; 100]%N)
  /\ doc_items two_paras = Ok (text_items [97; 98; 10; 99; 100]%N) /\ at_end 2 (text_items [97; 98; 10; 99; 100]%N) = true
  /\ exists L' its', insert_html_at (no_lists two_paras) 2 2 [PBlock (bare_block [120%N]); PBlock (item_block [121%N])] = Ok (L', 5%Z, 1%Z)
     /\ doc_items (l_doc L') = Ok its' /\ plain its' = [97; 98; 120; 10; 121; 10; 99; 100]%N.
Proof.
  split; [apply two_paras_tidy|]. split.
  - intros (u & H & _). apply (f_equal (@rev _)) in H. rewrite rev_app_distr in H. discriminate.
  - split; [vm_compute; reflexivity|]. split; [vm_compute; reflexivity|]. eexists _, _. split; [vm_compute; reflexivity|]. split; vm_compute; reflexivity.
Qed.

(** The new paragraphs have the list and the format they are read with. A
    formatted first paragraph at the start of a paragraph takes its place, and
    the text after the place gets a plain paragraph; otherwise both parts keep
    the list and the format of the paragraph. Lists that were there stay as
    they are. *)
Theorem html_formats_partial : forall L its n es, tidy (l_doc L) -> lists_numbered L -> doc_items (l_doc L) = Ok its -> n <= length its ->
  let bs := flatten_to_blocks es in let k := breaks n its in let before := para_attrs (l_doc L) in
  one_bare bs \/ ~ before_empty_end n its ->
  exists L' np c, insert_html_at L (Z.of_nat n) (Z.of_nat n) es = Ok (L', np, c)
   /\ (one_bare bs -> para_attrs (l_doc L') = before)
   /\ (~ one_bare bs -> exists cur head own, nth_error before k = Some (Some cur)
        /\ para_attrs (l_doc L') = firstn k before
             ++ map Some (head :: own ++ (if cut_off n bs its then [if takes_place n bs its then (None, bfmt_default) else cur] else []))
             ++ skipn (S k) before
        /\ (if takes_place n bs its then exists b rest, bs = b :: rest /\ html_over L' b cur head else head = cur)
        /\ Forall2 (html_read L') (html_own n bs its) own)
   /\ more_lists L L' /\ lists_numbered L'.
Proof. exact html_attrs_theorem. Qed.
Print Assumptions html_formats_partial.
Example html_formats_case : lists_numbered (no_lists centred) /\ tidy centred
  /\ takes_place 0 [heading_block [120%N]] (text_items [97; 98; 10; 99; 100]%N) = true
  /\ cut_off 0 [heading_block [120%N]] (text_items [97; 98; 10; 99; 100]%N) = true
  /\ exists L' f, insert_html_at (no_lists centred) 0 0 [PBlock (heading_block [120%N])] = Ok (L', 1%Z, 1%Z)
     /\ nth_error (para_attrs (l_doc L')) 0 = Some (Some (None, f)) /\ f_heading_level f = Some 1%Z.
Proof.
  split; [easy|]. split; [apply centred_tidy|]. split; [reflexivity|]. split; [reflexivity|].
  eexists _, _. split; [vm_compute; reflexivity|]. split; vm_compute; reflexivity.
Qed.

(** With a selection nothing is inserted. *)
Theorem insert_html_selection : forall L p a es, p <> a -> insert_html_at L p a es = Err.
Proof. exact html_selected. Qed.
Print Assumptions insert_html_selection.
Example insert_html_selection_case : insert_html_at (no_lists two_paras) 1 2 [PBlock (bare_block [120%N])] = Err.
Proof. reflexivity. Qed.

(** Two paragraphs inserted inside a paragraph: the count of characters misses
    those after the place. *)
Theorem html_chars_refuted :
  exists L its es n L' np k its', tidy (l_doc L) /\ doc_items (l_doc L) = Ok its /\ n <= length its
   /\ d_chars (l_doc L) = Z.of_nat (count_chars its)
   /\ insert_html_at L (Z.of_nat n) (Z.of_nat n) es = Ok (L', np, k)
   /\ doc_items (l_doc L') = Ok its' /\ count_chars its' = 6 /\ d_chars (l_doc L') = 5%Z.
Proof. exact html_chars_w. Qed.
Print Assumptions html_chars_refuted.
(** The same for a heading inserted at the start of a paragraph. *)
Theorem html_heading_chars_refuted :
  exists L its es n L' np k its', tidy (l_doc L) /\ doc_items (l_doc L) = Ok its /\ n <= length its
   /\ d_chars (l_doc L) = Z.of_nat (count_chars its)
   /\ insert_html_at L (Z.of_nat n) (Z.of_nat n) es = Ok (L', np, k)
   /\ doc_items (l_doc L') = Ok its' /\ count_chars its' = 4 /\ d_chars (l_doc L') = 1%Z.
Proof. exact html_heading_chars_w. Qed.
Print Assumptions html_heading_chars_refuted.

(** A heading inserted at the start of a centred paragraph gets centred, and the
    text of that paragraph loses it. *)
Theorem html_format_lost_refuted :
  exists L its es L' np k f g its', tidy (l_doc L) /\ doc_items (l_doc L) = Ok its
   /\ plain its = [97; 98; 10; 99; 100]%N /\ hd None (para_attrs (l_doc L)) = Some (None, f) /\ f_alignment f <> None
   /\ insert_html_at L 0 0 es = Ok (L', np, k)
   /\ doc_items (l_doc L') = Ok its' /\ plain its' = [120; 10; 97; 98; 10; 99; 100]%N
   /\ hd None (para_attrs (l_doc L')) = Some (None, g) /\ f_alignment g = f_alignment f
   /\ nth_error (para_attrs (l_doc L')) 1 = Some (Some (None, bfmt_default)).
Proof. exact html_format_w. Qed.
Print Assumptions html_format_lost_refuted.

(** In the paragraph before an empty last one, text of the HTML is lost. *)
Theorem insert_html_before_empty_refuted :
  exists L its es n L' np k its', tidy (l_doc L) /\ doc_items (l_doc L) = Ok its /\ n <= length its
   /\ insert_html_at L (Z.of_nat n) (Z.of_nat n) es = Ok (L', np, k)
   /\ plain (with_html n (flatten_to_blocks es) its) = [97; 98; 10; 99; 120; 10; 121; 100; 10]%N
   /\ doc_items (l_doc L') = Ok its' /\ plain its' = [97; 98; 10; 99; 10; 121; 100; 10]%N.
Proof. exact html_before_empty_w. Qed.
Print Assumptions insert_html_before_empty_refuted.

(** One heading inside a paragraph: two paragraphs more, but one is reported. *)
Theorem html_count_refuted :
  exists L its es n L' np its', tidy (l_doc L) /\ doc_items (l_doc L) = Ok its /\ n <= length its
   /\ insert_html_at L (Z.of_nat n) (Z.of_nat n) es = Ok (L', np, 1%Z)
   /\ doc_items (l_doc L') = Ok its' /\ count_paras its' = count_paras its + 2.
Proof. exact html_count_w. Qed.
Print Assumptions html_count_refuted.
