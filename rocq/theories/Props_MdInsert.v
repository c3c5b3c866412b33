(** C78: inserting Markdown at a position. *)
From Verif Require Import Base FormatRunsModel FormatRunsSpec RopeModel DocModel DocSpec HistModel QueryModel QuerySpec
  PropSpec DocTheorems QueryTheorems DocRefuted ListModel ListDocModel FragmentModel FragmentSpec FragmentRefuted
  ImportModel ImportSpec MdInsertModel MdInsertSpec MdInsertTheorems MdInsertRefuted.

(** The parsed paragraphs that are merged into the text around them are those
    without paragraph formatting. *)
Theorem inserted_bare : forall b, is_inline b = true <-> bare b.
Proof. exact inline_bare. Qed.
Print Assumptions inserted_bare.
Example inserted_bare_case : bare (bare_block [97%N]) /\ ~ bare (heading_block [97%N]).
Proof. split; [now apply inserted_bare|]. intros H. apply inserted_bare in H. discriminate. Qed.

(** The text of the Markdown is inserted at the place, with its character
    formats, with the breaks between its paragraphs and those that keep
    formatted paragraphs apart; the stored positions stay right, both counts
    grow by what was inserted, the position returned is the end of it and the
    number of paragraphs returned is right unless one formatted paragraph was
    inserted. Left out: documents with stale positions, and the paragraph
    before an empty last one. *)
Theorem insert_markdown_partial : forall L its n es, tidy (l_doc L) -> doc_items (l_doc L) = Ok its -> n <= length its ->
  let bs := flatten_to_blocks es in one_bare bs \/ ~ before_empty_end n its ->
  exists L' k, insert_markdown_at L (Z.of_nat n) (Z.of_nat n) es = Ok (L', Z.of_nat (length (firstn n its ++ inserted bs)), k)
   /\ doc_items (l_doc L') = Ok (with_markdown n bs its)
   /\ fresh_positions (l_doc L')
   /\ d_nblocks (l_doc L') = (d_nblocks (l_doc L) + Z.of_nat (added bs))%Z
   /\ d_chars (l_doc L') = (d_chars (l_doc L) + Z.of_nat (count_chars (inserted bs)))%Z
   /\ (length bs <> 1 \/ one_bare bs -> k = Z.of_nat (added bs)).
Proof. exact insert_theorem. Qed.
Print Assumptions insert_markdown_partial.
Example insert_markdown_case : tidy two_paras /\ ~ before_empty_end 1 (text_items [97; 98; 10; 99; 100]%N)
  /\ doc_items two_paras = Ok (text_items [97; 98; 10; 99; 100]%N)
  /\ exists L' its', insert_markdown_at (no_lists two_paras) 1 1 [PBlock (bare_block [120%N]); PBlock (item_block [121%N])] = Ok (L', 5%Z, 2%Z)
     /\ doc_items (l_doc L') = Ok its' /\ plain its' = [97; 120; 10; 121; 10; 98; 10; 99; 100]%N.
Proof.
  split; [apply two_paras_tidy|]. split.
  - intros (u & H & _). apply (f_equal (@rev _)) in H. rewrite rev_app_distr in H. discriminate.
  - split; [vm_compute; reflexivity|]. eexists _, _. split; [vm_compute; reflexivity|]. split; vm_compute; reflexivity.
Qed.

(** The paragraph is cut into two with its list and format on both sides; the
    paragraphs of their own between them have their heading level, and are in
    lists with the style and indent they are read with. Lists that were there
    stay as they are. *)
Theorem inserted_formats_partial : forall L its n es, tidy (l_doc L) -> lists_numbered L -> doc_items (l_doc L) = Ok its -> n <= length its ->
  let bs := flatten_to_blocks es in let k := breaks n its in let before := para_attrs (l_doc L) in
  one_bare bs \/ ~ before_empty_end n its ->
  exists L' np c, insert_markdown_at L (Z.of_nat n) (Z.of_nat n) es = Ok (L', np, c)
   /\ (one_bare bs -> para_attrs (l_doc L') = before)
   /\ (~ one_bare bs -> exists cur own, nth_error before k = Some (Some cur)
        /\ para_attrs (l_doc L') = firstn k before ++ map Some (cur :: own ++ [cur]) ++ skipn (S k) before
        /\ Forall2 (as_read L') (own_paragraphs bs) own)
   /\ more_lists L L' /\ lists_numbered L'.
Proof. exact attrs_theorem. Qed.
Print Assumptions inserted_formats_partial.
Example inserted_formats_case : lists_numbered (no_lists two_paras)
  /\ own_paragraphs (flatten_to_blocks [PBlock (bare_block [120%N]); PBlock (item_block [121%N])]) = [item_block [121%N]]
  /\ exists L' i e, insert_markdown_at (no_lists two_paras) 1 1 [PBlock (bare_block [120%N]); PBlock (item_block [121%N])] = Ok (L', 5%Z, 2%Z)
     /\ nth_error (para_attrs (l_doc L')) 1 = Some (Some (Some i, inserted_fmt (item_block [121%N]))) /\ get_list L' i = Some e /\ l_style e = Disc.
Proof.
  split; [easy|]. split; [reflexivity|]. eexists _, _, _. split; [vm_compute; reflexivity|]. split; [vm_compute; reflexivity|].
  split; [vm_compute; reflexivity|vm_compute; reflexivity].
Qed.

(** With a selection nothing is inserted. *)
Theorem insert_markdown_selection : forall L p a es, p <> a -> insert_markdown_at L p a es = Err.
Proof. exact selected_theorem. Qed.
Print Assumptions insert_markdown_selection.
Example insert_markdown_selection_case : insert_markdown_at (no_lists two_paras) 1 2 [PBlock (bare_block [120%N])] = Err.
Proof. reflexivity. Qed.

(** In the paragraph before an empty last one, text of the Markdown is lost. *)
Theorem insert_markdown_before_empty_refuted :
  exists L its es n L' np k its', tidy (l_doc L) /\ lists_numbered L /\ doc_items (l_doc L) = Ok its /\ n <= length its
   /\ insert_markdown_at L (Z.of_nat n) (Z.of_nat n) es = Ok (L', np, k)
   /\ plain (with_markdown n (flatten_to_blocks es) its) = [97; 98; 10; 99; 120; 10; 121; 100; 10]%N
   /\ doc_items (l_doc L') = Ok its' /\ plain its' = [97; 98; 10; 99; 10; 121; 100; 10]%N.
Proof. exact before_empty_refuted_w. Qed.
Print Assumptions insert_markdown_before_empty_refuted.

(** One heading: two paragraphs more, but one is reported. *)
Theorem inserted_count_refuted :
  exists L its es n L' np its', tidy (l_doc L) /\ doc_items (l_doc L) = Ok its /\ n <= length its
   /\ insert_markdown_at L (Z.of_nat n) (Z.of_nat n) es = Ok (L', np, 1%Z)
   /\ doc_items (l_doc L') = Ok its' /\ count_paras its' = count_paras its + 2.
Proof. exact count_refuted_w. Qed.
Print Assumptions inserted_count_refuted.

(** A code block is inserted as an ordinary paragraph. *)
Theorem inserted_code_refuted :
  exists L its es n L' np k l f, tidy (l_doc L) /\ doc_items (l_doc L) = Ok its /\ n <= length its
   /\ map pb_code (flatten_to_blocks es) = [true]
   /\ insert_markdown_at L (Z.of_nat n) (Z.of_nat n) es = Ok (L', np, k)
   /\ nth_error (para_attrs (l_doc L')) (S (breaks n its)) = Some (Some (l, f)) /\ f_is_code_block f = None.
Proof. exact code_refuted_w. Qed.
Print Assumptions inserted_code_refuted.
