(** Concrete documents on which inserting HTML goes wrong. *)
From Verif Require Import Base FormatRunsModel FormatRunsSpec RopeModel DocModel DocSpec HistModel QueryModel QuerySpec
  PropSpec DocTheorems QueryTheorems DocRefuted ListModel ListDocModel FragmentModel FragmentSpec FragmentRefuted
  ImportModel ImportSpec MdInsertModel MdInsertSpec MdInsertFacts MdInsertTheorems MdInsertRefuted
  HtmlInsertModel HtmlInsertSpec HtmlInsertTheorems.

Ltac show := split; [vm_compute; first [reflexivity | lia]|].

(** "x" and "y" inserted in "ab": six characters, but five are counted. *)
Lemma html_chars_w :
  exists L its es n L' np k its', tidy (l_doc L) /\ doc_items (l_doc L) = Ok its /\ n <= length its
   /\ d_chars (l_doc L) = Z.of_nat (count_chars its)
   /\ insert_html_at L (Z.of_nat n) (Z.of_nat n) es = Ok (L', np, k)
   /\ doc_items (l_doc L') = Ok its' /\ count_chars its' = 6 /\ d_chars (l_doc L') = 5%Z.
Proof.
  exists (no_lists two_paras). eexists _, [PBlock (bare_block [120%N]); PBlock (bare_block [121%N])], 1, _, _, _, _.
  split; [apply two_paras_tidy|]. do 6 show. vm_compute; reflexivity.
Qed.

(** A heading "x" inserted at the start of a text of three characters: one
    character is counted. *)
Definition one_para : doc := import_plain_text new_document [97; 98; 99]%N.
Lemma one_para_tidy : tidy one_para.
Proof. apply tidy_import. apply reach_new. Qed.
Lemma html_heading_chars_w :
  exists L its es n L' np k its', tidy (l_doc L) /\ doc_items (l_doc L) = Ok its /\ n <= length its
   /\ d_chars (l_doc L) = Z.of_nat (count_chars its)
   /\ insert_html_at L (Z.of_nat n) (Z.of_nat n) es = Ok (L', np, k)
   /\ doc_items (l_doc L') = Ok its' /\ count_chars its' = 4 /\ d_chars (l_doc L') = 1%Z.
Proof.
  exists (no_lists one_para). eexists _, [PBlock (heading_block [120%N])], 0, _, _, _, _.
  split; [apply one_para_tidy|]. do 6 show. vm_compute; reflexivity.
Qed.

(** A heading inserted at the start of a centred paragraph is centred, and the
    text that was centred is not. *)
Definition centred : doc := match set_block_format center_req two_paras 0 0 with Ok d => d | _ => new_document end.
Lemma centred_tidy : tidy centred.
Proof. eapply (tidy_block_format two_paras center_req 0 0); [apply two_paras_tidy|vm_compute; reflexivity]. Qed.
Lemma html_format_w :
  exists L its es L' np k f g its', tidy (l_doc L) /\ doc_items (l_doc L) = Ok its
   /\ plain its = [97; 98; 10; 99; 100]%N /\ hd None (para_attrs (l_doc L)) = Some (None, f) /\ f_alignment f <> None
   /\ insert_html_at L 0 0 es = Ok (L', np, k)
   /\ doc_items (l_doc L') = Ok its' /\ plain its' = [120; 10; 97; 98; 10; 99; 100]%N
   /\ hd None (para_attrs (l_doc L')) = Some (None, g) /\ f_alignment g = f_alignment f
   /\ nth_error (para_attrs (l_doc L')) 1 = Some (Some (None, bfmt_default)).
Proof.
  exists (no_lists centred). eexists _, [PBlock (heading_block [120%N])], _, _, _, _, _, _.
  split; [apply centred_tidy|]. do 3 show. split; [vm_compute; discriminate|]. do 5 show. vm_compute; reflexivity.
Qed.

(** In the paragraph before an empty last one, text is lost. *)
Lemma html_before_empty_w :
  exists L its es n L' np k its', tidy (l_doc L) /\ doc_items (l_doc L) = Ok its /\ n <= length its
   /\ insert_html_at L (Z.of_nat n) (Z.of_nat n) es = Ok (L', np, k)
   /\ plain (with_html n (flatten_to_blocks es) its) = [97; 98; 10; 99; 120; 10; 121; 100; 10]%N
   /\ doc_items (l_doc L') = Ok its' /\ plain its' = [97; 98; 10; 99; 10; 121; 100; 10]%N.
Proof.
  exists (no_lists empty_end). eexists _, [PBlock (bare_block [120%N]); PBlock (bare_block [121%N])], 4, _, _, _, _.
  split; [apply empty_end_tidy|]. do 5 show. vm_compute; reflexivity.
Qed.

(** One heading inside a paragraph: two paragraphs more, one reported. *)
Lemma html_count_w :
  exists L its es n L' np its', tidy (l_doc L) /\ doc_items (l_doc L) = Ok its /\ n <= length its
   /\ insert_html_at L (Z.of_nat n) (Z.of_nat n) es = Ok (L', np, 1%Z)
   /\ doc_items (l_doc L') = Ok its' /\ count_paras its' = count_paras its + 2.
Proof.
  exists (no_lists two_paras). eexists _, [PBlock (heading_block [120%N])], 1, _, _, _.
  split; [apply two_paras_tidy|]. do 4 show. vm_compute; reflexivity.
Qed.
