(** Concrete documents on which inserting Markdown goes wrong. *)
From Verif Require Import Base FormatRunsModel FormatRunsSpec RopeModel DocModel DocSpec HistModel QueryModel QuerySpec
  PropSpec DocTheorems QueryTheorems DocRefuted ListModel ListDocModel FragmentModel FragmentSpec FragmentRefuted
  ImportModel ImportSpec MdInsertModel MdInsertSpec MdInsertFacts MdInsertTheorems.

Definition some_span (t : str) : span := mk_span t false false false false false None.
Definition bold_span (t : str) : span := mk_span t true false false false false None.
Definition bare_block (t : str) : pblock := mk_pblock [some_span t] None None 0 false None 0 None None None None.
Definition heading_block (t : str) : pblock := mk_pblock [some_span t] (Some 1%Z) None 0 false None 0 None None None None.
Definition item_block (t : str) : pblock := mk_pblock [bold_span t] None (Some Disc) 0 false None 0 None None None None.
Definition code_block (t : str) : pblock := mk_pblock [some_span t] None None 0 true None 0 None None None None.

Lemma bare_block_bare t : bare (bare_block t).
Proof. now apply inline_bare. Qed.

(** "ab", "cd" and an empty paragraph. *)
Definition empty_end : doc := match insert_block two_paras 5 with Ok (d, _, _) => d | _ => new_document end.
Lemma empty_end_tidy : tidy empty_end.
Proof. eapply (tidy_break two_paras 5); [apply two_paras_tidy|vm_compute; reflexivity]. Qed.

(** "x" and "y" inserted in "cd": the "x" is lost. *)
Lemma before_empty_refuted_w :
  exists L its es n L' np k its', tidy (l_doc L) /\ lists_numbered L /\ doc_items (l_doc L) = Ok its /\ n <= length its
   /\ insert_markdown_at L (Z.of_nat n) (Z.of_nat n) es = Ok (L', np, k)
   /\ plain (with_markdown n (flatten_to_blocks es) its) = [97; 98; 10; 99; 120; 10; 121; 100; 10]%N
   /\ doc_items (l_doc L') = Ok its' /\ plain its' = [97; 98; 10; 99; 10; 121; 100; 10]%N.
Proof.
  exists (no_lists empty_end). eexists _, [PBlock (bare_block [120%N]); PBlock (bare_block [121%N])], 4, _, _, _, _.
  split; [apply empty_end_tidy|]. split; [easy|]. split; [vm_compute; reflexivity|]. split; [vm_compute; lia|]. split; [vm_compute; reflexivity|].
  split; [vm_compute; reflexivity|]. split; vm_compute; reflexivity.
Qed.

(** One heading inserted: the document has two paragraphs more, not one. *)
Lemma count_refuted_w :
  exists L its es n L' np its', tidy (l_doc L) /\ doc_items (l_doc L) = Ok its /\ n <= length its
   /\ insert_markdown_at L (Z.of_nat n) (Z.of_nat n) es = Ok (L', np, 1%Z)
   /\ doc_items (l_doc L') = Ok its' /\ count_paras its' = count_paras its + 2.
Proof.
  exists (no_lists two_paras). eexists _, [PBlock (heading_block [120%N])], 1, _, _, _.
  split; [apply two_paras_tidy|]. split; [vm_compute; reflexivity|]. split; [vm_compute; lia|]. split; [vm_compute; reflexivity|].
  split; vm_compute; reflexivity.
Qed.

(** A code block inserted is no code block. *)
Lemma code_refuted_w :
  exists L its es n L' np k l f, tidy (l_doc L) /\ doc_items (l_doc L) = Ok its /\ n <= length its
   /\ map pb_code (flatten_to_blocks es) = [true]
   /\ insert_markdown_at L (Z.of_nat n) (Z.of_nat n) es = Ok (L', np, k)
   /\ nth_error (para_attrs (l_doc L')) (S (breaks n its)) = Some (Some (l, f)) /\ f_is_code_block f = None.
Proof.
  exists (no_lists two_paras). eexists _, [PBlock (code_block [120%N])], 1, _, _, _, _, _.
  split; [apply two_paras_tidy|]. split; [vm_compute; reflexivity|]. split; [vm_compute; lia|]. split; [reflexivity|]. split; [vm_compute; reflexivity|].
  split; vm_compute; reflexivity.
Qed.
