(** Concrete documents with a table, edited at positions. *)
From Coq Require Import Sorting.Permutation.
From Verif Require Import Base RopeModel TableModel TableSpec TableFacts TablePlaces TableTextModel TableTextSpec TableTextRefuted TableEditModel TableEditSpec TableEditFacts TableEditSteps TableEditTheorems PropSpec FlowSpec.
From Verif Require Import DocModel DocSpec.
Local Open Scope Z_scope.

Definition right_texts (ts : list (res str)) : list str := flat_map (fun r => match r with Ok t => [t] | _ => [] end) ts.
Definition read_texts (x : xdoc) : list str := right_texts (map (fun b => text_of x (tb_id b)) (flow_blocks (x_table x))).
Lemma read_ok x : edited x -> document_texts x (read_texts x).
Proof.
  intros H. assert (I := edited_inv _ H). destruct (inv_seen _ I) as [ts Se]. replace (read_texts x) with ts; [now apply texts_seen|]. unfold read_texts. rewrite (seen_texts _ _ _ Se).
  unfold right_texts. clear. induction ts as [|t ts IH]; [easy|]. cbn. now rewrite <- IH.
Qed.
Lemma outside_ok x k b : edited x -> nth_error (flow_blocks (x_table x)) k = Some b -> In b (t_others (x_table x)) -> outside x k.
Proof. intros H N Hb. exists (flow_blocks (x_table x)), b. split; [|easy]. apply order_flow; [apply (inv_history _ (edited_inv _ H))|easy]. Qed.
Definition got_text (r : res (xdoc * Z)) : xdoc := match r with Ok (x, _) => x | _ => got Panic end.
Definition got_some (r : res (option xdoc)) : xdoc := match r with Ok (Some x) => x | _ => got Panic end.
Definition is_some (r : res (option xdoc)) : bool := match r with Ok (Some _) => true | _ => false end.
Lemma some_ok r : is_some r = true -> r = Ok (Some (got_some r)). Proof. destruct r as [[x|]| |]; easy. Qed.
Lemma text_ok r : fine r = true -> exists q, r = Ok (got_text r, q). Proof. destruct r as [[x q]| |]; try easy. now exists q. Qed.

(** "ab", a table of one cell, "cdefgh". *)
Definition two : doc := import_plain_text new_document [97; 98; 10; 99; 100; 101; 102; 103; 104]%N.
Lemma two_reach : reach two. Proof. repeat constructor. Qed.
Lemma two_counted : counted two. Proof. repeat constructor. Qed.
Definition between : xdoc := got (x_insert_table two 2 2 1 1 70%N 80%N).
Lemma between_edited : edited between.
Proof. apply (edited_new two 2 2 1 1 70%N 80%N); [exact two_reach|exact two_counted|apply got_ok; vm_compute; reflexivity]. Qed.
Definition between_texts : list str := [[97; 98]; []; [99; 100; 101; 102; 103; 104]]%N.
Lemma between_read : document_texts between between_texts.
Proof. assert (R := read_ok _ between_edited). assert (E : read_texts between = between_texts) by (vm_compute; reflexivity). now rewrite E in R. Qed.
(** The selection of "c" deletes "d". *)
Definition wrong_letter : xdoc := got_some (x_delete between 4 5).
Lemma wrong_letter_texts : map (fun b => text_of wrong_letter (tb_id b)) (t_others (x_table wrong_letter)) = [Ok [97; 98]%N; Ok [99; 101; 102; 103; 104]%N].
Proof. vm_compute. reflexivity. Qed.
Lemma deletion_refuted : exists x ts k x', edited x /\ document_texts x ts /\ holds ts k 4 /\ holds ts k 5
  /\ nth_error (joined ts) 4 = Some 99%N /\ x_delete x 4 5 = Ok (Some x')
  /\ map (fun b => text_of x' (tb_id b)) (t_others (x_table x')) = [Ok [97; 98]%N; Ok [99; 101; 102; 103; 104]%N].
Proof.
  exists between, between_texts, 2%nat, wrong_letter. split; [exact between_edited|]. split; [exact between_read|]. split; [eexists; split; [reflexivity|]; cbn; lia|].
  split; [eexists; split; [reflexivity|]; cbn; lia|]. split; [reflexivity|]. split; [apply some_ok; vm_compute; reflexivity|exact wrong_letter_texts].
Qed.
(** Deleting the "a" above the table leaves the paragraph below at a wrong place. *)
Definition wrong_place : xdoc := got_some (x_delete between 0 1).
Lemma deletion_places_refuted : exists x x', edited x /\ placed (x_table x) /\ x_delete x 0 1 = Ok (Some x') /\ ~ placed (x_table x').
Proof.
  exists between, wrong_place. split; [exact between_edited|]. split; [apply placed_flow; [apply (inv_history _ (edited_inv _ between_edited))|apply (inv_placed _ (edited_inv _ between_edited))]|].
  split; [apply some_ok; vm_compute; reflexivity|]. intros (l & P & _ & I).
  assert (Ec : t_cells (x_table wrong_place) = [mk_tcell 80 0 0 1 1 0 [mk_tblock 4 2 0]]%N) by (vm_compute; reflexivity). rewrite Ec in P. apply Permutation_sym, Permutation_length_1_inv in P. subst l.
  assert (Eo : t_others (x_table wrong_place) = [mk_tblock 2%N 0 1; mk_tblock 3%N 2 6]) by (vm_compute; reflexivity). assert (Ea : t_at (x_table wrong_place) = 1%nat) by (vm_compute; reflexivity).
  rewrite Eo, Ea in I. cbn in I. lia.
Qed.

(** "p" typed into the cell, then a break in the paragraph below, then "q" at the end. *)
Definition typed : xdoc := got_text (x_insert_text between 3 [112]%N).
Lemma typed_edited : edited typed.
Proof. destruct (text_ok (x_insert_text between 3 [112]%N)) as [q E]; [vm_compute; reflexivity|]. exact (edited_type between 3 [112]%N typed q between_edited E). Qed.
Definition typed_texts : list str := [[97; 98]; [112]; [99; 100; 101; 102; 103; 104]]%N.
Lemma typed_read : document_texts typed typed_texts.
Proof. assert (R := read_ok _ typed_edited). assert (E : read_texts typed = typed_texts) by (vm_compute; reflexivity). now rewrite E in R. Qed.
Lemma typed_outside : outside typed 2.
Proof. apply (outside_ok _ _ (mk_tblock 3%N 5 6) typed_edited); [vm_compute; reflexivity|]. vm_compute. auto. Qed.
Definition typed_broken : xdoc := got (x_break_at typed 7).
Lemma typed_broken_edited : edited typed_broken.
Proof.
  apply (edited_break typed typed_texts 2 7); [exact typed_edited|exact typed_read|eexists; split; [reflexivity|cbn; lia]|exact typed_outside|apply got_ok; vm_compute; reflexivity].
Qed.
(** The table at the end, "pq" typed into its second cell. *)
Definition ending : xdoc := got (x_insert_table two 9 9 1 2 70%N 80%N).
Lemma ending_edited : edited ending.
Proof. apply (edited_new two 9 9 1 2 70%N 80%N); [exact two_reach|exact two_counted|apply got_ok; vm_compute; reflexivity]. Qed.
Definition ending_typed : xdoc := got_text (x_insert_text ending 11 [112; 113]%N).
Lemma ending_typed_edited : edited ending_typed.
Proof. destruct (text_ok (x_insert_text ending 11 [112; 113]%N)) as [q E]; [vm_compute; reflexivity|]. exact (edited_type ending 11 [112; 113]%N ending_typed q ending_edited E). Qed.
Definition ending_texts : list str := [[97; 98]; [99; 100; 101; 102; 103; 104]; []; [112; 113]]%N.
Lemma ending_read : document_texts ending_typed ending_texts.
Proof. assert (R := read_ok _ ending_typed_edited). assert (E : read_texts ending_typed = ending_texts) by (vm_compute; reflexivity). now rewrite E in R. Qed.
Lemma ending_last : table_last ending_typed.
Proof. unfold table_last. vm_compute. lia. Qed.
