(** Concrete searches and replacements in documents with a table. *)
From Coq Require Import Sorting.Permutation.
From Verif Require Import Base RopeModel SearchModel SearchSpec TableModel TableSpec TableFacts TablePlaces TableTextModel TableTextSpec TableTextRefuted TableEditModel TableEditSpec TableEditFacts TableEditSteps TableEditTheorems TableEditRefuted
  PropSpec FlowSpec XCopyRefuted XSearchModel XSearchSpec.
From Verif Require Import DocModel DocSpec.
Local Open Scope Z_scope.

(** "ab", a cell "p", "x", "yyyy"; then the "a" is deleted. *)
Definition four : doc := import_plain_text new_document [97; 98; 10; 120; 10; 121; 121; 121; 121]%N.
Lemma four_reach : reach four. Proof. repeat constructor. Qed.
Lemma four_counted : counted four. Proof. repeat constructor. Qed.
Definition early0 : xdoc := got (x_insert_table four 2 2 1 1 70%N 80%N).
Lemma early0_edited : edited early0.
Proof. apply (edited_new four 2 2 1 1 70%N 80%N); [exact four_reach|exact four_counted|apply got_ok; vm_compute; reflexivity]. Qed.
Definition early : xdoc := got_text (x_insert_text early0 3 [112]%N).
Lemma early_edited : edited early.
Proof. destruct (text_ok (x_insert_text early0 3 [112]%N)) as [q E]; [vm_compute; reflexivity|]. exact (edited_type early0 3 [112]%N early q early0_edited E). Qed.
Definition late : xdoc := got_some (x_delete early 0 1).
Definition late_texts : list str := [[98]; [112]; [120]; [121; 121; 121; 121]]%N.
Lemma one_cell x c : t_cells (x_table x) = [c] -> forall ts, map (fun b => text_of x (tb_id b)) (firstn (t_at (x_table x)) (t_others (x_table x)) ++ tc_blocks c ++ skipn (t_at (x_table x)) (t_others (x_table x))) = map Ok ts -> document_texts x ts.
Proof.
  intros E ts T. eexists. split; [|exact T]. exists [c]. rewrite E. split; [easy|]. split; [repeat constructor|]. cbn [flat_map]. now rewrite app_nil_r.
Qed.
Lemma late_read : document_texts late late_texts.
Proof. eapply one_cell; vm_compute; reflexivity. Qed.
(** The search says that the "p" of the cell is where the "x" is. *)
Lemma found_elsewhere_refuted : exists x x' ts m query, edited x /\ x_delete x 0 1 = Ok (Some x') /\ document_texts x' ts
  /\ x_find_all no_engines x' query plain_find = Ok [m] /\ occurs query (joined ts) 2 /\ ~ occurs query (joined ts) (fst m).
Proof.
  exists early, late, late_texts, (4%nat, 1%nat), [112]%N. split; [exact early_edited|]. split; [apply some_ok; vm_compute; reflexivity|]. split; [exact late_read|]. split; [vm_compute; reflexivity|].
  split; [exists [98; 10]%N, [10; 120; 10; 121; 121; 121; 121]%N; now split|]. intros (l & r & E & L). cbn in L. destruct l as [|? [|? [|? [|? [|]]]]]; try discriminate L. discriminate E.
Qed.
(** "p" is to become "q": the "p" stays, and a "y" becomes "q". *)
Lemma replaced_elsewhere_refuted : exists x x' x2 ts, edited x /\ x_delete x 0 1 = Ok (Some x') /\ document_texts x' ts /\ joined ts = [98; 10; 112; 10; 120; 10; 121; 121; 121; 121]%N
  /\ x_replace_text no_engines x' [112]%N [113]%N plain_find true = Ok (x2, 1, 0) /\ document_texts x2 [[98]; [112]; [120]; [113; 121; 121; 121]]%N.
Proof.
  exists early, late. eexists. exists late_texts. split; [exact early_edited|]. split; [apply some_ok; vm_compute; reflexivity|]. split; [exact late_read|]. split; [reflexivity|].
  split; [vm_compute; reflexivity|]. eapply one_cell; vm_compute; reflexivity.
Qed.
(** A query of one character. *)
Lemma no_overlap c text : never_overlaps [c] text.
Proof. intros p q _ _ H. cbn. lia. Qed.
Lemma four_ranges : fitting three_texts [(1, 1); (4, 3); (7, 1); (10, 2)]%nat.
Proof. split; [cbn; lia|]. repeat constructor; cbn; lia. Qed.
