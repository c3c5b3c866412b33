(** Deleting a selection over several cells of a table (C77). *)
From Verif Require Import Base RopeModel TableModel TableSpec TableTextModel TableTextSpec TableEditModel TableEditSpec PropSpec FlowSpec
  XDeleteModel XDeleteSpec XDeleteTheorems XDeleteRefuted.
Local Open Scope Z_scope.

(** When no paragraph comes after the table, the selection touches two or more cells,
    nothing outside the table, and not all cells: the cells it touches are empty
    afterwards and every other paragraph has its text. The table keeps its rows, columns,
    cells and paragraphs; the counts are right. This holds for all orders in which the
    cells are stored. Missing: selections that begin above the table, and those that take
    the whole table away. *)
Theorem delete_over_cells_partial : forall x ts p a, edited x -> table_last x -> document_texts x ts ->
  let s := Nat.min p a in let e := Nat.max p a in
  (forall k, touches ts s e k -> ~ outside x k) -> (exists j k, j <> k /\ touches ts s e j /\ touches ts s e k) ->
  (exists k, (k < length ts)%nat /\ ~ outside x k /\ ~ touches ts s e k) ->
  exists x' ts', x_delete_cells x (Z.of_nat p) (Z.of_nat a) = Ok (Some (x', [])) /\ document_texts x' ts' /\ emptied ts s e ts'
   /\ same_shape (x_table x) (x_table x') /\ t_count (x_table x') = Z.of_nat (length ts') /\ t_chars (x_table x') = Z.of_nat (length (concat ts')).
Proof. exact delete_cells_theorem. Qed.
Print Assumptions delete_over_cells_partial.
Example delete_over_cells_case : edited last3 /\ table_last last3 /\ document_texts last3 last3_texts
  /\ (forall k, touches last3_texts 10 12 k -> ~ outside last3 k) /\ touches last3_texts 10 12 2 /\ touches last3_texts 10 12 3
  /\ ~ outside last3 4 /\ ~ touches last3_texts 10 12 4 /\ t_chars (x_table last3) = 11
  /\ exists x', x_delete_cells last3 12 10 = Ok (Some (x', [])) /\ document_texts x' [[97; 98]; [99; 100; 101; 102; 103; 104]; []; []; [113]]%N /\ t_chars (x_table x') = 9.
Proof.
  split; [exact last3_edited|]. split; [exact last3_last|]. split; [exact last3_read|]. split.
  { intros k (t & E & A & B). apply last3_inside. destruct k as [|[|k]]; [| |lia]; cbn in E; injection E as <-; cbn in B; lia. }
  split; [eexists; split; [reflexivity|]; cbn; lia|]. split; [eexists; split; [reflexivity|]; cbn; lia|]. split; [apply last3_inside; lia|].
  split; [intros (t & _ & A & _); cbn in A; lia|]. split; [vm_compute; reflexivity|]. exists (got_cells (x_delete_cells last3 12 10) last3).
  split; [vm_compute; reflexivity|]. split; [apply texts_read; vm_compute; reflexivity|vm_compute; reflexivity].
Qed.

(** The Delete key at the end of a cell deletes one position, the one between that cell
    and the next: both lose all their text, and none is reported as deleted. *)
Theorem delete_between_cells_refuted : exists x ts s x' ts', edited x /\ table_last x /\ document_texts x ts /\ holds ts 2 s /\ holds ts 3 (S s) /\ ~ outside x 2 /\ ~ outside x 3
  /\ selected ts s (S s) = [NL] /\ x_delete_cells x (Z.of_nat s) (Z.of_nat (S s)) = Ok (Some (x', [])) /\ document_texts x' ts'
  /\ nth_error ts 2 = Some [120]%N /\ nth_error ts' 2 = Some [] /\ nth_error ts 3 = Some [121]%N /\ nth_error ts' 3 = Some [].
Proof. exact two_emptied_refuted. Qed.
Print Assumptions delete_between_cells_refuted.

(** Cells deleted in a table with a paragraph below: the paragraph loses text too. *)
Theorem delete_cells_below_refuted : exists x ts s e k t x' ts', edited x /\ document_texts x ts /\ outside x k /\ ~ touches ts s e k /\ nth_error ts k = Some t
  /\ x_delete_cells x (Z.of_nat s) (Z.of_nat e) = Ok (Some (x', [])) /\ document_texts x' ts' /\ nth_error ts' k = Some (skipn 3 t) /\ (3 < length t)%nat.
Proof. exact below_deleted_refuted. Qed.
Print Assumptions delete_cells_below_refuted.

(** The Delete key in an empty cell before the last one changes no text; what is typed
    there next is in the following cell. *)
Theorem type_after_delete_refuted : exists x ts k p x1 x2 q ts2, edited x /\ table_last x /\ document_texts x ts /\ holds ts k p /\ ~ outside x k /\ nth_error ts k = Some []
  /\ x_delete_cells x (Z.of_nat p) (Z.of_nat (S p)) = Ok (Some (x1, [])) /\ document_texts x1 ts
  /\ x_insert_text x1 (Z.of_nat p) [65]%N = Ok (x2, q) /\ document_texts x2 ts2 /\ nth_error ts2 k = Some [] /\ nth_error ts2 (S k) = Some [65]%N.
Proof. exact next_cell_refuted. Qed.
Print Assumptions type_after_delete_refuted.
