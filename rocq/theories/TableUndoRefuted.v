(** Concrete sessions of table operations. *)
From Verif Require Import Base RopeModel TableModel TableSpec TableTextModel TableTextSpec TableTextRefuted DocModel DocSpec PropSpec UndoModel SessionModel
  TableUndoModel TableUndoSpec.
Local Open Scope Z_scope.

Lemma table_session_rests : resting table_session.
Proof. constructor; [reflexivity|reflexivity|]. vm_compute. discriminate. Qed.
Lemma t_stuck s c : t_step s c = Ok (s, false) -> forall n, t_run s (repeat c n) = Ok (s, repeat false n).
Proof. intros H. induction n as [|n IH]; [easy|]. cbn [repeat t_run]. rewrite H. cbn [bind]. rewrite IH. easy. Qed.

(** A page without a table; the page with a table of two cells, "p" and "q". *)
Definition bare_page : tstate := Plain page 80%N 70%N.
Definition filled_page : tstate := Tabled filled 71%N.
Lemma bare_page_starts : starting bare_page. Proof. exact page_reach. Qed.
Lemma filled_page_starts : starting filled_page. Proof. split; [exact filled_history|vm_compute; reflexivity]. Qed.

(** A table is made and a row added; both are undone. The table made again has
    another number, and the row can not be added again. *)
Lemma redo_row_refuted_w : exists c r1 r2 s1 s2, starting c
  /\ t_run (c, table_session) [TDo r1; TDo r2] = Ok (s1, [true; true])
  /\ t_run s1 [TUndo; TUndo; TRedo; TRedo] = Ok (s2, [true; true; true; false])
  /\ (forall n, t_run s2 (repeat TRedo n) = Ok (s2, repeat false n))
  /\ ~ same_but_new_numbers (counters c) (fst s1) (fst s2).
Proof.
  exists bare_page, (NewTable 8 8 1 2), (OnTable 70%N (InsertRow 1)). eexists _, _. split; [exact bare_page_starts|].
  split; [vm_compute; reflexivity|]. split; [vm_compute; reflexivity|]. split; [apply t_stuck; vm_compute; reflexivity|].
  cbn [fst]. intros H. apply (f_equal k_rows) in H. vm_compute in H. discriminate H.
Qed.
(** The same with a table that was there: a row is added, its cells merged, the
    merged cell split. *)
Lemma redo_split_refuted_w : exists c r1 r2 r3 s1 s2, starting c
  /\ t_run (c, table_session) [TDo r1; TDo r2; TDo r3] = Ok (s1, [true; true; true])
  /\ t_run s1 [TUndo; TUndo; TUndo; TRedo; TRedo; TRedo] = Ok (s2, [true; true; true; true; true; false])
  /\ (forall n, t_run s2 (repeat TRedo n) = Ok (s2, repeat false n))
  /\ ~ same_but_new_numbers (counters c) (fst s1) (fst s2).
Proof.
  exists filled_page, (OnTable 70%N (InsertRow 1)), (OnTable 70%N (Merge 1 0 1 1)), (OnTable 70%N (Split 82%N 1 2)). eexists _, _. split; [exact filled_page_starts|].
  split; [vm_compute; reflexivity|]. split; [vm_compute; reflexivity|]. split; [apply t_stuck; vm_compute; reflexivity|].
  cbn [fst]. intros H. apply (f_equal (fun l => length (k_cells l))) in H. vm_compute in H. discriminate H.
Qed.

(** A row, a merge, the table removed; then back and forth. *)
Definition three_changes : list trequest := [OnTable 70%N (InsertRow 1); OnTable 70%N (Merge 0 0 0 1); DropTable 70%N].
Definition to_and_fro : list tcall := [TUndo; TUndo; TUndo; TRedo; TUndo; TRedo; TRedo].
Lemma three_changes_case : starting filled_page /\ resting table_session /\ Forall (names_old (counters filled_page)) three_changes
  /\ (exists s, t_run (filled_page, table_session) (map TDo three_changes) = Ok (s, [true; true; true]))
  /\ walk 3 3 to_and_fro = Some 2%nat.
Proof.
  split; [exact filled_page_starts|]. split; [exact table_session_rests|]. split; [repeat constructor|]. split; [|reflexivity].
  eexists. vm_compute. reflexivity.
Qed.
