(** Undo and redo of table operations (C73): a table made, rows and columns added
    and removed, cells merged and split, the table removed. *)
From Verif Require Import Base RopeModel TableModel TableSpec TableTextModel TableTextSpec DocModel DocSpec PropSpec UndoModel SessionModel
  TableUndoModel TableUndoSpec TableUndoSteps TableUndoRefuted.
Local Open Scope Z_scope.

(** Whatever was done, undoing it all gives back the document there was: the same
    table, the same cells and paragraphs under the same numbers. *)
Theorem table_undo_all : forall s rs s1, resting (snd s) -> t_run s (map TDo rs) = Ok (s1, repeat true (length rs)) ->
  exists s2, t_run s1 (repeat TUndo (length rs)) = Ok (s2, repeat true (length rs)) /\ same_content (fst s) (fst s2).
Proof. exact table_undo_all_theorem. Qed.
Print Assumptions table_undo_all.
Example table_undo_all_case : resting table_session
  /\ exists s1, t_run (filled_page, table_session) (map TDo three_changes) = Ok (s1, [true; true; true]) /\ ~ same_content filled_page (fst s1).
Proof.
  split; [exact table_session_rests|]. eexists. split; [vm_compute; reflexivity|]. vm_compute. intros H. exact H.
Qed.
(** With a history, making a table, changing it and removing it do what they do
    without one (C64). *)
Theorem table_call_alone : forall m,
  (forall d cells tables p a rows cols x, x_insert_table d p a rows cols tables cells = Ok x ->
     exists m', t_step (Plain d cells tables, m) (TDo (NewTable p a rows cols)) = Ok ((Tabled x (N.succ tables), m'), true))
  /\ (forall x tables o x', x_step x o = Ok x' ->
     exists m', t_step (Tabled x tables, m) (TDo (OnTable (x_tid x) o)) = Ok ((Tabled x' tables, m'), true))
  /\ (forall x tables others n chars st, x_remove_table x = Ok (others, n, chars, st) ->
     exists m', t_step (Tabled x tables, m) (TDo (DropTable (x_tid x)))
                = Ok ((Bare others n chars st (t_nextb (x_table x)) (t_next (x_table x)) tables, m'), true)).
Proof. exact table_alone_theorem. Qed.
Print Assumptions table_call_alone.
Example table_call_alone_case : match filled_page with
  | Tabled x _ => (exists x', x_step x (Merge 0 0 0 1) = Ok x') /\ exists y, x_remove_table x = Ok y
  | _ => False end.
Proof. split; eexists; vm_compute; reflexivity. Qed.
(** A call that fails changes nothing, the history included. *)
Theorem table_call_fails : forall s r s', t_step s (TDo r) = Ok (s', false) -> s' = s.
Proof. exact table_failed_theorem. Qed.
Print Assumptions table_call_fails.
Example table_call_fails_case : t_step (filled_page, table_session) (TDo (OnTable 70%N (RemoveRow 0))) = Ok ((filled_page, table_session), false).
Proof. vm_compute. reflexivity. Qed.
(** Any way of going back and forth through calls that have succeeded leads to the
    document as it was after as many of them, with the same numbers for everything
    that was there at the start. Missing: calls that name a table or a cell made by
    one of the calls undone; see below. *)
Theorem table_back_and_forth_partial : forall c m rs s us k, starting c -> resting m -> Forall (names_old (counters c)) rs ->
  t_run (c, m) (map TDo rs) = Ok (s, repeat true (length rs)) -> walk (length rs) (length rs) us = Some k ->
  exists s' c1 m1, t_run s us = Ok (s', repeat true (length us))
    /\ t_run (c, m) (map TDo (firstn k rs)) = Ok ((c1, m1), repeat true k) /\ same_but_new_numbers (counters c) c1 (fst s').
Proof. exact table_back_theorem. Qed.
Print Assumptions table_back_and_forth_partial.
Example table_back_and_forth_case : starting filled_page /\ resting table_session /\ Forall (names_old (counters filled_page)) three_changes
  /\ (exists s, t_run (filled_page, table_session) (map TDo three_changes) = Ok (s, [true; true; true]))
  /\ walk 3 3 to_and_fro = Some 2%nat.
Proof. exact three_changes_case. Qed.
(** A table is made and a row added. Undone twice, the table can be made again, but
    the row not: redo fails from then on. *)
Theorem redo_row_refuted : exists c r1 r2 s1 s2, starting c
  /\ t_run (c, table_session) [TDo r1; TDo r2] = Ok (s1, [true; true])
  /\ t_run s1 [TUndo; TUndo; TRedo; TRedo] = Ok (s2, [true; true; true; false])
  /\ (forall n, t_run s2 (repeat TRedo n) = Ok (s2, repeat false n))
  /\ ~ same_but_new_numbers (counters c) (fst s1) (fst s2).
Proof. exact redo_row_refuted_w. Qed.
Print Assumptions redo_row_refuted.
(** The same in a table that was there, with a cell of a new row. *)
Theorem redo_split_refuted : exists c r1 r2 r3 s1 s2, starting c
  /\ t_run (c, table_session) [TDo r1; TDo r2; TDo r3] = Ok (s1, [true; true; true])
  /\ t_run s1 [TUndo; TUndo; TUndo; TRedo; TRedo; TRedo] = Ok (s2, [true; true; true; true; true; false])
  /\ (forall n, t_run s2 (repeat TRedo n) = Ok (s2, repeat false n))
  /\ ~ same_but_new_numbers (counters c) (fst s1) (fst s2).
Proof. exact redo_split_refuted_w. Qed.
Print Assumptions redo_split_refuted.
