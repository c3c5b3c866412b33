(** Table operations as undo/redo commands, and a session made of them.

    Sources: crates/document_editing/src/use_cases/{insert_table,insert_table_row,
    insert_table_column,remove_table_row,remove_table_column,remove_table,
    merge_table_cells,split_table_cell}_uc.rs, their controllers, and
    crates/public_api/src/{cursor,document}.rs. *)
From Verif Require Import Base RopeModel DocModel HistModel UndoModel SessionModel TableModel TableSpec TableTextModel.

(** What a document holds: no table; one table; what is left when the table has
    been removed. With each, the counters that number new blocks, cells and
    tables; those of blocks are in [d_next] and [t_nextb], those of cells in
    [t_next]. *)
Inductive tstate :=
| Plain (d : doc) (cells tables : id)
| Tabled (x : xdoc) (tables : id)
| Bare (others : list tblock) (n chars : Z) (st : rstore) (blocks cells tables : id).
Definition counters (c : tstate) : id * id * id :=
  match c with
  | Plain d nc nt => (d_next d, nc, nt)
  | Tabled x nt => (t_nextb (x_table x), t_next (x_table x), nt)
  | Bare _ _ _ _ nb nc nt => (nb, nc, nt)
  end.
Definition set_counters (c : tstate) (n : id * id * id) : tstate :=
  let '(nb, nc, nt) := n in
  match c with
  | Plain d _ _ => Plain (set_next d nb) nc nt
  | Tabled x _ =>
      let d := x_table x in
      Tabled (mk_xdoc (mk_tdoc (t_rows d) (t_cols d) (t_widths d) (t_cells d) (t_others d) (t_at d) (t_count d) (t_chars d) nc nb)
                (x_store x) (x_tid x)) nt
  | Bare others n ch st _ _ _ => Bare others n ch st nb nc nt
  end.
(** rope_store.rs:101-115 [restore_without_counters]. *)
Definition restored (now snap : tstate) : tstate := set_counters snap (counters now).

(** The DTOs ([last_dto]), dtos.rs:131-200. That of a split names the cell only;
    the table given here is not looked at then. *)
Inductive trequest :=
| NewTable (p a rows cols : Z) | OnTable (t : id) (o : top) | DropTable (t : id).
(** The eight [execute] functions. A table that is not there is an error (for
    example insert_table_row_uc.rs:63-66, split_table_cell_uc.rs:66-69). A second
    table, and a table in a document that has lost its table, are not modelled:
    the value is [Panic], and no theorem speaks of it. *)
Definition carry_out (c : tstate) (r : trequest) : res tstate :=
  match r, c with
  | NewTable p a rows cols, Plain d nc nt =>
      let! x := x_insert_table d p a rows cols nt nc in Ok (Tabled x (N.succ nt))
  | NewTable _ _ _ _, _ => Panic
  | OnTable _ (Split i sr sc), Tabled x nt => let! x' := x_step x (Split i sr sc) in Ok (Tabled x' nt)
  | OnTable t o, Tabled x nt => if N.eqb t (x_tid x) then let! x' := x_step x o in Ok (Tabled x' nt) else Err
  | OnTable _ _, _ => Err
  | DropTable t, Tabled x nt =>
      if N.eqb t (x_tid x) then
        let! (others, n, ch, st) := x_remove_table x in
        Ok (Bare others n ch st (t_nextb (x_table x)) (t_next (x_table x)) nt)
      else Err
  | DropTable _, _ => Err
  end.

(** A use case with its request and the snapshot taken before the first change
    (for example insert_table_row_uc.rs:231-240). *)
Record tcmd := mk_tcmd { tq : trequest; tsnap : tstate }.
(** The [undo] methods, for example insert_table_row_uc.rs:243-254. *)
Definition undo_t (c : tstate) (k : tcmd) : res tstate := Ok (restored c (tsnap k)).
(** The [redo] methods, for example insert_table_row_uc.rs:256-268: the request is
    carried out again, and a new snapshot taken. *)
Definition redo_t (c : tstate) (k : tcmd) : res (tstate * tcmd) :=
  let! c' := carry_out c (tq k) in Ok (c', mk_tcmd (tq k) c).
(** [can_merge] is the default (undo_redo.rs:38-40). *)
Definition merge_t (_ _ : tcmd) : option tcmd := None.

Definition tsession := (tstate * manager tcmd)%type.
Definition table_session : manager tcmd := fst (m_create new_manager).
(** cursor.rs:773-1008, document.rs:795-840 [undo], [redo]. *)
Inductive tcall := TDo (r : trequest) | TUndo | TRedo.
(** The controllers: execute, then [add_command_to_stack]. The boolean is [false]
    when the caller gets an error. *)
Definition t_step (s : tsession) (k : tcall) : res (tsession * bool) :=
  match k with
  | TDo r =>
      match carry_out (fst s) r with
      | Ok c => Ok ((c, fst (m_add merge_t (snd s) (mk_tcmd r (fst s)) here)), true)
      | Err => Ok (s, false)
      | Panic => Panic
      end
  | TUndo => let! (c, m, ok) := m_undo undo_t (fst s) (snd s) here in Ok ((c, m), ok)
  | TRedo => let! (c, m, ok) := m_redo redo_t (fst s) (snd s) here in Ok ((c, m), ok)
  end.
Fixpoint t_run (s : tsession) (ks : list tcall) : res (tsession * list bool) :=
  match ks with
  | [] => Ok (s, [])
  | k :: rest => let! (s1, ok) := t_step s k in let! (s2, oks) := t_run s1 rest in Ok (s2, ok :: oks)
  end.
