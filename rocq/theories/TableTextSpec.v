(** What table edits should do to the text of a document. *)
From Verif Require Import Base RopeModel TableModel TableSpec TableTextModel.
From Verif Require Import DocModel DocSpec.
Local Open Scope Z_scope.

(** The text of a block, of a cell (paragraph by paragraph), and of the
    paragraphs outside the table, in order. *)
Definition text_of (x : xdoc) (b : id) : res str := block_content (x_store x) b.
Definition cell_text (x : xdoc) (c : tcell) : list (res str) := map (fun b => text_of x (tb_id b)) (tc_blocks c).
Definition outside_text (x : xdoc) : list (res str) := map (fun b => text_of x (tb_id b)) (t_others (x_table x)).
(** Nothing outside the table has changed: same paragraphs with the same text,
    the table between the same two. *)
Definition same_outside (x x' : xdoc) : Prop :=
  block_ids (t_others (x_table x')) = block_ids (t_others (x_table x)) /\ t_at (x_table x') = t_at (x_table x)
  /\ outside_text x' = outside_text x.
(** The cell that covers a slot shows these paragraphs. *)
Definition shows (x : xdoc) (r k : Z) (ts : list (res str)) : Prop :=
  exists c, covering (x_table x) r k = [c] /\ cell_text x c = ts.
(** An empty cell: one empty paragraph. *)
Definition empty_cell : list (res str) := [Ok []].

(** How many paragraphs start before position [q]. *)
Definition paragraphs_started (q : nat) (its : list item) : nat := match q with O => O | S n => S (breaks n its) end.

(** ** Histories *)
(** The same blocks in the same places; positions, lengths and formats may differ. *)
Definition block_shape (c : tcell) : list id := block_ids (tc_blocks c).
Definition same_blocks (d d' : tdoc) : Prop :=
  retyped d d' /\ block_ids (t_others d') = block_ids (t_others d) /\ t_at d' = t_at d
  /\ map block_shape (t_cells d') = map block_shape (t_cells d) /\ t_nextb d' = t_nextb d.
(** The same with a new block after block [b], outside the table. *)
Definition put_after (b new : id) (l : list id) : list id := flat_map (fun i => if N.eqb i b then [i; new] else [i]) l.
Definition one_block_more (b : id) (d d' : tdoc) : Prop :=
  retyped d d'
  /\ block_ids (t_others d') = put_after b (t_nextb d) (block_ids (t_others d))
  /\ t_at d' = (if existsb (N.eqb b) (firstn (t_at d) (block_ids (t_others d))) then S (t_at d) else t_at d)
  /\ map block_shape (t_cells d') = map block_shape (t_cells d)
  /\ t_nextb d' = N.succ (t_nextb d).
Definition block_in (x : xdoc) (b : id) : Prop :=
  In b (block_ids (t_others (x_table x))) \/ In b (cell_ids (t_cells (x_table x))).

(** A table put into any document without tables, and what any number of table
    operations and of edits of single paragraphs, in cells and outside, make of it.
    Paragraphs are broken outside the table only. *)
Inductive xhistory : xdoc -> Prop :=
| x_new d p a rows cols tid next x : reach d -> x_insert_table d p a rows cols tid next = Ok x -> xhistory x
| x_op x o x' : xhistory x -> clean (x_table x) o -> x_step x o = Ok x' -> xhistory x'
| x_type x b k text st d' :
    xhistory x -> block_in x b -> type_in (x_store x) b k text = Ok st -> same_blocks (x_table x) d' -> xhistory (mk_xdoc d' st (x_tid x))
| x_erase x b k n st d' :
    xhistory x -> block_in x b -> erase_in (x_store x) b k n = Ok st -> same_blocks (x_table x) d' -> xhistory (mk_xdoc d' st (x_tid x))
| x_break x b k x' : xhistory x -> In b (block_ids (t_others (x_table x))) -> x_insert_block x b k = Ok x' -> xhistory x'.
