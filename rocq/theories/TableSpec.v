(** What a proper table is, and what table operations should do. *)
From Coq Require Import Sorting.Sorted Sorting.Permutation.
From Verif Require Import Base RopeModel TableModel.
Local Open Scope Z_scope.

(** A cell covers the slot in row [r] and column [k]. *)
Definition covers (c : tcell) (r k : Z) : bool :=
  (tc_row c <=? r) && (r <? tc_row c + tc_rs c) && (tc_col c <=? k) && (k <? tc_col c + tc_cs c).
Definition covering (d : tdoc) (r k : Z) : list tcell := filter (fun c => covers c r k) (t_cells d).
(** A slot of the table. *)
Definition slot (d : tdoc) (r k : Z) : Prop := 0 <= r < t_rows d /\ 0 <= k < t_cols d.

(** A proper grid: every cell has a size and is inside the table, and every slot
    is covered by exactly one cell. *)
Definition grid (d : tdoc) : Prop :=
  1 <= t_rows d /\ 1 <= t_cols d
  /\ (forall c, In c (t_cells d) -> 1 <= tc_rs c /\ 1 <= tc_cs c /\ forall r k, covers c r k = true -> slot d r k)
  /\ (forall r k, slot d r k -> exists c, covering d r k = [c]).
(** Cells have different ids, all below the counter. *)
Definition own_ids (d : tdoc) : Prop :=
  NoDup (map tc_id (t_cells d)) /\ forall c, In c (t_cells d) -> (tc_id c < t_next d)%N.

(** The same cell with the same text and format, wherever it is. *)
Definition content (bs : list tblock) : list (id * Z) := map (fun b => (tb_id b, tb_len b)) bs.
Definition same_cell (c c' : tcell) : Prop :=
  tc_id c' = tc_id c /\ tc_fmt c' = tc_fmt c /\ content (tc_blocks c') = content (tc_blocks c).
(** A new cell: one empty paragraph, no format, an id the table did not have. *)
Definition blank (d : tdoc) (c : tcell) : Prop :=
  (~ In (tc_id c) (map tc_id (t_cells d))) /\ tc_fmt c = 0%N /\ exists i, content (tc_blocks c) = [(i, 0)].

(** A cell lies across the line above row [i] (left of column [i]). *)
Definition across_row (d : tdoc) (i : Z) : Prop :=
  exists c, In c (t_cells d) /\ tc_row c < i < tc_row c + tc_rs c.
Definition across_column (d : tdoc) (i : Z) : Prop :=
  exists c, In c (t_cells d) /\ tc_col c < i < tc_col c + tc_cs c.
(** In a rectangle given by its first and last slots. *)
Definition in_rect (r0 c0 r1 c1 r k : Z) : Prop := r0 <= r <= r1 /\ c0 <= k <= c1.
(** A cell that starts outside the rectangle reaches into it. *)
Definition reached (d : tdoc) (r0 c0 r1 c1 : Z) : Prop :=
  exists c r k, In c (t_cells d) /\ ~ in_rect r0 c0 r1 c1 (tc_row c) (tc_col c) /\ covers c r k = true /\ in_rect r0 c0 r1 c1 r k.
(** Width of a column. *)
Definition width_at (d : tdoc) (k : Z) : option Z := nth_error (t_widths d) (Z.to_nat k).

(** Operations. *)
Inductive top := InsertRow (i : Z) | InsertColumn (i : Z) | RemoveRow (i : Z) | RemoveColumn (i : Z)
| Merge (r0 c0 r1 c1 : Z) | Split (i : id) (sr sc : Z).
Definition tstep (d : tdoc) (o : top) : res tdoc :=
  match o with
  | InsertRow i => insert_row d i
  | InsertColumn i => insert_column d i
  | RemoveRow i => remove_row d i
  | RemoveColumn i => remove_column d i
  | Merge r0 c0 r1 c1 => let! (d', _) := merge_cells d r0 c0 r1 c1 in Ok d'
  | Split i sr sc => split_cell d i sr sc
  end.
(** Operations that do not cut through a merged cell. *)
Definition clean (d : tdoc) (o : top) : Prop :=
  match o with
  | InsertRow i => ~ across_row d i
  | InsertColumn i => ~ across_column d i
  | Merge r0 c0 r1 c1 => ~ reached d r0 c0 r1 c1
  | _ => True
  end.
(** Edits of the text and formats of cells, and of the rest of the document: the
    table has the same cells in the same places. *)
Definition shape (c : tcell) : id * Z * Z * Z * Z := (tc_id c, tc_row c, tc_col c, tc_rs c, tc_cs c).
Definition retyped (d d' : tdoc) : Prop :=
  t_rows d' = t_rows d /\ t_cols d' = t_cols d /\ t_widths d' = t_widths d /\ map shape (t_cells d') = map shape (t_cells d)
  /\ (t_next d <= t_next d')%N.
(** A table and what any number of successful clean operations, and of edits of
    its text, make of it. *)
Inductive table_history : tdoc -> Prop :=
| table_new others at_ start rows cols count chars next nextb d :
    insert_table others at_ start rows cols count chars next nextb = Ok d -> table_history d
| table_step d o d' : table_history d -> clean d o -> tstep d o = Ok d' -> table_history d'
| table_text d d' : table_history d -> retyped d d' -> table_history d'.

(** ** Selections *)
Definition span_covers (c : Z * Z * Z * Z) (r k : Z) : Prop :=
  let '(row, col, rs, cs) := c in row <= r < row + rs /\ col <= k < col + cs.
Definition inside (q : rect) (r k : Z) : Prop := r_top q <= r <= r_bottom q /\ r_left q <= k <= r_right q.
Definition contains (q q' : rect) : Prop := forall r k, inside q' r k -> inside q r k.
(** The rectangle cuts no cell: a cell with a slot in it is all in it. *)
Definition whole (cells : list (Z * Z * Z * Z)) (q : rect) : Prop :=
  forall c r k, In c cells -> span_covers c r k -> inside q r k -> forall r' k', span_covers c r' k' -> inside q r' k'.

(** ** Positions *)
(** The blocks follow each other: each starts one after the end of the one before. *)
Fixpoint in_place (p : Z) (bs : list tblock) : Prop :=
  match bs with [] => True | b :: rest => tb_pos b = p /\ in_place (p + tb_len b + 1) rest end.
(** The cells in reading order. *)
Definition reads (l : list tcell) : Prop :=
  StronglySorted (fun a b => tc_row a < tc_row b \/ tc_row a = tc_row b /\ tc_col a < tc_col b) l.
(** Every block stands where the text before it ends: the blocks above the table,
    the cells in reading order, the blocks below. *)
Definition placed (d : tdoc) : Prop :=
  exists l, Permutation l (t_cells d) /\ reads l
    /\ in_place 0 (firstn (t_at d) (t_others d) ++ flat_map tc_blocks l ++ skipn (t_at d) (t_others d)).
(** How many blocks the document has, and whether the statistics say so. *)
Definition blocks_of (d : tdoc) : Z := Z.of_nat (length (t_others d) + length (flat_map tc_blocks (t_cells d))).
Definition chars_of (d : tdoc) : Z := fold_right (fun b n => tb_len b + n) 0 (t_others d ++ flat_map tc_blocks (t_cells d)).
Definition counted_right (d : tdoc) : Prop := t_count d = blocks_of d /\ t_chars d = chars_of d.
(** Lengths are lengths, and blocks of cells have different ids below the counter. *)
Definition own_blocks (d : tdoc) : Prop :=
  (forall b, In b (t_others d) -> 0 <= tb_len b) /\ NoDup (map tb_id (flat_map tc_blocks (t_cells d)))
  /\ forall b, In b (flat_map tc_blocks (t_cells d)) -> 0 <= tb_len b /\ (tb_id b < t_nextb d)%N.
(** Every cell is one empty paragraph. *)
Definition unfilled (d : tdoc) : Prop := forall c, In c (t_cells d) -> exists b, tc_blocks c = [b] /\ tb_len b = 0.
(** A table put after the first [at_] of some blocks that are in place and counted,
    and what any number of successful clean operations make of it. *)
Inductive placed_history : tdoc -> Prop :=
| placed_new others at_ start rows cols count chars next nextb d :
    in_place 0 others -> (forall b, In b others -> 0 <= tb_len b) ->
    (at_ <= length others)%nat -> start = fold_right (fun b n => tb_len b + 1 + n) 0 (firstn at_ others) ->
    count = Z.of_nat (length others) -> chars = fold_right (fun b n => tb_len b + n) 0 others ->
    insert_table others at_ start rows cols count chars next nextb = Ok d -> placed_history d
| placed_step d o d' : placed_history d -> clean d o -> tstep d o = Ok d' -> placed_history d'.
