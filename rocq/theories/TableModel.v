(** Tables: rows, columns, merging, splitting, cell selections.

    Sources: crates/document_editing/src/use_cases/{insert_table,insert_table_row,
    insert_table_column,remove_table_row,remove_table_column,merge_table_cells,
    split_table_cell,editing_helpers}_uc.rs and
    crates/public_api/src/{flow,cursor,text_table}.rs.

    A document with one table among top-level blocks. A cell frame is replaced by
    the blocks in it, a block by its id, stored position and number of
    characters. Left out: the mirror of the cells in the rope, and undo (a
    snapshot of the document). *)
From Verif Require Import Base RopeModel.
Local Open Scope Z_scope.

(** common/src/entities.rs [Block], [TableCell], [Table]. [tc_fmt] stands for the
    four optional format fields of a cell, 0 when all are [None]. *)
Record tblock := mk_tblock { tb_id : id; tb_pos : Z; tb_len : Z }.
Record tcell := mk_tcell {
  tc_id : id; tc_row : Z; tc_col : Z; tc_rs : Z; tc_cs : Z; tc_fmt : N; tc_blocks : list tblock
}.
(** [t_others]: the blocks outside the table in the order of the flow, [t_at] of
    them before the table. [t_count], [t_chars]: [Document.block_count] and
    [character_count]. [t_next], [t_nextb]: the id counters of cells and blocks. *)
Record tdoc := mk_tdoc {
  t_rows : Z; t_cols : Z; t_widths : list Z; t_cells : list tcell;
  t_others : list tblock; t_at : nat; t_count : Z; t_chars : Z; t_next : id; t_nextb : id
}.
Definition set_cells (d : tdoc) (cs : list tcell) : tdoc :=
  mk_tdoc (t_rows d) (t_cols d) (t_widths d) cs (t_others d) (t_at d) (t_count d) (t_chars d) (t_next d) (t_nextb d).
Definition set_size (d : tdoc) (r c : Z) (ws : list Z) : tdoc :=
  mk_tdoc r c ws (t_cells d) (t_others d) (t_at d) (t_count d) (t_chars d) (t_next d) (t_nextb d).
Definition set_others (d : tdoc) (bs : list tblock) : tdoc :=
  mk_tdoc (t_rows d) (t_cols d) (t_widths d) (t_cells d) bs (t_at d) (t_count d) (t_chars d) (t_next d) (t_nextb d).
Definition add_count (d : tdoc) (n : Z) : tdoc :=
  mk_tdoc (t_rows d) (t_cols d) (t_widths d) (t_cells d) (t_others d) (t_at d) (t_count d + n) (t_chars d) (t_next d) (t_nextb d).

(** [0..n]. *)
Definition zrange (n : Z) : list Z := map Z.of_nat (seq 0 (Z.to_nat n)).

(** editing_helpers.rs:52-72 [create_cell_frame] followed by [create_table_cell]
    at index -1: a new cell with an empty block, last in [Table.cells]. *)
Definition new_cell (d : tdoc) (r c rs cs : Z) : tdoc :=
  mk_tdoc (t_rows d) (t_cols d) (t_widths d)
    (t_cells d ++ [mk_tcell (t_next d) r c rs cs 0%N [mk_tblock (t_nextb d) 0 0]])
    (t_others d) (t_at d) (t_count d) (t_chars d) (N.succ (t_next d)) (N.succ (t_nextb d)).

(** editing_helpers.rs:133-152 [compute_table_base_pos]. *)
Definition min_pos (m : option Z) (b : tblock) : option Z :=
  match m with None => Some (tb_pos b) | Some p => if tb_pos b <? p then Some (tb_pos b) else Some p end.
Definition base_pos (d : tdoc) : Z :=
  match fold_left min_pos (flat_map tc_blocks (t_cells d)) None with Some p => p | None => 0 end.

(** [all_cells.sort_by(row, then column)], a stable sort. *)
Definition before_cell (a b : tcell) : bool :=
  (tc_row a <? tc_row b) || ((tc_row a =? tc_row b) && (tc_col a <=? tc_col b)).
Fixpoint put_cell (c : tcell) (l : list tcell) : list tcell :=
  match l with [] => [c] | x :: rest => if before_cell c x then c :: l else x :: put_cell c rest end.
Definition sort_cells (l : list tcell) : list tcell := fold_right put_cell [] l.
(** [blocks.sort_by_key(document_position)]. *)
Fixpoint put_block (b : tblock) (l : list tblock) : list tblock :=
  match l with [] => [b] | x :: rest => if tb_pos b <=? tb_pos x then b :: l else x :: put_block b rest end.
Definition sort_tblocks (l : list tblock) : list tblock := fold_right put_block [] l.
(** editing_helpers.rs:107-131 [reassign_cell_block_positions]: the new position
    of every block of the table... *)
Fixpoint number_from (p : Z) (bs : list tblock) : list (id * Z) :=
  match bs with [] => [] | b :: rest => (tb_id b, p) :: number_from (p + 1) rest end.
Definition assignments (d : tdoc) (base : Z) : list (id * Z) :=
  number_from base (flat_map (fun c => sort_tblocks (tc_blocks c)) (sort_cells (t_cells d))).
(** ... written with [update_block_multi]. *)
Definition assigned (l : list (id * Z)) (b : tblock) : tblock :=
  match find (fun x => N.eqb (fst x) (tb_id b)) l with
  | Some (_, p) => mk_tblock (tb_id b) p (tb_len b) | None => b
  end.
Definition set_blocks (c : tcell) (bs : list tblock) : tcell :=
  mk_tcell (tc_id c) (tc_row c) (tc_col c) (tc_rs c) (tc_cs c) (tc_fmt c) bs.
Definition reassign (d : tdoc) (base : Z) : tdoc :=
  let l := assignments d base in
  set_cells d (map (fun c => set_blocks c (map (assigned l) (tc_blocks c))) (t_cells d)).
(** The blocks outside the table at or after [base] move by [n]
    (insert_table_row_uc.rs:181-205 and the same loop in the others). *)
Definition moved (base n : Z) (b : tblock) : tblock :=
  if base <=? tb_pos b then mk_tblock (tb_id b) (tb_pos b + n) (tb_len b) else b.
Definition shift_others (d : tdoc) (base n : Z) : tdoc := set_others d (map (moved base n) (t_others d)).
(** What every operation does after changing the cells: new positions, shifted
    blocks, block count. *)
Definition settle (d : tdoc) (base n : Z) : tdoc := add_count (shift_others (reassign d base) base n) n.

(** insert_table_uc.rs:303-355, 453-520: a table of [rows] x [cols] cells whose
    first cell takes position [start], [at_] blocks before it. Which block is the
    host (139-300) is not modelled: [start] and [at_] are given. *)
Definition insert_table (others : list tblock) (at_ : nat) (start rows cols count chars : Z) (next nextb : id) : res tdoc :=
  if (rows <? 1) || (cols <? 1) then Err
  else
    let d0 := mk_tdoc rows cols (repeat 0 (Z.to_nat cols)) [] others at_ count chars next nextb in
    let d1 := fold_left (fun d r => fold_left (fun d c => new_cell d r c 1 1) (zrange cols) d) (zrange rows) d0 in
    let d2 := set_cells d1 (map (fun c => set_blocks c (map (assigned (number_from start (flat_map tc_blocks (t_cells d1)))) (tc_blocks c))) (t_cells d1)) in
    Ok (add_count (shift_others d2 start (rows * cols)) (rows * cols)).

(** insert_table_row_uc.rs:96-111. *)
Definition row_inserted (i : Z) (c : tcell) : tcell :=
  if i <=? tc_row c then mk_tcell (tc_id c) (tc_row c + 1) (tc_col c) (tc_rs c) (tc_cs c) (tc_fmt c) (tc_blocks c)
  else if i <? tc_row c + tc_rs c then mk_tcell (tc_id c) (tc_row c) (tc_col c) (tc_rs c + 1) (tc_cs c) (tc_fmt c) (tc_blocks c)
  else c.
(** insert_table_row_uc.rs:56-219 [execute_insert_table_row]. *)
Definition insert_row (d : tdoc) (i : Z) : res tdoc :=
  if (i <? 0) || (t_rows d <? i) then Err
  else
    let base := base_pos d in
    let d1 := set_cells d (map (row_inserted i) (t_cells d)) in
    let d2 := fold_left (fun d c => new_cell d i c 1 1) (zrange (t_cols d)) d1 in
    let d3 := set_size d2 (t_rows d + 1) (t_cols d) (t_widths d) in
    Ok (settle d3 base (t_cols d)).

(** insert_table_column_uc.rs:95-111. *)
Definition column_inserted (i : Z) (c : tcell) : tcell :=
  if i <=? tc_col c then mk_tcell (tc_id c) (tc_row c) (tc_col c + 1) (tc_rs c) (tc_cs c) (tc_fmt c) (tc_blocks c)
  else if i <? tc_col c + tc_cs c then mk_tcell (tc_id c) (tc_row c) (tc_col c) (tc_rs c) (tc_cs c + 1) (tc_fmt c) (tc_blocks c)
  else c.
(** [Vec::insert(index.min(len), x)]. *)
Definition put_at {A} (l : list A) (k : nat) (x : A) : list A := firstn k l ++ x :: skipn k l.
(** insert_table_column_uc.rs:54-221 [execute_insert_table_column]. *)
Definition insert_column (d : tdoc) (i : Z) : res tdoc :=
  if (i <? 0) || (t_cols d <? i) then Err
  else
    let base := base_pos d in
    let d1 := set_cells d (map (column_inserted i) (t_cells d)) in
    let d2 := fold_left (fun d r => new_cell d r i 1 1) (zrange (t_rows d)) d1 in
    let d3 := set_size d2 (t_rows d) (t_cols d + 1)
                (put_at (t_widths d) (Nat.min (Z.to_nat i) (length (t_widths d))) 0) in
    Ok (settle d3 base (t_rows d)).

(** remove_table_row_uc.rs:108-133: a cell is removed, shrunk, moved or kept. *)
Definition row_goes (i : Z) (c : tcell) : bool := (tc_row c =? i) && (tc_rs c =? 1).
Definition row_removed (i : Z) (c : tcell) : tcell :=
  if (tc_row c =? i) && (1 <? tc_rs c)
  then mk_tcell (tc_id c) (tc_row c) (tc_col c) (tc_rs c - 1) (tc_cs c) (tc_fmt c) (tc_blocks c)
  else if (tc_row c <? i) && (i <? tc_row c + tc_rs c)
  then mk_tcell (tc_id c) (tc_row c) (tc_col c) (tc_rs c - 1) (tc_cs c) (tc_fmt c) (tc_blocks c)
  else if i <? tc_row c
  then mk_tcell (tc_id c) (tc_row c - 1) (tc_col c) (tc_rs c) (tc_cs c) (tc_fmt c) (tc_blocks c)
  else c.
(** remove_table_row_uc.rs:52-230 [execute_remove_table_row]. *)
Definition remove_row (d : tdoc) (i : Z) : res tdoc :=
  if (i <? 0) || (t_rows d <=? i) then Err
  else if t_rows d <=? 1 then Err
  else
    let base := base_pos d in
    let gone := Z.of_nat (length (filter (row_goes i) (t_cells d))) in
    let d1 := set_cells d (map (row_removed i) (filter (fun c => negb (row_goes i c)) (t_cells d))) in
    let d2 := set_size d1 (t_rows d - 1) (t_cols d) (t_widths d) in
    Ok (settle d2 base (- gone)).

(** remove_table_column_uc.rs:110-134. *)
Definition column_goes (i : Z) (c : tcell) : bool := (tc_col c =? i) && (tc_cs c =? 1).
Definition column_removed (i : Z) (c : tcell) : tcell :=
  if (tc_col c =? i) && (1 <? tc_cs c)
  then mk_tcell (tc_id c) (tc_row c) (tc_col c) (tc_rs c) (tc_cs c - 1) (tc_fmt c) (tc_blocks c)
  else if (tc_col c <? i) && (i <? tc_col c + tc_cs c)
  then mk_tcell (tc_id c) (tc_row c) (tc_col c) (tc_rs c) (tc_cs c - 1) (tc_fmt c) (tc_blocks c)
  else if i <? tc_col c
  then mk_tcell (tc_id c) (tc_row c) (tc_col c - 1) (tc_rs c) (tc_cs c) (tc_fmt c) (tc_blocks c)
  else c.
(** [Vec::remove(k)] when [k] is in range. *)
Definition drop_at {A} (l : list A) (k : nat) : list A := firstn k l ++ skipn (S k) l.
(** remove_table_column_uc.rs:52-237 [execute_remove_table_column]. *)
Definition remove_column (d : tdoc) (i : Z) : res tdoc :=
  if t_cols d <=? 1 then Err
  else if (i <? 0) || (t_cols d <=? i) then Err
  else
    let base := base_pos d in
    let gone := Z.of_nat (length (filter (column_goes i) (t_cells d))) in
    let d1 := set_cells d (map (column_removed i) (filter (fun c => negb (column_goes i c)) (t_cells d))) in
    let d2 := set_size d1 (t_rows d) (t_cols d - 1) (drop_at (t_widths d) (Z.to_nat i)) in
    Ok (settle d2 base (- gone)).

(** merge_table_cells_uc.rs:104-115: the cells whose first slot is in the range. *)
Definition starts_in (r0 c0 r1 c1 : Z) (c : tcell) : bool :=
  (r0 <=? tc_row c) && (tc_row c <=? r1) && (c0 <=? tc_col c) && (tc_col c <=? c1).
Definition set_spans (c : tcell) (rs cs : Z) : tcell :=
  mk_tcell (tc_id c) (tc_row c) (tc_col c) rs cs (tc_fmt c) (tc_blocks c).
(** merge_table_cells_uc.rs:50-250 [execute_merge_table_cells]; the answer is the
    surviving cell. *)
Definition merge_cells (d : tdoc) (r0 c0 r1 c1 : Z) : res (tdoc * id) :=
  if r1 <? r0 then Err
  else if c1 <? c0 then Err
  else if (r0 <? 0) || (t_rows d <=? r1) || (c0 <? 0) || (t_cols d <=? c1) then Err
  else
    let inside := filter (starts_in r0 c0 r1 c1) (t_cells d) in
    if existsb (fun c => (1 <? tc_rs c) || (1 <? tc_cs c)) inside then Err
    else
      let! s := ok_or (find (fun c => (tc_row c =? r0) && (tc_col c =? c0)) inside) in
      let goes c := starts_in r0 c0 r1 c1 c && negb (N.eqb (tc_id c) (tc_id s)) in
      let gone := Z.of_nat (length (filter goes (t_cells d))) in
      let base := base_pos d in
      let d1 := set_cells d (map (fun c => if N.eqb (tc_id c) (tc_id s) then set_spans s (r1 - r0 + 1) (c1 - c0 + 1) else c)
                               (filter (fun c => negb (goes c)) (t_cells d))) in
      Ok (settle d1 base (- gone), tc_id s).

(** split_table_cell_uc.rs:130-149: the parts of a cell, in rows. *)
Definition part (total parts k : Z) : Z := Z.quot total parts + (if k <? Z.rem total parts then 1 else 0).
Fixpoint part_starts (start total parts : Z) (ks : list Z) : list (Z * Z) :=
  match ks with
  | [] => []
  | k :: rest => (start, part total parts k) :: part_starts (start + part total parts k) total parts rest
  end.
Definition sub_cells (c : tcell) (sr sc : Z) : list (Z * Z * Z * Z) :=
  flat_map (fun '(r, rs) => map (fun '(k, cs) => (r, k, rs, cs)) (part_starts (tc_col c) (tc_cs c) sc (zrange sc)))
    (part_starts (tc_row c) (tc_rs c) sr (zrange sr)).
(** split_table_cell_uc.rs:52-258 [execute_split_table_cell]. *)
Definition split_cell (d : tdoc) (i : id) (sr sc : Z) : res tdoc :=
  if (sr <? 1) || (sc <? 1) then Err
  else
    let! c := ok_or (find (fun c => N.eqb (tc_id c) i) (t_cells d)) in
    if tc_rs c <? sr then Err
    else if tc_cs c <? sc then Err
    else if (tc_rs c =? 1) && (tc_cs c =? 1) && (sr =? 1) && (sc =? 1) then Err
    else
      match sub_cells c sr sc with
      | [] => Panic
      | (_, _, rs0, cs0) :: rest =>
          let base := base_pos d in
          let d1 := set_cells d (map (fun x => if N.eqb (tc_id x) i then set_spans x rs0 cs0 else x) (t_cells d)) in
          let d2 := fold_left (fun d '(r, k, rs, cs) => new_cell d r k rs cs) rest d1 in
          Ok (settle d2 base (Z.of_nat (length rest)))
      end.

(** text_table.rs:52-72 [cell]: the cell that starts in a slot. *)
Definition cell_at (d : tdoc) (r k : Z) : option tcell :=
  find (fun c => (tc_row c =? r) && (tc_col c =? k)) (t_cells d).

(** flow.rs:163-169 [CellRange], inclusive bounds. *)
Record rect := mk_rect { r_top : Z; r_left : Z; r_bottom : Z; r_right : Z }.
(** flow.rs:181-207, one cell of one round; the boolean is [expanded]. The
    additions are [usize] in the code; no overflow is modelled. *)
Definition grow (x : rect * bool) (c : Z * Z * Z * Z) : rect * bool :=
  let '(row, col, rs, cs) := c in
  let (q, e) := x in
  let cell_bottom := row + rs - 1 in
  let cell_right := col + cs - 1 in
  if (row <=? r_bottom q) && (r_top q <=? cell_bottom) && (col <=? r_right q) && (r_left q <=? cell_right)
  then
    (mk_rect (if row <? r_top q then row else r_top q) (if col <? r_left q then col else r_left q)
       (if r_bottom q <? cell_bottom then cell_bottom else r_bottom q) (if r_right q <? cell_right then cell_right else r_right q),
     e || (row <? r_top q) || (r_bottom q <? cell_bottom) || (col <? r_left q) || (r_right q <? cell_right))
  else x.
Definition round (cells : list (Z * Z * Z * Z)) (q : rect) : rect * bool := fold_left grow cells (q, false).
(** flow.rs:178-213 [expand_for_spans]: the loop stops with this value. *)
Inductive expands (cells : list (Z * Z * Z * Z)) : rect -> rect -> Prop :=
| expands_stop q q' : round cells q = (q', false) -> expands cells q q'
| expands_again q q1 q' : round cells q = (q1, true) -> expands cells q1 q' -> expands cells q q'.
(** cursor.rs:1527-1554 [collect_cell_spans]. *)
Definition cell_spans (d : tdoc) : list (Z * Z * Z * Z) :=
  map (fun c => (tc_row c, tc_col c, Z.max (tc_rs c) 1, Z.max (tc_cs c) 1)) (t_cells d).
(** cursor.rs:1330-1353 [selected_cells]: the slots of the range where a cell
    starts. *)
Definition selected_cells (d : tdoc) (q : rect) : list tcell :=
  flat_map (fun r => flat_map (fun k => match cell_at d r k with Some c => [c] | None => [] end)
    (map (Z.add (r_left q)) (zrange (r_right q - r_left q + 1)))) (map (Z.add (r_top q)) (zrange (r_bottom q - r_top q + 1))).
(** cursor.rs:1259-1276 [selection_kind], anchor and position in two cells of the
    table; cursor.rs:1159-1165 [merge_selected_cells] takes the same range. *)
Definition range_between (a b : tcell) : rect :=
  mk_rect (Z.min (tc_row a) (tc_row b)) (Z.min (tc_col a) (tc_col b)) (Z.max (tc_row a) (tc_row b)) (Z.max (tc_col a) (tc_col b)).
Definition merge_selected (d : tdoc) (a b : tcell) : res (tdoc * id) :=
  let q := range_between a b in merge_cells d (r_top q) (r_left q) (r_bottom q) (r_right q).
