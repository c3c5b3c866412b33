(** Tables with their text: the mirror of table edits in the rope.

    Sources: crates/document_editing/src/use_cases/{insert_table,insert_table_row,
    insert_table_column,remove_table_row,remove_table_column,remove_table,
    merge_table_cells,split_table_cell}_uc.rs and
    crates/common/src/database/rope_helpers.rs.

    A document with one top-level frame and one table: the structure of
    [TableModel] next to the store of [RopeModel]. *)
From Verif Require Import Base RopeModel TableModel TableSpec.
From Verif Require DocModel.
Local Open Scope Z_scope.

(** [x_tid]: the id of the table entity. *)
Record xdoc := mk_xdoc { x_table : tdoc; x_store : rstore; x_tid : id }.

Definition block_ids (bs : list tblock) : list id := map tb_id bs.
Definition cell_ids (cs : list tcell) : list id := block_ids (flat_map tc_blocks cs).

(** rope_helpers.rs:350-370 [top_level_frame_end_byte] and 950-1010
    [walk_frame_bounds]: the largest end of the blocks of the frame, of the anchor
    of the table and of the blocks of its cells; 0 when there are none. *)
Fixpoint walk_end (ix : oindex) (ms : list marker) (m : nat) : res nat :=
  match ms with
  | [] => Ok m
  | k :: rest =>
      let! r := range_of ix k in
      walk_end ix rest (match r with Some (_, e) => Nat.max m e | None => m end)
  end.
Definition frame_end (st : rstore) (d : tdoc) (tid : id) : res nat :=
  walk_end (index st) (map MBlock (block_ids (t_others d)) ++ MAnchor tid :: map MBlock (cell_ids (t_cells d))) 0.

(** insert_table_row_uc.rs:158-161: the new blocks, all empty, one byte after
    each other. *)
Fixpoint mirror_new (st : rstore) (byte : nat) (ids : list id) : res rstore :=
  match ids with
  | [] => Ok st
  | b :: rest => let! st := rope_insert_block_at st byte b [] in mirror_new st (S byte) rest
  end.
(** insert_table_row_uc.rs:145-163, and the same block in
    insert_table_column_uc.rs:147-165 and split_table_cell_uc.rs:187-205. The new
    blocks are those with an id from the counter on, in the order of creation. *)
Definition new_blocks (d d' : tdoc) : list id := filter (fun i => N.leb (t_nextb d) i) (cell_ids (t_cells d')).
Definition with_new (x : xdoc) (d' : tdoc) : res xdoc :=
  let! byte := frame_end (x_store x) d' (x_tid x) in
  let! st := mirror_new (x_store x) byte (new_blocks (x_table x) d') in
  Ok (mk_xdoc d' st (x_tid x)).

(** remove_table_row_uc.rs:149-154: blocks are taken out one by one. *)
Fixpoint mirror_gone (st : rstore) (ids : list id) : res rstore :=
  match ids with
  | [] => Ok st
  | b :: rest => let! st := rope_remove_block st b in mirror_gone st rest
  end.
(** remove_table_row_uc.rs:134-154, and the same block in
    remove_table_column_uc.rs:136-156 and merge_table_cells_uc.rs:165-184. *)
Definition without (x : xdoc) (goes : tcell -> bool) (d' : tdoc) : res xdoc :=
  let! st := mirror_gone (x_store x) (cell_ids (filter goes (t_cells (x_table x)))) in
  Ok (mk_xdoc d' st (x_tid x)).

(** The six operations on the structure and on the text. *)
Definition x_step (x : xdoc) (o : top) : res xdoc :=
  let d := x_table x in
  match o with
  | InsertRow i => let! d' := insert_row d i in with_new x d'
  | InsertColumn i => let! d' := insert_column d i in with_new x d'
  | RemoveRow i => let! d' := remove_row d i in without x (row_goes i) d'
  | RemoveColumn i => let! d' := remove_column d i in without x (column_goes i) d'
  | Merge r0 c0 r1 c1 =>
      let! (d', s) := merge_cells d r0 c0 r1 c1 in
      without x (fun c => starts_in r0 c0 r1 c1 c && negb (N.eqb (tc_id c) s)) d'
  | Split i sr sc => let! d' := split_cell d i sr sc in with_new x d'
  end.

(** ** Putting a table into a document without tables *)
(** insert_table_uc.rs:81-127: the positions of all blocks are brought up to date
    from the rope. The result lists the blocks in the order of the flow. *)
Fixpoint caught_up (d : DocModel.doc) (is_ : list id) : res (list tblock) :=
  match is_ with
  | [] => Ok []
  | i :: rest =>
      let! p := block_document_position (DocModel.d_rs d) i 0 in
      let! n := DocModel.char_length d i in
      let! more := caught_up d rest in
      Ok (mk_tblock i p n :: more)
  end.
(** insert_table_uc.rs:53-545 [execute_insert_table] in a document with one frame
    and no table: the host block is not in a cell (207-300 is left out). The ids
    of the table and of the first cell are given. *)
Definition x_insert_table (d : DocModel.doc) (position anchor rows cols : Z) (tid next : id) : res xdoc :=
  if (rows <? 1) || (cols <? 1) then Err
  else
    let! others := caught_up d (DocModel.d_order d) in
    let! (b, _, off) := DocModel.find_block_at_position d
      (DocModel.sort_blocks (DocModel.get_multi d (DocModel.d_fblocks d))) (Z.min position anchor) in
    let! n := DocModel.char_length d (DocModel.b_id b) in
    let k := match DocModel.pos_of_id (DocModel.b_id b) (DocModel.d_order d) with Some k => k | None => 0%nat end in
    let after := 0 <? off in
    let at_ := (if after then S k else k) in
    let start := if after then DocModel.b_pos b + n + 1 else DocModel.b_pos b in
    let! t := insert_table others at_ start rows cols (DocModel.d_nblocks d) (DocModel.d_chars d) next (DocModel.d_next d) in
    let! st := rope_insert_table_anchor (DocModel.d_rs d) tid (DocModel.b_id b) after in
    let! byte := frame_end st t tid in
    let! st := mirror_new st byte (cell_ids (t_cells t)) in
    Ok (mk_xdoc t st tid).

(** ** Taking the table out *)
(** remove_table_uc.rs:44-189 [execute_remove_table]: what is left is the blocks
    outside the table, the block count, the character count (not changed: 184-187)
    and the store. *)
Definition x_remove_table (x : xdoc) : res (list tblock * Z * Z * rstore) :=
  let d := x_table x in
  let ids := cell_ids (t_cells d) in
  let n := Z.of_nat (length ids) in
  let! st := mirror_gone (x_store x) ids in
  let! st := rope_remove_table_anchor st (x_tid x) in
  let others := match ids with [] => t_others d | _ => map (moved (base_pos d) (- n)) (t_others d) end in
  Ok (others, t_count d - n, t_chars d, st).

(** ** Editing the text of a block, in a cell or outside *)
(** insert_text_uc.rs:340-376, the part that touches the rope: [text] at character
    [k] of a block. *)
Definition type_in (st : rstore) (b : id) (k : nat) (text : str) : res rstore :=
  let! (o, _) := block_char_to_byte_in_block st b k in rope_insert_in_block st b o text.
(** delete_text_uc.rs:600-634, a range inside one block: characters [k..k+n). *)
Definition erase_in (st : rstore) (b : id) (k n : nat) : res rstore :=
  let! (o, _) := block_char_to_byte_in_block st b k in
  let! (e, _) := block_char_to_byte_in_block st b (k + n) in
  rope_delete_in_block st b o e.
(** insert_block_uc.rs:215-220: a new block takes the text after character [k]. *)
Definition break_in (st : rstore) (b : id) (k : nat) (new : id) : res rstore :=
  let! (o, _) := block_char_to_byte_in_block st b k in rope_split_block st b o new.
(** ids behind [b] in a list. *)
Fixpoint behind (b : id) (l : list id) : list id :=
  match l with [] => [] | i :: rest => if N.eqb i b then rest else behind b rest end.
(** editing_helpers.rs:249-302 [collect_block_ids_recursive]: the paragraphs before the
    table, those of the cells row by row, those after. *)
Definition flow_ids (d : tdoc) : list id :=
  firstn (t_at d) (block_ids (t_others d)) ++ cell_ids (sort_cells (t_cells d)) ++ skipn (t_at d) (block_ids (t_others d)).
(** insert_block_uc.rs:51-266 [execute_insert_block] with block [b] found and character
    [k] of it. [find_owner_frame] (174-198) follows [child_order], and that of the frame
    anchoring a table is empty (insert_table_uc.rs:324): the frame of a cell is never
    found, and the main frame is taken. There a block that is not listed is followed by
    the end (226-234). *)
Definition x_insert_block (x : xdoc) (b : id) (k : nat) : res xdoc :=
  let d := x_table x in
  let later := behind b (flow_ids d) in
  let edit y :=
    if N.eqb (tb_id y) b then mk_tblock b (tb_pos y) (Z.of_nat k)
    else if existsb (N.eqb (tb_id y)) later then mk_tblock (tb_id y) (tb_pos y + 1) (tb_len y) else y in
  match find (fun y => N.eqb (tb_id y) b) (t_others d ++ flat_map tc_blocks (t_cells d)) with
  | None => Err
  | Some cur =>
      let! st := break_in (x_store x) b k (t_nextb d) in
      let new := mk_tblock (t_nextb d) (tb_pos cur + Z.of_nat k + 1) (tb_len cur - Z.of_nat k) in
      let others :=
        if existsb (N.eqb b) (block_ids (t_others d))
        then flat_map (fun y => if N.eqb (tb_id y) b then [edit y; new] else [edit y]) (t_others d)
        else map edit (t_others d) ++ [new] in
      Ok (mk_xdoc (mk_tdoc (t_rows d) (t_cols d) (t_widths d) (map (fun c => set_blocks c (map edit (tc_blocks c))) (t_cells d)) others
                     (if existsb (N.eqb b) (firstn (t_at d) (block_ids (t_others d))) then S (t_at d) else t_at d)
                     (t_count d + 1) (t_chars d) (t_next d) (N.succ (t_nextb d))) st (x_tid x))
  end.
