(** Edits at positions of a document with a table, and its snapshot.

    Sources: crates/document_editing/src/use_cases/{insert_text,insert_block,delete_text}_uc.rs,
    editing_helpers.rs, crates/public_api/src/{text_frame,text_block}.rs.

    One frame and one table, as in [TableTextModel]; formats, images and lists are left
    out. The table has an anchor in the rope, so that [find_block_at_char_position] and
    [rope_positions_match_flow] (rope_helpers.rs:95-143) always send to the paths for
    documents with tables. *)
From Verif Require Import Base RopeModel TableModel TableTextModel.
Local Open Scope Z_scope.

(** editing_helpers.rs:249-302 [collect_block_ids_recursive] and [get_block_multi]. *)
Definition flow_blocks (d : tdoc) : list tblock :=
  firstn (t_at d) (t_others d) ++ flat_map tc_blocks (sort_cells (t_cells d)) ++ skipn (t_at d) (t_others d).
Definition len_in (st : rstore) (b : tblock) : res Z := let! n := block_char_length st (tb_id b) in Ok (Z.of_nat n).

(** insert_text_uc.rs:441-476 [find_block_at_position_sequential]. The position of the
    last block (464-475) is the sum the walk has reached. *)
Fixpoint seq_find (st : rstore) (bs : list tblock) (running p : Z) : res (tblock * Z) :=
  match bs with
  | [] => Err
  | b :: rest =>
      let! n := len_in st b in
      if (running <=? p) && (p <=? running + n) then Ok (b, running)
      else match rest with [] => Ok (b, running) | _ => seq_find st rest (running + n + 1) p end
  end.
(** The blocks of the table and of the rest changed one by one, and the character count. *)
Definition edit_blocks (d : tdoc) (f : tblock -> tblock) (chars : Z) : tdoc :=
  mk_tdoc (t_rows d) (t_cols d) (t_widths d) (map (fun c => set_blocks c (map f (tc_blocks c))) (t_cells d)) (map f (t_others d))
    (t_at d) (t_count d) chars (t_next d) (t_nextb d).
(** insert_text_uc.rs:271-430 [execute_insert_simple]; all frames of the document own
    their blocks (editing_helpers.rs:52-72 for those of cells), so the loop 372-396 meets
    every block. The result: the document and the new position. *)
Definition x_insert_text (x : xdoc) (p : Z) (text : str) : res (xdoc * Z) :=
  let d := x_table x in let st := x_store x in
  let! (b, start) := seq_find st (flow_blocks d) 0 p in
  let! n := len_in st b in
  let off := Z.max 0 (Z.min n (p - start)) in
  let! st' := type_in st (tb_id b) (Z.to_nat off) text in
  let m := Z.of_nat (length text) in
  let f y :=
    if N.eqb (tb_id y) (tb_id b) then mk_tblock (tb_id y) (tb_pos y) (tb_len y + m)
    else if tb_pos b <? tb_pos y then mk_tblock (tb_id y) (tb_pos y + m) (tb_len y) else y in
  Ok (mk_xdoc (edit_blocks d f (t_chars d + m)) st' (x_tid x), start + off + m).

(** editing_helpers.rs:162-204 [find_block_at_position] by stored positions (191-203). *)
Fixpoint find_stored (st : rstore) (bs : list tblock) (p : Z) : res (tblock * Z) :=
  match bs with
  | [] => Err
  | b :: rest =>
      let! n := len_in st b in
      if (tb_pos b <=? p) && (p <=? tb_pos b + n) then Ok (b, p - tb_pos b)
      else match rest with [] => Ok (b, n) | _ => find_stored st rest p end
  end.
(** insert_block_uc.rs:51-266 [execute_insert_block] at a position. *)
Definition x_break_at (x : xdoc) (p : Z) : res xdoc :=
  let! (b, off) := find_stored (x_store x) (flow_blocks (x_table x)) p in
  x_insert_block x (tb_id b) (Z.to_nat off).

(** delete_text_uc.rs:179-208: the blocks of the main frame get the positions they have
    without the table between them. *)
Fixpoint refresh_others (st : rstore) (bs : list tblock) (running : Z) : res (list tblock) :=
  match bs with
  | [] => Ok []
  | b :: rest =>
      let! n := len_in st b in
      let! more := refresh_others st rest (running + n + 1) in
      Ok (mk_tblock (tb_id b) running (tb_len b) :: more)
  end.
(** delete_text_uc.rs:215-230: the cell a block is in. *)
Definition cell_with (d : tdoc) (i : id) : option id :=
  option_map tc_id (find (fun c => existsb (N.eqb i) (block_ids (tc_blocks c))) (t_cells d)).
Definition same_owner (a b : option id) : bool :=
  match a, b with None, None => true | Some i, Some j => N.eqb i j | _, _ => false end.
(** delete_text_uc.rs:232-254 [is_cross_cell]: [first], the cell of the first block met. *)
Fixpoint cross_cell (st : rstore) (d : tdoc) (bs : list tblock) (s e : Z) (first : option (option id)) : res bool :=
  match bs with
  | [] => Ok false
  | b :: rest =>
      let! n := len_in st b in
      if (tb_pos b + n <? s) || (e <? tb_pos b) then cross_cell st d rest s e first
      else
        let c := cell_with d (tb_id b) in
        match first with
        | None => cross_cell st d rest s e (Some c)
        | Some fc => if same_owner fc c then cross_cell st d rest s e first else Ok true
        end
  end.
(** delete_text_uc.rs:121-680 [execute_delete]. [None]: the selection meets several cells
    (256-590) or several paragraphs (681-858); these are left out. The stored positions
    refreshed at the start are written (205-207). *)
Definition x_delete (x : xdoc) (p a : Z) : res (option xdoc) :=
  if p =? a then Ok (Some x)
  else
    let s := Z.min p a in let e := Z.max p a in
    let st := x_store x in
    let! others := refresh_others st (t_others (x_table x)) 0 in
    let d := set_others (x_table x) others in
    let bs := sort_tblocks (flow_blocks d) in
    let! (b, so) := find_stored st bs s in
    let! cross := cross_cell st d bs s e None in
    if cross then Ok None
    else
      let! (b2, eo) := find_stored st bs e in
      if N.eqb (tb_id b2) (tb_id b) then
        let! st' := erase_in st (tb_id b) (Z.to_nat so) (Z.to_nat eo - Z.to_nat so) in
        let later := behind (tb_id b) (block_ids bs) in
        let f y :=
          if N.eqb (tb_id y) (tb_id b) then mk_tblock (tb_id y) (tb_pos y) (tb_len y - (eo - so))
          else if existsb (N.eqb (tb_id y)) later then mk_tblock (tb_id y) (tb_pos y - (e - s)) (tb_len y) else y in
        Ok (Some (mk_xdoc (edit_blocks d f (t_chars d - (e - s))) st' (x_tid x)))
      else Ok None.

(** ** The snapshot *)
(** flow.rs [BlockSnapshot] with the fields modelled here. *)
Record xsnap := mk_xsnap { xs_id : id; xs_pos : nat; xs_len : nat; xs_text : str }.
(** text_frame.rs:259-268 and text_block.rs:972-1007
    [build_blocks_snapshot_for_frame_with_positions]: blocks one after the other. *)
Fixpoint snap_blocks (st : rstore) (bs : list tblock) (running : nat) : res (list xsnap * nat) :=
  match bs with
  | [] => Ok ([], running)
  | b :: rest =>
      let! t := block_content st (tb_id b) in
      let! n := block_char_length st (tb_id b) in
      let! (ss, last) := snap_blocks st rest (running + n + 1) in
      Ok (mk_xsnap (tb_id b) running n t :: ss, last)
  end.
(** text_frame.rs:402-462 [build_table_snapshot_with_positions]: row, column and spans of
    each cell with its blocks. *)
Record xcell := mk_xcell { xc_row : Z; xc_col : Z; xc_rs : Z; xc_cs : Z; xc_blocks : list xsnap }.
Fixpoint snap_cells (st : rstore) (cs : list tcell) (running : nat) : res (list xcell * nat) :=
  match cs with
  | [] => Ok ([], running)
  | c :: rest =>
      let! (ss, last) := snap_blocks st (sort_tblocks (tc_blocks c)) running in
      let! (more, last) := snap_cells st rest last in
      Ok (mk_xcell (tc_row c) (tc_col c) (tc_rs c) (tc_cs c) ss :: more, last)
  end.
Inductive xelem := XBlock (s : xsnap) | XTable (rows cols : Z) (cells : list xcell).
(** text_frame.rs:248-306 [snapshot_from_child_order]: the blocks before the table, the
    table, the blocks after it. *)
Definition x_snapshot (x : xdoc) : res (list xelem) :=
  let d := x_table x in let st := x_store x in
  let! (before, r) := snap_blocks st (firstn (t_at d) (t_others d)) 0 in
  let! (cells, r) := snap_cells st (sort_cells (t_cells d)) r in
  let! (after, _) := snap_blocks st (skipn (t_at d) (t_others d)) r in
  Ok (map XBlock before ++ XTable (t_rows d) (t_cols d) cells :: map XBlock after).
