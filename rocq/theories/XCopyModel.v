(** Copying in a document with a table, and pasting a table over cells.

    Sources: crates/document_inspection/src/use_cases/extract_fragment_uc.rs,
    crates/document_editing/src/use_cases/insert_fragment_uc.rs and
    crates/public_api/src/{cursor,fragment}.rs.

    One frame and one table, as in [TableEditModel]; a paragraph of a fragment is its
    text and whether it was taken whole. Formats, images and lists are left out. *)
From Verif Require Import Base RopeModel TableModel TableTextModel TableEditModel.
Local Open Scope Z_scope.

(** public_api/src/fragment.rs [FragmentBlock]; [xp_full] is [is_full_block]. *)
Record xpiece := mk_xpiece { xp_text : str; xp_full : bool }.
(** [FragmentTableCell] and [FragmentTable]; [fx_at] is [block_insert_index]. *)
Record fcell := mk_fcell { fc_row : Z; fc_col : Z; fc_rs : Z; fc_cs : Z; fc_blocks : list xpiece }.
Record ftab := mk_ftab { fx_rows : Z; fx_cols : Z; fx_cells : list fcell; fx_at : nat }.
(** [FragmentData] with the plain text that comes with it. *)
Record xfrag := mk_xfrag { xf_blocks : list xpiece; xf_tables : list ftab; xf_plain : str }.

(** extract_fragment_uc.rs:100-108 and 540-587 [collect_block_ids_recursive_ro]: the
    blocks of every frame of the document. The main frame gives its blocks and those of
    the cells in reading order; the frames of the cells are frames of the document
    as well (editing_helpers.rs:52-72) and give theirs again. Sorted by position. *)
Definition gathered (d : tdoc) : list tblock := sort_tblocks (flow_blocks d ++ flat_map tc_blocks (t_cells d)).
(** extract_fragment_uc.rs:117-121, 151-156 and 303-308: a block out of the range. *)
Definition missed (s e : Z) (b : tblock) (n : Z) : bool := (tb_pos b + n <? s) || (e <=? tb_pos b).
(** extract_fragment_uc.rs:113-136 [is_cross_cell]: [first], the cell of the first block met. *)
Fixpoint cross_copy (st : rstore) (d : tdoc) (s e : Z) (bs : list tblock) (first : option (option id)) : res bool :=
  match bs with
  | [] => Ok false
  | b :: rest =>
      let! n := len_in st b in
      if missed s e b n then cross_copy st d s e rest first
      else
        let c := cell_with d (tb_id b) in
        match first with
        | None => cross_copy st d s e rest (Some c)
        | Some fc => if same_owner fc c then cross_copy st d s e rest first else Ok true
        end
  end.
(** extract_fragment_uc.rs:226-280 and 310-350: the part of a block that is in the range;
    [last]: the id of the last block. *)
Definition piece_of (st : rstore) (s e : Z) (last : id) (b : tblock) : res xpiece :=
  let! n := len_in st b in
  let! t := block_content st (tb_id b) in
  let ls := if tb_pos b <? s then s - tb_pos b else 0 in
  let le := if e <? tb_pos b + n then e - tb_pos b else n in
  Ok (mk_xpiece (firstn (Z.to_nat le - Z.to_nat ls) (skipn (Z.to_nat ls) t))
        ((ls =? 0) && (le =? n) && ((tb_pos b + n <? e) || N.eqb (tb_id b) last))).
(** extract_fragment_uc.rs:295-345. *)
Fixpoint copy_text (st : rstore) (s e : Z) (last : id) (bs : list tblock) : res (list xpiece) :=
  match bs with
  | [] => Ok []
  | b :: rest =>
      let! n := len_in st b in
      if missed s e b n then copy_text st s e last rest
      else
        let! q := piece_of st s e last b in
        let! more := copy_text st s e last rest in
        Ok (q :: more)
  end.
(** extract_fragment_uc.rs:361-377 [extract_full_block] and 185-204: the blocks of a cell. *)
Fixpoint full_pieces (st : rstore) (bs : list tblock) : res (list xpiece) :=
  match bs with
  | [] => Ok []
  | b :: rest =>
      let! n := len_in st b in
      let! t := block_content st (tb_id b) in
      let! more := full_pieces st rest in
      Ok (mk_xpiece (firstn (Z.to_nat n) t) true :: more)
  end.
(** extract_fragment_uc.rs:171-219: the cells in reading order. *)
Fixpoint copy_cells (st : rstore) (cs : list tcell) : res (list fcell) :=
  match cs with
  | [] => Ok []
  | c :: rest =>
      let! ps := full_pieces st (sort_tblocks (tc_blocks c)) in
      let! more := copy_cells st rest in
      Ok (mk_fcell (tc_row c) (tc_col c) (Z.max 1 (tc_rs c)) (Z.max 1 (tc_cs c)) ps :: more)
  end.
(** extract_fragment_uc.rs:138-283: [done], the table is extracted already; [k], the
    number of paragraphs so far. The paragraphs, the tables and the lines of the plain
    text. *)
Fixpoint copy_mixed (st : rstore) (d : tdoc) (s e : Z) (last : id) (bs : list tblock) (done : bool) (k : nat)
  : res (list xpiece * list ftab * list str) :=
  match bs with
  | [] => Ok ([], [], [])
  | b :: rest =>
      let! n := len_in st b in
      if missed s e b n then copy_mixed st d s e last rest done k
      else
        match cell_with d (tb_id b) with
        | Some _ =>
            if done then copy_mixed st d s e last rest done k
            else
              let! cells := copy_cells st (sort_cells (t_cells d)) in
              let! (ps, ts, lines) := copy_mixed st d s e last rest true k in
              Ok (ps, mk_ftab (t_rows d) (t_cols d) cells k :: ts, flat_map (fun c => map xp_text (fc_blocks c)) cells ++ lines)
        | None =>
            let! q := piece_of st s e last b in
            let! (ps, ts, lines) := copy_mixed st d s e last rest done (S k) in
            Ok (q :: ps, ts, xp_text q :: lines)
        end
  end.
(** [join("\n")]. *)
Fixpoint with_breaks (ls : list str) : str :=
  match ls with [] => [] | [l] => l | l :: rest => l ++ 10%N :: with_breaks rest end.
(** extract_fragment_uc.rs:45-359 [execute]. *)
Definition x_extract (x : xdoc) (p a : Z) : res xfrag :=
  if p =? a then Ok (mk_xfrag [] [] [])
  else
    let s := Z.min p a in let e := Z.max p a in
    let st := x_store x in let d := x_table x in
    let bs := gathered d in
    let last_id := last (block_ids bs) 0%N in
    let! cross := cross_copy st d s e bs None in
    if cross then
      let! (ps, ts, lines) := copy_mixed st d s e last_id bs false 0 in
      Ok (mk_xfrag ps ts (with_breaks lines))
    else
      let! ps := copy_text st s e last_id bs in
      Ok (mk_xfrag ps [] (with_breaks (map xp_text ps))).
(** public_api/src/fragment.rs:103-114 [DocumentFragment::from_document]. *)
Definition x_from_document (x : xdoc) : res xfrag := x_extract x 0 (2 ^ 63 - 1).

(** ** Pasting a table over cells *)
(** insert_fragment_uc.rs:317-366, one cell of the fragment: the first block of the cell
    stays and gets the formats of the fragment's first paragraph (left out), the others
    are removed, and each further paragraph of the fragment makes an empty block. Nothing
    is written to the rope. *)
Definition paste_blocks (d : tdoc) (c : tcell) (ps : list xpiece) : tdoc :=
  match tc_blocks c with
  | [] => d
  | b :: _ =>
      let extra := map (fun k => mk_tblock (t_nextb d + N.of_nat k) 0 0)%N (seq 0 (length (tl ps))) in
      let cs := map (fun y => if N.eqb (tc_id y) (tc_id c) then set_blocks y (b :: extra) else y) (t_cells d) in
      mk_tdoc (t_rows d) (t_cols d) (t_widths d) cs (t_others d) (t_at d) (t_count d) (t_chars d) (t_next d) (t_nextb d + N.of_nat (length (tl ps)))%N
  end.
Definition paste_cell (r c : Z) (d : tdoc) (f : fcell) : tdoc :=
  match find (fun y => (tc_row y =? r + fc_row f) && (tc_col y =? c + fc_col f)) (t_cells d) with
  | Some y => paste_blocks d y (fc_blocks f)
  | None => d
  end.
(** insert_fragment_uc.rs:241-376 [try_replace_table_cells], for a fragment with one table
    and nothing else. [None]: the position is not in the table, or the cells do not fit. *)
Definition x_paste_cells (x : xdoc) (p : Z) (f : xfrag) : res (option xdoc) :=
  match xf_tables f with
  | [t] =>
      let d := x_table x in
      let! (b, _) := find_stored (x_store x) (sort_tblocks (t_others d ++ flat_map tc_blocks (t_cells d))) p in
      match find (fun c => existsb (N.eqb (tb_id b)) (block_ids (tc_blocks c))) (t_cells d) with
      | None => Ok None
      | Some c =>
          let mr := fold_right (fun f m => Z.max (fc_row f) m) 0 (fx_cells t) in
          let mc := fold_right (fun f m => Z.max (fc_col f) m) 0 (fx_cells t) in
          if (t_rows d <=? tc_row c + mr) || (t_cols d <=? tc_col c + mc) then Ok None
          else Ok (Some (mk_xdoc (fold_left (paste_cell (tc_row c) (tc_col c)) (fx_cells t) d) (x_store x) (x_tid x)))
      end
  | _ => Ok None
  end.
