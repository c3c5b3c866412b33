(** Deleting a selection that meets several cells of a table, or cells and paragraphs
    outside of it (delete_text_uc.rs:256-590).

    Simplifications: formats, images, lists and frames other than the table are left out
    (they are not in [xdoc]); a deletion that takes the table away with its cells
    (322-375) is left out ([None]). *)
From Verif Require Import Base RopeModel TableModel TableTextModel TableEditModel.
Local Open Scope Z_scope.

(** delete_text_uc.rs:262-273: the cells of the blocks the selection meets, each once,
    in the order of the blocks. *)
Fixpoint met_cells (st : rstore) (d : tdoc) (bs : list tblock) (s e : Z) (seen : list id) : res (list id) :=
  match bs with
  | [] => Ok []
  | b :: rest =>
      let! n := len_in st b in
      match cell_with d (tb_id b) with
      | Some c =>
          if (s <=? tb_pos b + n) && (tb_pos b <=? e) && negb (existsb (N.eqb c) seen)
          then let! more := met_cells st d rest s e (c :: seen) in Ok (c :: more)
          else met_cells st d rest s e seen
      | None => met_cells st d rest s e seen
      end
  end.
Definition cell_named (d : tdoc) (i : id) : option tcell := find (fun c => N.eqb (tc_id c) i) (t_cells d).
(** delete_text_uc.rs:289-292. *)
Fixpoint total_length (st : rstore) (bs : list tblock) : res Z :=
  match bs with
  | [] => Ok 0
  | b :: rest => let! n := len_in st b in let! m := total_length st rest in Ok (n + m)
  end.
(** delete_text_uc.rs:275-305 with 90-111 [clear_block]: the text of the first block of
    each cell is taken away, the other blocks of the cell are removed (the rope keeps
    their text). The number is that of the characters taken away. *)
Fixpoint clear_cells (st : rstore) (d : tdoc) (cs : list id) : res (rstore * Z) :=
  match cs with
  | [] => Ok (st, 0)
  | i :: rest =>
      match cell_named d i with
      | None => Err
      | Some c =>
          let bs := sort_tblocks (tc_blocks c) in
          match bs with
          | [] => clear_cells st d rest
          | b :: _ =>
              let! n := total_length st bs in
              let! st' := rope_replace_block_content st (tb_id b) [] in
              let! (st'', m) := clear_cells st' d rest in
              Ok (st'', n + m)
          end
      end
  end.
(** The cells afterwards; a recorded length is that of the text. *)
Definition cleared (hit : list id) (c : tcell) : tcell :=
  if existsb (N.eqb (tc_id c)) hit
  then TableModel.set_blocks c (map (fun b => mk_tblock (tb_id b) (tb_pos b) 0) (firstn 1 (sort_tblocks (tc_blocks c))))
  else c.
(** delete_text_uc.rs:322-336: from where to where the cells go; [st] is the store with
    the cells cleared. *)
Fixpoint extent (st : rstore) (bs : list tblock) : res (option (Z * Z)) :=
  match bs with
  | [] => Ok None
  | b :: rest =>
      let! n := len_in st b in
      let! r := extent st rest in
      Ok (Some (match r with
                | None => (tb_pos b, tb_pos b + n)
                | Some (lo, hi) => (Z.min (tb_pos b) lo, Z.max (tb_pos b + n) hi)
                end))
  end.
(** delete_text_uc.rs:308-338: all cells are met and the selection goes beyond them. *)
Definition table_goes (st : rstore) (cs : list tcell) (hit : list id) (s e : Z) : res bool :=
  if forallb (fun c => existsb (N.eqb (tc_id c)) hit) cs then
    let! r := extent st (flat_map tc_blocks cs) in
    Ok (match r with None => false | Some (lo, hi) => (s <? lo) || (hi <? e) end)
  else Ok false.
(** delete_text_uc.rs:382-394: the blocks outside the table that are in the selection,
    with their lengths. *)
Fixpoint met_outside (st : rstore) (d : tdoc) (bs : list tblock) (s e : Z) : res (list (tblock * Z)) :=
  match bs with
  | [] => Ok []
  | b :: rest =>
      let! n := len_in st b in
      let! more := met_outside st d rest s e in
      Ok (if (tb_pos b + n <? s) || (e <=? tb_pos b) then more
          else match cell_with d (tb_id b) with Some _ => more | None => (b, n) :: more end)
  end.
(** delete_text_uc.rs:396-438 with 862-910 [delete_char_range_in_block]: a part of the
    first and of the last one goes; the others are removed (the rope keeps their text).
    [first]: [m] is the first one. The result: the store, the characters taken away, the
    new lengths and the blocks removed. *)
Fixpoint clear_outside (st : rstore) (ms : list (tblock * Z)) (s e : Z) (first : bool) : res (rstore * Z * list (id * Z) * list id) :=
  match ms with
  | [] => Ok (st, 0, [], [])
  | (b, n) :: rest =>
      let is_first := first && (tb_pos b <? s) in
      let is_last := match rest with [] => e <? tb_pos b + n | _ => false end in
      if is_first || is_last then
        let from := if is_first then s - tb_pos b else 0 in
        let to := if is_last then e - tb_pos b else n in
        let! (st', k) := (if to <=? from then Ok (st, 0)
                          else let! st' := erase_in st (tb_id b) (Z.to_nat from) (Z.to_nat to - Z.to_nat from) in Ok (st', to - from)) in
        let! (st'', m, ls, gone) := clear_outside st' rest s e false in
        Ok (st'', k + m, (tb_id b, n - k) :: ls, gone)
      else
        let! (st'', m, ls, gone) := clear_outside st rest s e false in
        Ok (st'', n + m, ls, tb_id b :: gone)
  end.
(** delete_text_uc.rs:425-452: the blocks outside the table afterwards. *)
Definition shortened (ls : list (id * Z)) (b : tblock) : tblock :=
  match find (fun q => N.eqb (fst q) (tb_id b)) ls with
  | Some (_, n) => mk_tblock (tb_id b) (tb_pos b) n
  | None => b
  end.
Definition left_outside (ls : list (id * Z)) (gone : list id) (bs : list tblock) : list tblock :=
  map (shortened ls) (filter (fun b => negb (existsb (N.eqb (tb_id b)) gone)) bs).

(** delete_text_uc.rs:121-590 for a selection that meets several cells: the document and
    the text reported as deleted. [None]: the selection does not meet several cells
    ([TableEditModel.x_delete] is about these), or the table goes. The stored positions
    stay as they were refreshed at the start (179-208). At the end (541-573) the paragraphs are
    counted; one is made when none is left, which cannot be with a table. *)
Definition x_delete_cells (x : xdoc) (p a : Z) : res (option (xdoc * str)) :=
  if p =? a then Ok None
  else
    let s := Z.min p a in let e := Z.max p a in
    let st := x_store x in
    let! others := refresh_others st (t_others (x_table x)) 0 in
    let d := set_others (x_table x) others in
    let bs := sort_tblocks (flow_blocks d) in
    let! (b, so) := find_stored st bs s in
    let! cross := cross_cell st d bs s e None in
    if cross then
      let! hit := met_cells st d bs s e [] in
      let! (st1, n) := clear_cells st d hit in
      let cells := map (cleared hit) (t_cells d) in
      let! goes := table_goes st1 cells hit s e in
      if goes then Ok None
      else
        let! ms := met_outside st1 d bs s e in
        let! (st2, m, ls, gone) := clear_outside st1 ms s e true in
        let others' := left_outside ls gone others in
        let d' := mk_tdoc (t_rows d) (t_cols d) (t_widths d) cells others' (length (left_outside ls gone (firstn (t_at d) others)))
                    (Z.of_nat (length others' + length (flat_map tc_blocks cells))) (Z.max 0 (t_chars d - (n + m))) (t_next d) (t_nextb d) in
        Ok (Some (mk_xdoc d' st2 (x_tid x), []))
    else Ok None.
