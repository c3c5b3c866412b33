(** Searching and replacing in a document with a table.

    Sources: crates/document_search/src/use_cases/{find_all,find_text,replace_text}_uc.rs
    and search_helpers.rs. The matching itself is [SearchModel.find_all_matches].

    One frame and one table, as in [TableEditModel]; formats and images are left out.
    [Block] (common/src/entities.rs:105-128) has no length: [tb_len] follows the length of
    the text in the rope, here as in [TableEditModel]. *)
From Verif Require Import Base RopeModel SearchModel TableModel TableTextModel TableEditModel XCopyModel.
Local Open Scope Z_scope.

(** find_all_uc.rs:42-53, find_text_uc.rs:42-53 and replace_text_uc.rs:60-68: the blocks
    of the main frame and those of the frame of every cell, sorted by position. *)
Definition searched (d : tdoc) : list tblock := sort_tblocks (t_others d ++ flat_map tc_blocks (t_cells d)).
(** The contents of blocks. *)
Fixpoint contents (st : rstore) (bs : list tblock) : res (list str) :=
  match bs with
  | [] => Ok []
  | b :: rest => let! t := block_content st (tb_id b) in let! ts := contents st rest in Ok (t :: ts)
  end.
(** search_helpers.rs:22-31 [build_full_text_via_store]. The path for flat documents
    (rope_helpers.rs:244-258) is not taken: there are several frames and an anchor. *)
Definition x_full_text (x : xdoc) : res str := let! ts := contents (x_store x) (searched (x_table x)) in Ok (with_breaks ts).
(** find_all_uc.rs:67-95 [execute]. *)
Definition x_find_all (g : engines) (x : xdoc) (query : str) (o : find_options) : res (list (nat * nat)) :=
  let! text := x_full_text x in find_all_matches g text query o.
(** find_text_uc.rs:68-111 [execute]; [None] is [found: false]. *)
Definition x_find_text (g : engines) (x : xdoc) (query : str) (o : find_options) (from : Z) (backward : bool) : res (option (nat * nat)) :=
  let! text := x_full_text x in
  let! ms := find_all_matches g text query o in
  let start := Z.to_nat (Z.max from 0) in
  Ok (if backward then find (fun m => Nat.ltb (fst m) start) (rev ms) else find (fun m => Nat.leb start (fst m)) ms).

(** replace_text_uc.rs:76-91 [find_block_for_position], with the stored positions; a
    negative one becomes a huge [usize] and matches nothing. *)
Fixpoint x_find_block (st : rstore) (bs : list tblock) (k p : nat) : res (option (nat * nat)) :=
  match bs with
  | [] => Ok None
  | b :: rest =>
      let! n := len_in st b in
      if (0 <=? tb_pos b) && (tb_pos b <=? Z.of_nat p) && (Z.of_nat p <? tb_pos b + n)
      then Ok (Some (k, (p - Z.to_nat (tb_pos b))%nat)) else x_find_block st rest (S k) p
  end.
(** replace_text_uc.rs:93-107 [match_in_single_block]. *)
Definition x_match_in (st : rstore) (bs : list tblock) (m : nat * nat) : res (option (nat * nat)) :=
  let! r := x_find_block st bs 0 (fst m) in
  match r with
  | None => Ok None
  | Some (k, off) =>
      let! b := unwrap (nth_error bs k) in
      let! n := len_in st b in
      Ok (if Z.of_nat (off + snd m) <=? n then Some (k, off) else None)
  end.
(** replace_text_uc.rs:225-239: (length, index of the block, offset in it) of the matches
    inside one block, and how many are not. *)
Fixpoint x_valid (st : rstore) (bs : list tblock) (ms : list (nat * nat)) : res (list (nat * nat * nat) * Z) :=
  match ms with
  | [] => Ok ([], 0)
  | m :: rest =>
      let! r := x_match_in st bs m in
      let! (vs, skipped) := x_valid st bs rest in
      match r with Some (k, off) => Ok ((snd m, k, off) :: vs, skipped) | None => Ok (vs, skipped + 1) end
  end.
(** replace_text_uc.rs:114-191 [replace_in_block], the part that touches the rope, over the
    list already reversed (259-278). *)
Fixpoint x_replace_each (st : rstore) (bs : list tblock) (vs : list (nat * nat * nat)) (r : str) : res rstore :=
  match vs with
  | [] => Ok st
  | (len, k, off) :: rest =>
      let! b := unwrap (nth_error bs k) in
      let! st1 := erase_in st (tb_id b) off len in
      let! st2 := type_in st1 (tb_id b) off r in
      x_replace_each st2 bs rest r
  end.
(** replace_text_uc.rs:280-323: the blocks are read again, in the same order since no
    position has changed; each moves by what came before it and grows by its own part. *)
Fixpoint x_moves (delta : nat -> Z) (k : nat) (bs : list tblock) (shift : Z) : list (id * (Z * Z)) :=
  match bs with
  | [] => []
  | b :: rest => (tb_id b, (shift, delta k)) :: x_moves delta (S k) rest (shift + delta k)
  end.
Definition x_moved (l : list (id * (Z * Z))) (y : tblock) : tblock :=
  match find (fun e => N.eqb (fst e) (tb_id y)) l with
  | Some (_, (s, n)) => mk_tblock (tb_id y) (tb_pos y + s) (tb_len y + n)
  | None => y
  end.
(** replace_text_uc.rs:221-345, once the matches are known: the document,
    [replacements_count] and [skipped_cross_block]. *)
Definition x_replace_matches (x : xdoc) (ms : list (nat * nat)) (all : bool) (r : str) : res (xdoc * Z * Z) :=
  match ms with
  | [] => Ok (x, 0, 0)
  | _ =>
      let bs := searched (x_table x) in
      let! (vs, skipped) := x_valid (x_store x) bs ms in
      let vs := if all then vs else firstn 1 vs in
      match vs with
      | [] => Ok (x, 0, skipped)
      | _ =>
          let! st := x_replace_each (x_store x) bs (rev vs) r in
          let total := fold_right (fun v n => Z.of_nat (length r) - Z.of_nat (fst (fst v)) + n) 0 vs in
          let d := edit_blocks (x_table x) (x_moved (x_moves (delta_of r vs) 0 bs 0)) (t_chars (x_table x) + total) in
          Ok (mk_xdoc d st (x_tid x), Z.of_nat (length vs), skipped)
      end
  end.
(** replace_text_uc.rs:193-220 [execute_replace]. *)
Definition x_replace_text (g : engines) (x : xdoc) (query r : str) (o : find_options) (all : bool) : res (xdoc * Z * Z) :=
  let! text := x_full_text x in
  let! ms := find_all_matches g text query o in
  x_replace_matches x ms all r.
