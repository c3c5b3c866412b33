(** Lists of a document: making them, joining and leaving them, numbering.

    Sources: crates/document_editing/src/use_cases/{create_list,add_block_to_list,
    remove_block_from_list,insert_list}_uc.rs,
    crates/document_formatting/src/use_cases/set_list_format_uc.rs,
    crates/public_api/src/{text_list,text_block}.rs. *)
From Verif Require Import Base RopeModel DocModel QueryModel ListModel.

(** common/src/entities.rs [List]. *)
Record list_entity := mk_list {
  l_style : list_style; l_indent : Z; l_prefix : str; l_suffix : str
}.
(** A document with its list table; [l_next] is the [list] counter. *)
Record ldoc := mk_ldoc { l_doc : doc; l_lists : list (id * list_entity); l_next : id }.
Definition get_list (L : ldoc) (l : id) : option list_entity :=
  option_map snd (find (fun x => N.eqb (fst x) l) (l_lists L)).

(** list_repository.rs [create]: a new id. *)
Definition new_list (L : ldoc) (e : list_entity) : ldoc * id :=
  (mk_ldoc (l_doc L) (l_lists L ++ [(l_next L, e)]) (N.succ (l_next L)), l_next L).
Definition plain_list (st : list_style) : list_entity := mk_list st 0%Z [] [].

(** create_list_uc.rs:99-104: which blocks the range touches. *)
Definition touches (start len s e : Z) : bool := ((s <=? start + len) && (start <=? e))%Z.
(** create_list_uc.rs:96-111: the loop over the blocks. *)
Fixpoint assign_list (d : doc) (l : id) (s e : Z) (bs : list block) : res doc :=
  match bs with
  | [] => Ok d
  | b :: rest =>
      let! n := char_length d (b_id b) in
      assign_list (if touches (b_pos b) n s e then set_block_list d (b_id b) (Some l) else d) l s e rest
  end.
(** create_list_uc.rs:57-119 [execute_create_list]. *)
Definition create_list (L : ldoc) (p a : Z) (st : list_style) : res (ldoc * id) :=
  let bs := sort_blocks (get_multi (l_doc L) (d_fblocks (l_doc L))) in
  let (L', l) := new_list L (plain_list st) in
  let! d := assign_list (l_doc L) l (Z.min p a) (Z.max p a) bs in
  Ok (mk_ldoc d (l_lists L') (l_next L'), l).

(** add_block_to_list_uc.rs:24-61 [execute_add_block_to_list]. *)
Definition add_block_to_list (L : ldoc) (i l : id) : res ldoc :=
  let! _ := ok_or (get_block (l_doc L) i) in
  let! _ := ok_or (get_list L l) in
  Ok (mk_ldoc (set_block_list (l_doc L) i (Some l)) (l_lists L) (l_next L)).

(** [b.list == Some(l)]. *)
Definition in_list (l : id) (b : block) : bool := match b_list b with Some l' => N.eqb l' l | None => false end.
(** remove_block_from_list_uc.rs:25-70 [execute_remove_block_from_list]: a list
    without members disappears. *)
Definition remove_block_from_list (L : ldoc) (i : id) : res ldoc :=
  let! b := ok_or (get_block (l_doc L) i) in
  let! l := ok_or (b_list b) in
  let d := set_block_list (l_doc L) i None in
  Ok (mk_ldoc d (if existsb (in_list l) (d_blocks d) then l_lists L
                 else filter (fun x => negb (N.eqb (fst x) l)) (l_lists L)) (l_next L)).

(** set_list_format_uc.rs:24-69 [execute_set_list_format]; [None] keeps. *)
Record list_req := mk_list_req {
  q_style : option list_style; q_list_indent : option Z; q_prefix : option str; q_suffix : option str
}.
Definition keep {A} (o : option A) (x : A) : A := match o with Some v => v | None => x end.
Definition apply_list (q : list_req) (e : list_entity) : list_entity :=
  mk_list (keep (q_style q) (l_style e)) (keep (q_list_indent q) (l_indent e))
          (keep (q_prefix q) (l_prefix e)) (keep (q_suffix q) (l_suffix e)).
Definition set_list_format (L : ldoc) (l : id) (q : list_req) : res ldoc :=
  let! e := ok_or (get_list L l) in
  Ok (mk_ldoc (l_doc L) (map (fun x => if N.eqb (fst x) l then (l, apply_list q e) else x) (l_lists L)) (l_next L)).

(** insert_list_uc.rs:60-171 [execute_insert_list]: a new empty block after the
    block at [p]. block_repository.rs:161-186 [create] places it at index
    [k + 1] of [Frame.blocks]. The rope is not touched. *)
Definition insert_list (L : ldoc) (p : Z) (st : list_style) : res (ldoc * id * Z) :=
  let d := l_doc L in
  let bs := sort_blocks (get_multi d (d_fblocks d)) in
  let! (_, k, _) := find_block_at_position d bs p in
  let (L', l) := new_list L (plain_list st) in
  let! cur := unwrap (nth_error bs k) in
  let! n := char_length d (b_id cur) in
  let pos := (b_pos cur + n + 1)%Z in
  let i := d_next d in
  let! fb := (if S k <? length (d_fblocks d) then vec_insert (d_fblocks d) (S k) i else Ok (d_fblocks d ++ [i])) in
  let! order := vec_insert (d_order d) (Nat.min (S k) (length (d_order d))) i in
  let d1 := mk_doc (d_rs d) (d_blocks d ++ [mk_block i pos (Some l) bfmt_default]) (d_runs d) (d_images d)
              fb order (d_chars d) (d_nblocks d + 1)%Z (N.succ i) in
  let d2 := update_multi d1 (map (fun b => set_b_pos b (b_pos b + 1)%Z) (skipn (S k) bs)) in
  Ok (mk_ldoc d2 (l_lists L') (l_next L'), l, pos).

(** text_list.rs:91-107 [item] and text_block.rs:766-779: the blocks of a list,
    by refreshed position. *)
Definition list_blocks (d : doc) (l : id) : res (list block) :=
  let! bs := refreshed_all d (d_blocks d) in Ok (sort_blocks (filter (in_list l) bs)).
(** text_list.rs:79-88 [count]. *)
Definition list_count (d : doc) (l : id) : nat := length (filter (in_list l) (d_blocks d)).
Definition list_item (d : doc) (l : id) (k : nat) : res (option id) :=
  let! bs := list_blocks d l in Ok (option_map b_id (nth_error bs k)).
(** text_block.rs:297-321 [list], [list_item_index]. *)
Definition block_list (d : doc) (i : id) : option id :=
  match get_block d i with Some b => b_list b | None => None end.
Definition list_item_index (d : doc) (i : id) : res (option nat) :=
  match block_list d i with
  | None => Ok None
  | Some l => let! bs := list_blocks d l in
              Ok (Some (match index_of_block i bs with Some k => k | None => 0 end))
  end.
(** text_block.rs:843-862 [build_list_info]: the marker shown for a block. *)
Definition block_marker (L : ldoc) (i : id) : res (option str) :=
  match block_list (l_doc L) i with
  | None => Ok None
  | Some l =>
      match get_list L l with
      | None => Ok None
      | Some e =>
          let! k := list_item_index (l_doc L) i in
          Ok (option_map (fun k => format_list_marker (l_prefix e) (l_suffix e) (l_style e) (N.of_nat k)) k)
      end
  end.
