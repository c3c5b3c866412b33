(** The document store and the editing use cases, for flat documents: one
    frame, no tables and no sub-frames.

    Sources: crates/common/src/direct_access/block/block_table.rs,
    crates/document_editing/src/use_cases/*.rs,
    crates/document_formatting/src/use_cases/*.rs,
    crates/document_io/src/use_cases/{import,export}_plain_text_uc.rs,
    crates/document_inspection/src/use_cases/*.rs.

    Simplifications: timestamps, events and [Frame.byte_range] are dropped;
    [debug_assert]s are not modelled (release build); [i64] is [Z] and [u32] is
    [nat]; every use case body returns [res], and [Err] stands for the
    transaction being dropped, which restores the store (see TxnModel for that
    mechanism). *)
From Verif Require Import Base FormatRunsModel RopeModel.

(** entities.rs:105-129, the [fmt_*] fields of [Block]; enums are numbered. *)
Record bfmt := mk_bfmt {
  f_alignment : option N;
  f_top_margin : option Z;
  f_bottom_margin : option Z;
  f_left_margin : option Z;
  f_right_margin : option Z;
  f_heading_level : option Z;
  f_indent : option Z;
  f_text_indent : option Z;
  f_marker : option N;
  f_tab_positions : list Z;
  f_line_height : option Z;
  f_non_breakable_lines : option bool;
  f_direction : option N;
  f_background_color : option str;
  f_is_code_block : option bool;
  f_code_language : option str
}.
Definition bfmt_default : bfmt :=
  mk_bfmt None None None None None None None None None [] None None None None None None.

(** entities.rs:105-129 [Block]. *)
Record block := mk_block { b_id : id; b_pos : Z; b_list : option id; b_fmt : bfmt }.
Definition set_b_pos (b : block) (p : Z) : block := mk_block (b_id b) p (b_list b) (b_fmt b).
Definition set_b_list (b : block) (l : option id) : block :=
  mk_block (b_id b) (b_pos b) l (b_fmt b).
Definition set_b_fmt (b : block) (f : bfmt) : block :=
  mk_block (b_id b) (b_pos b) (b_list b) f.

(** rope_store.rs:24-53 restricted to what a flat document uses. [d_fblocks] is
    [Frame.blocks], [d_order] is [Frame.child_order] (all entries positive),
    [d_chars]/[d_nblocks] are [Document.character_count]/[block_count],
    [d_next] is the "block" id counter. A missing entry of the [format_runs]
    and [block_images] maps is the empty list ([unwrap_or_default]). *)
Record doc := mk_doc {
  d_rs : rstore;
  d_blocks : list block;
  d_runs : id -> list run;
  d_images : id -> list image;
  d_fblocks : list id;
  d_order : list id;
  d_chars : Z;
  d_nblocks : Z;
  d_next : id
}.

Definition set_rs (d : doc) (x : rstore) : doc :=
  mk_doc x (d_blocks d) (d_runs d) (d_images d) (d_fblocks d) (d_order d) (d_chars d) (d_nblocks d) (d_next d).
Definition set_blocks (d : doc) (x : list block) : doc :=
  mk_doc (d_rs d) x (d_runs d) (d_images d) (d_fblocks d) (d_order d) (d_chars d) (d_nblocks d) (d_next d).
Definition upd {A} (f : id -> A) (k : id) (v : A) : id -> A := fun x => if N.eqb x k then v else f x.
(** [format_runs.insert(b, rs)]. *)
Definition set_runs (d : doc) (b : id) (rs : list run) : doc :=
  mk_doc (d_rs d) (d_blocks d) (upd (d_runs d) b rs) (d_images d) (d_fblocks d) (d_order d) (d_chars d) (d_nblocks d) (d_next d).
(** [block_images.insert(b, is)]. *)
Definition set_images (d : doc) (b : id) (is_ : list image) : doc :=
  mk_doc (d_rs d) (d_blocks d) (d_runs d) (upd (d_images d) b is_) (d_fblocks d) (d_order d) (d_chars d) (d_nblocks d) (d_next d).
Definition set_order (d : doc) (x : list id) : doc :=
  mk_doc (d_rs d) (d_blocks d) (d_runs d) (d_images d) (d_fblocks d) x (d_chars d) (d_nblocks d) (d_next d).
Definition set_chars (d : doc) (x : Z) : doc :=
  mk_doc (d_rs d) (d_blocks d) (d_runs d) (d_images d) (d_fblocks d) (d_order d) x (d_nblocks d) (d_next d).
Definition set_nblocks (d : doc) (x : Z) : doc :=
  mk_doc (d_rs d) (d_blocks d) (d_runs d) (d_images d) (d_fblocks d) (d_order d) (d_chars d) x (d_next d).
Definition set_next (d : doc) (x : id) : doc :=
  mk_doc (d_rs d) (d_blocks d) (d_runs d) (d_images d) (d_fblocks d) (d_order d) (d_chars d) (d_nblocks d) x.

(** block_table.rs:71-73 [get]. *)
Fixpoint find_block (bs : list block) (i : id) : option block :=
  match bs with
  | [] => None
  | b :: rest => if N.eqb (b_id b) i then Some b else find_block rest i
  end.
Definition get_block (d : doc) (i : id) : option block := find_block (d_blocks d) i.

(** block_table.rs:75-78 [get_multi] followed by [into_iter().flatten()]. *)
Fixpoint get_multi (d : doc) (is_ : list id) : list block :=
  match is_ with
  | [] => []
  | i :: rest =>
      match get_block d i with Some b => b :: get_multi d rest | None => get_multi d rest end
  end.

(** block_table.rs:97-110 [update_multi] on one entity: the stored [list] is
    kept; a missing entity is inserted. *)
Fixpoint put_block (bs : list block) (b : block) : list block :=
  match bs with
  | [] => [b]
  | x :: rest =>
      if N.eqb (b_id x) (b_id b) then set_b_list b (b_list x) :: rest else x :: put_block rest b
  end.
Definition update_block (d : doc) (b : block) : doc := set_blocks d (put_block (d_blocks d) b).
Definition update_multi (d : doc) (bs : list block) : doc := fold_left update_block bs d.

(** block_table.rs:44-69 [create] with id 0 and block_repository.rs:161-186
    [create] at index -1: takes the next id and appends to [Frame.blocks]. *)
Definition create_block (d : doc) (pos : Z) (l : option id) (f : bfmt) : doc * id :=
  let i := d_next d in
  (mk_doc (d_rs d) (d_blocks d ++ [mk_block i pos l f]) (d_runs d) (d_images d)
          (d_fblocks d ++ [i]) (d_order d) (d_chars d) (d_nblocks d) (N.succ i), i).

(** block_table.rs:293-304 [set_relationship] on the [List] field. *)
Definition set_block_list (d : doc) (i : id) (l : option id) : doc :=
  set_blocks d (map (fun b => if N.eqb (b_id b) i then set_b_list b l else b) (d_blocks d)).

Definition without (i : id) (l : list id) : list id := filter (fun x => negb (N.eqb x i)) l.

(** block_table.rs:138-190 [remove_multi] on one id; [child_order] is cleaned
    only when [Frame.blocks] mentions the id. *)
Definition remove_block (d : doc) (i : id) : doc :=
  let mentioned := existsb (N.eqb i) (d_fblocks d) in
  mk_doc (d_rs d) (filter (fun b => negb (N.eqb (b_id b) i)) (d_blocks d))
         (upd (d_runs d) i []) (upd (d_images d) i [])
         (without i (d_fblocks d))
         (if mentioned then without i (d_order d) else d_order d)
         (d_chars d) (d_nblocks d) (d_next d).

(** [sort_by_key(|b| b.document_position)]: a stable sort. *)
Fixpoint insert_sorted (b : block) (l : list block) : list block :=
  match l with
  | [] => [b]
  | x :: rest => if (b_pos b <=? b_pos x)%Z then b :: l else x :: insert_sorted b rest
  end.
Definition sort_blocks (l : list block) : list block := fold_right insert_sorted [] l.

(** editing_helpers.rs:253-299 [collect_block_ids_recursive] on one frame. *)
Definition collect_block_ids (d : doc) : list id :=
  match d_order d with [] => d_fblocks d | l => l end.

Definition char_length (d : doc) (i : id) : res Z :=
  let! n := block_char_length (d_rs d) i in Ok (Z.of_nat n).

Fixpoint index_of_block (i : id) (bs : list block) : option nat :=
  match bs with
  | [] => None
  | b :: rest => if N.eqb (b_id b) i then Some 0 else option_map S (index_of_block i rest)
  end.

(** editing_helpers.rs:191-199, the linear walk on the stored positions. *)
Fixpoint walk_stored (d : doc) (bs : list block) (k : nat) (p : Z) : res (option (block * nat * Z)) :=
  match bs with
  | [] => Ok None
  | b :: rest =>
      let! n := char_length d (b_id b) in
      if ((b_pos b <=? p) && (p <=? b_pos b + n))%Z then Ok (Some (b, k, (p - b_pos b)%Z))
      else walk_stored d rest (S k) p
  end.

(** editing_helpers.rs:165-205 [find_block_at_position]. *)
Definition find_block_at_position (d : doc) (bs : list block) (p : Z) : res (block * nat * Z) :=
  let! r := find_block_at_char_position (d_rs d) (length (d_blocks d)) p in
  match (match r with
         | Some (bid, off, start) =>
             match index_of_block bid bs with
             | Some k => match nth_error bs k with
                         | Some b => Some (set_b_pos b (Z.of_nat start), k, Z.of_nat off)
                         | None => None end
             | None => None end
         | None => None end) with
  | Some x => Ok x
  | None =>
      let! w := walk_stored d bs 0 p in
      match w with
      | Some x => Ok x
      | None =>
          match rev bs with
          | b :: _ => let! n := char_length d (b_id b) in Ok (b, length bs - 1, n)
          | [] => Err
          end
      end
  end.

(** insert_text_uc.rs:441-473 [find_block_at_position_sequential] (also
    insert_formatted_text_uc.rs:382-415): positions computed on the fly. The
    second pass of the source that recomputes the start of the last block
    gives the running position kept here. *)
Fixpoint find_sequential (d : doc) (is_ : list id) (running p : Z) : res (block * Z) :=
  match is_ with
  | [] => Err
  | i :: rest =>
      let! b := ok_or (get_block d i) in
      let! n := char_length d i in
      if ((running <=? p) && (p <=? running + n))%Z then Ok (b, running)
      else match rest with
           | [] => Ok (b, running)
           | _ => find_sequential d rest (running + n + 1)%Z p
           end
  end.

Definition clamp (lo hi x : Z) : Z := Z.max lo (Z.min hi x).

(** Shared by the insert paths: insert [text] into block [i] at byte [o],
    moving runs and images (insert_text_uc.rs:300-326). *)
Definition insert_bytes (d : doc) (i : id) (o : nat) (text : str) : res doc :=
  let d := set_runs d i (shift_runs_for_insert (d_runs d i) o (blen text)) in
  let d := set_images d i (shift_images_for_insert (d_images d i) o (blen text)) in
  let! rs := rope_insert_in_block (d_rs d) i o text in
  Ok (set_rs d rs).

(** insert_text_uc.rs:49-61 [UndoData]. *)
Record simple_undo := mk_su {
  su_id : id; su_block : block; su_runs : list run; su_images : list image;
  su_chars : Z; su_off : nat; su_len : nat }.

(** insert_text_uc.rs:267-282: locate the block to type in. *)
Definition locate_insert (d : doc) (p : Z) : res (block * Z * Z) :=
  let! r := find_block_at_char_position (d_rs d) (length (d_blocks d)) p in
  match r with
  | Some (bid, off, start) =>
      let! b := ok_or (get_block d bid) in
      let! n := char_length d bid in
      Ok (b, Z.of_nat start, clamp 0 n (Z.of_nat off))
  | None =>
      let! (b, start) := find_sequential d (collect_block_ids d) 0 p in
      let! n := char_length d (b_id b) in
      Ok (b, start, clamp 0 n (p - start))
  end.

(** insert_text_uc.rs:250-434 [execute_insert_simple]. *)
Definition insert_text_simple (d : doc) (p : Z) (text : str) : res (doc * Z * simple_undo) :=
  let! (b, start, off) := locate_insert d p in
  let i := b_id b in
  let runs0 := d_runs d i in
  let images0 := d_images d i in
  let! bt := block_content (d_rs d) i in
  let o := logical_offset_to_byte bt images0 (Z.to_nat off) in
  let! _ := byte_slice bt 0 o in
  let d1 := update_block d b in
  let! d2 := insert_bytes d1 i o text in
  let n := Z.of_nat (length text) in
  let d3 :=
    if negb (positions_match_flow (d_rs d2) (length (d_blocks d2))) then
      update_multi d2
        (map (fun x => set_b_pos x (b_pos x + n)%Z)
             (filter (fun x => negb (N.eqb (b_id x) i) && (b_pos b <? b_pos x)%Z)
                     (get_multi d2 (d_fblocks d2))))
    else d2 in
  Ok (set_chars d3 (d_chars d + n)%Z, (start + off + n)%Z,
      mk_su i b runs0 images0 (d_chars d) o (blen text)).

(** insert_text_uc.rs:513-557, undo of a simple insert. *)
Definition undo_simple (d : doc) (u : simple_undo) : res doc :=
  let d := update_block d (su_block u) in
  let d := set_runs d (su_id u) (su_runs u) in
  let d := set_images d (su_id u) (su_images u) in
  let! rs := (if 0 <? su_len u
              then rope_delete_in_block (d_rs d) (su_id u) (su_off u) (su_off u + su_len u)
              else Ok (d_rs d)) in
  Ok (set_chars (set_rs d rs) (su_chars u)).

(** insert_text_uc.rs:72-126 [delete_range_in_block]. *)
Definition delete_range_in_block (d : doc) (b : block) (so eo : Z) : res (doc * Z) :=
  if (eo <=? so)%Z then Ok (d, 0%Z)
  else
    let i := b_id b in
    let images0 := d_images d i in
    let! bt := block_content (d_rs d) i in
    let x := logical_offset_to_byte bt images0 (Z.to_nat so) in
    let y := logical_offset_to_byte bt images0 (Z.to_nat eo) in
    let! cut := byte_slice bt x y in
    let d := set_runs d i (shift_runs_for_delete (d_runs d i) x y) in
    let '(images', removed) := shift_images_for_delete (d_images d i) x y in
    let d := set_images d i images' in
    let! rs := rope_delete_in_block (d_rs d) i x y in
    let d := update_block (set_rs d rs) b in
    Ok (d, (Z.of_nat (length cut) + Z.of_nat removed)%Z).

(** insert_text_uc.rs:128-248 [execute_insert_with_selection]. *)
Definition insert_text_selection (d : doc) (p a : Z) (text : str) : res (doc * Z) :=
  let ids := collect_block_ids d in
  let bs := sort_blocks (get_multi d ids) in
  let s := Z.min p a in
  let e := Z.max p a in
  let! (sb, si, so) := find_block_at_position d bs s in
  let! (_, ei, eo) := find_block_at_position d bs e in
  if negb (si =? ei) then Err
  else
    let! (d1, removed) := delete_range_in_block d sb so eo in
    let d2 := set_chars d1 (d_chars d - removed)%Z in
    let d3 := update_multi d2 (map (fun x => set_b_pos x (b_pos x - removed)%Z) (skipn (S si) bs)) in
    let bs' := sort_blocks (get_multi d3 ids) in
    let! (b, k, off) := find_block_at_position d3 bs' s in
    let i := b_id b in
    let! bt := block_content (d_rs d3) i in
    let o := logical_offset_to_byte bt (d_images d3 i) (Z.to_nat off) in
    let! _ := byte_slice bt 0 o in
    let d4 := update_block d3 b in
    let! d5 := insert_bytes d4 i o text in
    let n := Z.of_nat (length text) in
    let d6 := update_multi d5 (map (fun x => set_b_pos x (b_pos x + n)%Z) (skipn (S k) bs')) in
    Ok (set_chars d6 (d_chars d3 + n)%Z, (b_pos b + off + n)%Z).

(** Undo by snapshot: rope_store.rs:101-115 [restore_without_counters]. *)
Definition restore_snapshot (d snap : doc) : doc := set_next snap (d_next d).

(** delete_text_uc.rs:188-206, refresh the stored positions from
    [child_order]: returns the block list and the refreshed blocks. *)
Fixpoint refresh_positions (d : doc) (order : list id) (running : Z) (bs : list block)
  : res (list block * list block) :=
  match order with
  | [] => Ok (bs, [])
  | i :: rest =>
      match find_block bs i with
      | None => refresh_positions d rest running bs
      | Some b =>
          let! n := char_length d i in
          if (b_pos b =? running)%Z then refresh_positions d rest (running + n + 1)%Z bs
          else
            let b' := set_b_pos b running in
            let bs' := map (fun x => if N.eqb (b_id x) i then b' else x) bs in
            let! (bs'', todo) := refresh_positions d rest (running + n + 1)%Z bs' in
            Ok (bs'', b' :: todo)
      end
  end.

(** delete_text_uc.rs:669-697, right part of the merged runs. *)
Fixpoint rebase_runs (runs : list run) (o eo : nat) : list run :=
  match runs with
  | [] => []
  | r :: rest =>
      if eo <=? rstart r
      then mk_run (rstart r - eo + o) (rend r - eo + o) (rfmt r) :: rebase_runs rest o eo
      else if eo <? rend r
      then mk_run o (rend r - eo + o) (rfmt r) :: rebase_runs rest o eo
      else rebase_runs rest o eo
  end.
(** delete_text_uc.rs:666-697. *)
Definition merge_runs (l r : list run) (so eo : nat) : list run :=
  coalesce (splice_left l so ++ rebase_runs r so eo).
(** delete_text_uc.rs:700-712. *)
Definition merge_images (l r : list image) (so eo : nat) : list image :=
  filter (fun i => ioff i <? so) l ++
  map (fun i => set_ioff i (ioff i - eo + so)) (filter (fun i => eo <=? ioff i) r).

Fixpoint contents (rs : rstore) (bs : list block) : res (list str) :=
  match bs with
  | [] => Ok []
  | b :: rest => let! t := block_content rs (b_id b) in
                 let! ts := contents rs rest in Ok (t :: ts)
  end.

(** delete_text_uc.rs:745-763: drop the merged blocks one by one. *)
Fixpoint remove_merged (d : doc) (is_ : list id) : res doc :=
  match is_ with
  | [] => Ok d
  | i :: rest =>
      let d := set_images (set_runs d i []) i [] in
      let! rs := rope_remove_block (d_rs d) i in
      remove_merged (remove_block (set_rs d rs) i) rest
  end.

Definition sum_lengths (ts : list str) : Z :=
  fold_right (fun t acc => (Z.of_nat (length t) + acc)%Z) 0%Z ts.

(** delete_text_uc.rs:120-832 [execute_delete] without tables: the cross-cell
    branch (lines 232-588) needs table cells and is never taken. *)
Definition delete_text (d : doc) (p a : Z) : res (doc * Z * str) :=
  if (p =? a)%Z then Ok (d, p, [])
  else
    let s := Z.min p a in
    let e := Z.max p a in
    let bs0 := get_multi d (collect_block_ids d) in
    let! (bs1, todo) := refresh_positions d (d_order d) 0 bs0 in
    let d1 := update_multi d todo in
    let bs := sort_blocks bs1 in
    let! (sb, si, so) := find_block_at_position d1 bs s in
    let! (eb, ei, eo) := find_block_at_position d1 bs e in
    let sid := b_id sb in
    let eid := b_id eb in
    let dl := (e - s)%Z in
    if si =? ei then
      let! bt := block_content (d_rs d1) sid in
      let x := logical_offset_to_byte bt (d_images d1 sid) (Z.to_nat so) in
      let y := logical_offset_to_byte bt (d_images d1 sid) (Z.to_nat eo) in
      let! cut := byte_slice bt x y in
      let d2 := set_runs d1 sid (shift_runs_for_delete (d_runs d1 sid) x y) in
      let d3 := set_images d2 sid (fst (shift_images_for_delete (d_images d2 sid) x y)) in
      let! rs := rope_delete_in_block (d_rs d3) sid x y in
      let d4 := update_block (set_rs d3 rs) sb in
      let d5 :=
        if negb (positions_match_flow (d_rs d4) (length (d_blocks d4)))
        then update_multi d4 (map (fun b => set_b_pos b (b_pos b - dl)%Z) (skipn (S si) bs))
        else d4 in
      Ok (set_chars d5 (d_chars d - dl)%Z, s, cut)
    else
      let! st := block_content (d_rs d1) sid in
      let! et := block_content (d_rs d1) eid in
      let! mid := contents (d_rs d1) (firstn (ei - S si) (skipn (S si) bs)) in
      let x := logical_offset_to_byte st (d_images d1 sid) (Z.to_nat so) in
      let y := logical_offset_to_byte et (d_images d1 eid) (Z.to_nat eo) in
      let! tail := byte_slice st x (blen st) in
      let! head := byte_slice et 0 y in
      let cut := tail ++ flat_map (fun t => NL :: t) mid ++ NL :: head in
      let runs := merge_runs (d_runs d1 sid) (d_runs d1 eid) x y in
      let images := merge_images (d_images d1 sid) (d_images d1 eid) x y in
      let d2 := update_block d1 sb in
      let d3 := set_images (set_runs d2 sid runs) sid images in
      let! rs := rope_merge_block_range (d_rs d3) sid x eid y in
      let gone := map b_id (firstn (S ei - S si) (skipn (S si) bs)) in
      let! d4 := remove_merged (set_rs d3 rs) gone in
      let d5 := set_order d4 (filter (fun i => negb (existsb (N.eqb i) gone)) (d_order d4)) in
      let removed := (Z.of_nat (length st) - so + sum_lengths mid + eo)%Z in
      let d6 :=
        if negb (positions_match_flow (d_rs d5) (length (d_blocks d5)))
        then update_multi d5 (map (fun b => set_b_pos b (b_pos b - dl)%Z) (skipn (S ei) bs))
        else d5 in
      Ok (set_nblocks (set_chars d6 (d_chars d - removed)%Z)
                      (d_nblocks d - Z.of_nat (length gone))%Z,
          s, cut).

Fixpoint pos_of_id (i : id) (l : list id) : option nat :=
  match l with
  | [] => None
  | x :: rest => if N.eqb x i then Some 0 else option_map S (pos_of_id i rest)
  end.

(** insert_block_uc.rs:51-266 [execute_insert_block]; [find_owner_frame] is the
    only frame. *)
Definition insert_block (d : doc) (p : Z) : res (doc * Z * id) :=
  let bs := get_multi d (collect_block_ids d) in
  let! (cur, k, off) := find_block_at_position d bs p in
  let i := b_id cur in
  let runs := d_runs d i in
  let images := d_images d i in
  let! bt := block_content (d_rs d) i in
  let o := logical_offset_to_byte bt images (Z.to_nat off) in
  let! before := byte_slice bt 0 o in
  let! _ := byte_slice bt o (blen bt) in
  let limgs := split_images_left images o in
  let d1 := update_block d cur in
  let d2 := set_images (set_runs d1 i (split_runs_left runs o)) i limgs in
  let npos := (b_pos cur + Z.of_nat (length before) + Z.of_nat (length limgs) + 1)%Z in
  let '(d3, ni) := create_block d2 npos (b_list cur) (b_fmt cur) in
  let d4 := set_images (set_runs d3 ni (split_runs_right runs o)) ni (split_images_right images o) in
  let! rs := rope_split_block (d_rs d4) i o ni in
  let d5 := set_rs d4 rs in
  let at_ := match pos_of_id i (d_order d5) with Some q => S q | None => length (d_order d5) end in
  let d6 := set_order d5 (firstn at_ (d_order d5) ++ ni :: skipn at_ (d_order d5)) in
  let d7 := update_multi d6 (map (fun b => set_b_pos b (b_pos b + 1)%Z) (skipn (S k) bs)) in
  Ok (set_nblocks d7 (d_nblocks d + 1)%Z, npos, ni).

(** One entry of the inverse data, set_text_format_uc.rs:33-41. *)
Record fmt_inverse := mk_inv {
  iv_id : id; iv_a : nat; iv_b : nat; iv_runs : list run; iv_images : list (nat * cfmt) }.

(** set_text_format_uc.rs:210-284: the loop over the blocks. *)
Fixpoint format_blocks (m : cfmt -> cfmt) (rs re : Z) (bs : list block) (d : doc)
  : res (doc * list fmt_inverse) :=
  match bs with
  | [] => Ok (d, [])
  | b :: rest =>
      let i := b_id b in
      let! n := char_length d i in
      if ((b_pos b + n <=? rs) || (re <=? b_pos b))%Z then format_blocks m rs re rest d
      else
        let ls := Z.to_nat (Z.max 0 (rs - b_pos b)) in
        let le := Z.to_nat (Z.min n (re - b_pos b)) in
        let! (x, _) := block_char_to_byte_in_block (d_rs d) i ls in
        let! (y, _) := block_char_to_byte_in_block (d_rs d) i le in
        if y <=? x then format_blocks m rs re rest d
        else
          let inv := mk_inv i x y (capture_runs (d_runs d i) x y)
                            (capture_image_formats (d_images d i) x y) in
          let d1 := set_runs d i (format_block_runs m (d_runs d i) x y) in
          let d2 := set_images d1 i (format_block_images m (d_images d1 i) x y) in
          let! (d3, invs) := format_blocks m rs re rest d2 in
          Ok (d3, inv :: invs)
  end.

(** set_text_format_uc.rs:176-286 [execute_set_text_format] and
    merge_text_format_uc.rs:105-208 [execute_merge_text_format], which differ
    only in the merge function [m]. *)
Definition format_text (m : cfmt -> cfmt) (d : doc) (p a : Z) : res (doc * list fmt_inverse) :=
  let bs := sort_blocks (get_multi d (d_fblocks d)) in
  let s := Z.min p a in
  let e := Z.max p a in
  if (s =? e)%Z then Ok (d, []) else format_blocks m s e bs d.
Definition set_text_format (q : fmt_req) := format_text (fun f => set_merge f q).
Definition merge_text_format (q : fmt_req) := format_text (fun f => merge_merge f q).

(** set_text_format_uc.rs:291-318 [apply_inverse]. *)
Definition apply_inverse1 (d : doc) (iv : fmt_inverse) : doc :=
  let i := iv_id iv in
  let d1 := set_runs d i (splice_range (d_runs d i) (iv_a iv) (iv_b iv) (iv_runs iv)) in
  set_images d1 i (restore_image_formats (d_images d1 i) (iv_images iv)).
Definition apply_inverse (d : doc) (ivs : list fmt_inverse) : doc := fold_left apply_inverse1 ivs d.

(** dtos.rs:59-82 [SetBlockFormatDto] without the range. *)
Record bfmt_req := mk_breq {
  q_alignment : option N;
  q_heading_level : option Z;
  q_indent : option Z;
  q_marker : option N;
  q_line_height : option Z;
  q_non_breakable_lines : option bool;
  q_direction : option N;
  q_background_color : option str;
  q_is_code_block : option bool;
  q_code_language : option str;
  q_top_margin : option Z;
  q_bottom_margin : option Z;
  q_left_margin : option Z;
  q_right_margin : option Z;
  q_text_indent : option Z
}.

(** set_block_format_uc.rs:101-147. *)
Definition apply_bfmt (q : bfmt_req) (f : bfmt) : bfmt :=
  mk_bfmt (over (q_alignment q) (f_alignment f))
          (over (q_top_margin q) (f_top_margin f))
          (over (q_bottom_margin q) (f_bottom_margin f))
          (over (q_left_margin q) (f_left_margin f))
          (over (q_right_margin q) (f_right_margin f))
          (over (option_map (clamp 0 6) (q_heading_level q)) (f_heading_level f))
          (over (q_indent q) (f_indent f))
          (over (q_text_indent q) (f_text_indent f))
          (over (q_marker q) (f_marker f))
          (f_tab_positions f)
          (over (q_line_height q) (f_line_height f))
          (over (q_non_breakable_lines q) (f_non_breakable_lines f))
          (over (q_direction q) (f_direction f))
          (over (q_background_color q) (f_background_color f))
          (over (q_is_code_block q) (f_is_code_block f))
          (over (q_code_language q) (f_code_language f)).

(** set_block_format_uc.rs:86-100: which blocks the range touches. *)
Definition overlaps (start len rs re : Z) : bool :=
  if (0 <? len)%Z then ((start <=? re) && (rs <? start + len))%Z
  else ((rs <=? start) && (start <=? re))%Z.
Fixpoint blocks_in_range (d : doc) (rs re : Z) (bs : list block) : res (list block) :=
  match bs with
  | [] => Ok []
  | b :: rest =>
      let! n := char_length d (b_id b) in
      let! l := blocks_in_range d rs re rest in
      Ok (if overlaps (b_pos b) n rs re then b :: l else l)
  end.
(** set_block_format_uc.rs:48-158 [execute_set_block_format]. *)
Definition set_block_format (q : bfmt_req) (d : doc) (p a : Z) : res doc :=
  let bs := sort_blocks (get_multi d (d_fblocks d)) in
  let! l := blocks_in_range d (Z.min p a) (Z.max p a) bs in
  Ok (update_multi d (map (fun b => set_b_fmt b (apply_bfmt q (b_fmt b))) l)).

(** [str::replace("\r\n", "\n")] then [replace('\r', "\n")]:
    import_plain_text_uc.rs:66. *)
Fixpoint replace_crlf (s : str) : str :=
  match s with
  | [] => []
  | c :: rest =>
      match rest with
      | c' :: rest' => if (N.eqb c CR && N.eqb c' NL)%bool then NL :: replace_crlf rest'
                       else c :: replace_crlf rest
      | [] => [c]
      end
  end.
Definition replace_cr (s : str) : str := map (fun c => if N.eqb c CR then NL else c) s.
Definition normalize (s : str) : str := replace_cr (replace_crlf s).

(** [str::split('\n')]. *)
Fixpoint split_lines (s : str) : list str :=
  match s with
  | [] => [[]]
  | c :: rest =>
      if N.eqb c NL then [] :: split_lines rest
      else match split_lines rest with
           | l :: ls => (c :: l) :: ls
           | [] => [[c]]
           end
  end.

(** import_plain_text_uc.rs:73-101: the loop over the lines; [first] is
    [i == 0], [pos] is [document_position]. *)
Fixpoint import_lines (d : doc) (first : bool) (pos : Z) (ls : list str) : doc * list id :=
  match ls with
  | [] => (d, [])
  | l :: rest =>
      let '(d1, i) := create_block d pos None bfmt_default in
      let rs := if first then d_rs d1 else rope_insert_block_boundary (d_rs d1) in
      let d2 := set_rs d1 (rope_append_block rs i l) in
      let n := Z.of_nat (length l) in
      let '(d3, is_) :=
        import_lines d2 false (pos + n + match rest with [] => 0 | _ => 1 end)%Z rest in
      (d3, i :: is_)
  end.

(** import_plain_text_uc.rs:60-63: [remove_frame] cascades to the blocks of the
    frame (frame_repository.rs [remove]); then a fresh frame and [rope_reset]. *)
Definition clear_document (d : doc) : doc :=
  let gone := d_fblocks d in
  let mem i := existsb (N.eqb i) gone in
  mk_doc rope_reset
         (filter (fun b => negb (mem (b_id b))) (d_blocks d))
         (fun i => if mem i then [] else d_runs d i)
         (fun i => if mem i then [] else d_images d i)
         [] [] (d_chars d) (d_nblocks d) (d_next d).

(** import_plain_text_uc.rs:35-117 [execute]. *)
Definition import_plain_text (d : doc) (s : str) : doc :=
  let ls := split_lines (normalize s) in
  let '(d1, is_) := import_lines (clear_document d) true 0 ls in
  let d2 := set_order d1 is_ in
  set_nblocks (set_chars d2 (sum_lengths ls)) (Z.of_nat (length ls)).

(** inner.rs:320-372 [initialize]: a new document has one empty block. *)
Definition new_document : doc :=
  let d := mk_doc rope_reset [] (fun _ => []) (fun _ => []) [] [] 0 0 1%N in
  let '(d1, i) := create_block d 0 None bfmt_default in
  set_order (set_rs d1 (rope_append_empty_block (d_rs d1) i)) [i].

Definition join_lines (ts : list str) : str :=
  match ts with [] => [] | t :: rest => t ++ flat_map (fun u => NL :: u) rest end.

(** export_plain_text_uc.rs:31-96 [execute]. *)
Definition export_plain_text (d : doc) : res str :=
  match rope_flat_text_if_simple (d_rs d) 1 with
  | Some s => Ok s
  | None =>
      let! ts := contents (d_rs d) (sort_blocks (get_multi d (d_fblocks d))) in
      Ok (join_lines ts)
  end.

(** get_block_at_position_uc.rs:40-99, rope path: (id, start, length, number).
    The slow path is lines 114-171. *)
Fixpoint block_at_slow (d : doc) (is_ : list id) (k : nat) (running p : Z) : res (id * Z * Z * Z) :=
  match is_ with
  | [] => Err
  | i :: rest =>
      let! b := ok_or (get_block d i) in
      let! n := char_length d i in
      let here := (b_id b, running, n, Z.of_nat k) in
      if (p <? running)%Z then Ok here
      else if ((p <? running + n) || ((n =? 0) && (p =? running)))%Z then Ok here
      else match rest with
           | [] => Ok here
           | _ => block_at_slow d rest (S k) (running + n + 1)%Z p
           end
  end.
Definition block_at_position (d : doc) (p : Z) : res (id * Z * Z * Z) :=
  let! r := find_block_at_char_position (d_rs d) (length (d_blocks d)) p in
  match r with
  | Some (bid, off, start) =>
      let! _ := ok_or (get_block d bid) in
      let! n := char_length d bid in
      let ix := index (d_rs d) in
      let next :=
        if ((0 <? n) && (Z.of_nat off =? n))%Z then
          match midx ix (MBlock bid) with
          | Some c => match nth_error (entries ix) (S c) with
                      | Some (MBlock nb, bs) => Some (nb, bs)
                      | _ => None end
          | None => None end
        else None in
      let! (bid', start', n') :=
        match next with
        | Some (nb, bs) =>
            let! st := byte_to_char (rope (d_rs d)) bs in
            let! _ := ok_or (get_block d nb) in
            let! n' := char_length d nb in
            Ok (nb, Z.of_nat st, n')
        | None => Ok (bid, Z.of_nat start, n)
        end in
      let num := match midx ix (MBlock bid') with Some c => c | None => 0 end in
      Ok (bid', start', n', Z.of_nat num)
  | None => block_at_slow d (collect_block_ids d) 0 0 p
  end.

(** insert_formatted_text_uc.rs:73-92 [dto_to_character_format]. *)
Record ins_fmt := mk_insfmt {
  x_family : str; x_size : Z; x_bold : bool; x_italic : bool; x_underline : bool; x_strikeout : bool }.
Definition ins_to_cfmt (x : ins_fmt) : cfmt :=
  mk_cfmt (Some (x_family x)) (Some (x_size x)) None (Some (x_bold x)) (Some (x_italic x))
          (Some (x_underline x)) None (Some (x_strikeout x)) None None None [] None None None None.

(** cursor.rs:460-470 [make_dto] of [insert_formatted_text]: six attributes of the
    requested [TextFormat], unset ones replaced by the empty family, size 0 and
    false. Simplified: a [TextFormat] is the request of [set_char_format], so its
    anchor, tooltip and colour fields, which this code does not read, are left out. *)
Definition req_to_ins (q : fmt_req) : ins_fmt :=
  let or {A} (v : option A) (z : A) := match v with Some x => x | None => z end in
  mk_insfmt (or (q_font_family q) []) (or (q_font_point_size q) 0%Z) (or (q_font_bold q) false)
            (or (q_font_italic q) false) (or (q_font_underline q) false) (or (q_font_strikeout q) false).

(** insert_formatted_text_uc.rs:147-204 [insert_formatted_at]. *)
Definition insert_formatted_at (d : doc) (b : block) (off : Z) (text : str) (f : cfmt)
  : res (doc * nat) :=
  let i := b_id b in
  let! bt := block_content (d_rs d) i in
  let o := logical_offset_to_byte bt (d_images d i) (Z.to_nat off) in
  let! _ := byte_slice bt 0 o in
  let d1 := update_block d b in
  let n := blen text in
  let runs := splice_range (shift_runs_for_insert (d_runs d1 i) o n) o (o + n) [mk_run o (o + n) f] in
  let d2 := set_runs d1 i runs in
  let d3 := set_images d2 i (shift_images_for_insert (d_images d2 i) o n) in
  let! rs := rope_insert_in_block (d_rs d3) i o text in
  Ok (set_rs d3 rs, o).

(** insert_formatted_text_uc.rs:297-380 [execute_insert_simple]. *)
Definition insert_formatted_simple (d : doc) (p : Z) (text : str) (f : cfmt)
  : res (doc * Z * simple_undo) :=
  let! (b, start) := find_sequential d (collect_block_ids d) 0 p in
  let i := b_id b in
  let! n := char_length d i in
  let off := clamp 0 n (p - start) in
  let! (d1, o) := insert_formatted_at d b off text f in
  let len := Z.of_nat (length text) in
  Ok (set_chars d1 (d_chars d + len)%Z, (p + len)%Z,
      mk_su i b (d_runs d i) (d_images d i) (d_chars d) o (blen text)).

(** Index and start of the block at a position, insert_formatted_text_uc.rs:382-415. *)
Fixpoint find_sequential_idx (d : doc) (is_ : list id) (k : nat) (running p : Z) : res (block * nat * Z) :=
  match is_ with
  | [] => Err
  | i :: rest =>
      let! b := ok_or (get_block d i) in
      let! n := char_length d i in
      if ((running <=? p) && (p <=? running + n))%Z then Ok (b, k, running)
      else match rest with
           | [] => Ok (b, k, running)
           | _ => find_sequential_idx d rest (S k) (running + n + 1)%Z p
           end
  end.
(** insert_formatted_text_uc.rs:206-295 [execute_with_selection]. *)
Definition insert_formatted_selection (d : doc) (p a : Z) (text : str) (f : cfmt) : res (doc * Z) :=
  let ids := collect_block_ids d in
  let s := Z.min p a in
  let e := Z.max p a in
  let! (sb, si, start) := find_sequential_idx d ids 0 0 s in
  let! (_, ei, _) := find_sequential_idx d ids 0 0 e in
  if negb (si =? ei) then Err
  else
    let! (d1, removed) := delete_range_in_block d sb (s - start) (e - start) in
    let d2 := set_chars d1 (d_chars d - removed)%Z in
    let! b := ok_or (get_block d2 (b_id sb)) in
    let! (d3, _) := insert_formatted_at d2 b (s - start) text f in
    let n := Z.of_nat (length text) in
    Ok (set_chars d3 (d_chars d3 + n)%Z, (s + n)%Z).
