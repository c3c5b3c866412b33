(** Inserting an image.

    Sources: crates/document_editing/src/use_cases/insert_image_uc.rs,
    crates/document_editing/src/use_cases/editing_helpers.rs (207-237),
    crates/public_api/src/cursor.rs (687-737). *)
From Verif Require Import Base FormatRunsModel RopeModel DocModel HistModel QueryModel.

(** editing_helpers.rs:217-221: characters of a segment. *)
Definition seg_chars (s : segment) : Z := match s with SegText t _ => Z.of_nat (length t) | SegImage _ => 1%Z end.

(** editing_helpers.rs:211-237 [find_segment_at_offset] from segment number
    [k], which starts at [running]: the segment, its number, the offset in it.
    After the loop the last segment is taken at its end. *)
Fixpoint find_segment (segs : list segment) (k : nat) (running off : Z) : option (segment * nat * Z) :=
  match segs with
  | [] => None
  | s :: rest =>
      if (off <=? running + seg_chars s)%Z then Some (s, k, (off - running)%Z)
      else match rest with
           | [] => Some (s, k, seg_chars s)
           | _ => find_segment rest (S k) (running + seg_chars s)%Z off
           end
  end.

(** insert_image_uc.rs:104-106: bytes of text in a segment. *)
Definition seg_bytes (s : segment) : nat := match s with SegText t _ => blen t | SegImage _ => 0 end.

(** insert_image_uc.rs:97-120: where the image is anchored. [seg_offset as
    usize] of a negative number is beyond every text. *)
Definition anchor_byte (segs : list segment) (off : Z) : nat :=
  match find_segment segs 0 0 off with
  | None => 0
  | Some (s, k, so) =>
      let bo := fold_right (fun x n => seg_bytes x + n) 0 (firstn k segs) in
      match s with
      | SegText t _ => bo + (if (so <? 0)%Z then blen t else blen (firstn (Z.to_nat so) t))
      | SegImage _ => bo
      end
  end.

(** insert_image_uc.rs:127-146: before the first anchor further on. *)
Fixpoint add_image (l : list image) (i : image) : list image :=
  match l with
  | [] => [i]
  | x :: rest => if ioff i <? ioff x then i :: l else x :: add_image rest i
  end.

(** insert_image_uc.rs:44-196 [execute_insert_image]: the document, the new
    position, the element id. Times are left out; the runs of the block and
    the other images are not moved. *)
Definition insert_image (d : doc) (p a : Z) (name : str) (w h : Z) : res (doc * Z * N) :=
  if negb (p =? a)%Z then Err
  else if ((w <=? 0) || (h <=? 0))%Z then Err
  else
    let bs := sort_blocks (get_multi d (d_fblocks d)) in
    let! (b, k, off) := find_block_at_position d bs p in
    let i := b_id b in
    let! segs := block_segments d i in
    let o := anchor_byte segs off in
    let d1 := set_images d i (add_image (d_images d i) (mk_image o name w h 100 cfmt_default)) in
    let! rs := rope_insert_in_block (d_rs d1) i o [FFFC] in
    let d2 := update_block (set_rs d1 rs) b in
    let d3 := update_multi d2 (map (fun x => set_b_pos x (b_pos x + 1)%Z) (skipn (S k) bs)) in
    Ok (set_chars d3 (d_chars d3 + 1)%Z, (p + 1)%Z, synth_element_id i o).

(** insert_image_uc.rs:220-247: [undo] restores the snapshot taken before the
    change ([restore_snapshot]), [redo] executes the request again. *)

(** cursor.rs:687-737 [TextCursor::insert_image] without the undo group and
    the events: a selection is deleted first. [None] is an error returned to
    the caller, whatever has been changed by then. *)
Definition cursor_insert_image (d : doc) (p a : nat) (name : str) (w h : nat) : res (doc * option nat) :=
  let insert (d : doc) (q : nat) :=
    match insert_image d (Z.of_nat q) (Z.of_nat q) name (Z.of_nat w) (Z.of_nat h) with
    | Panic => Panic
    | Err => Ok (d, None)
    | Ok (d', np, _) => let! r := to_usize np in Ok (d', Some r)
    end in
  if p =? a then insert d p
  else
    match delete_text d (Z.of_nat p) (Z.of_nat a) with
    | Panic => Panic
    | Err => Ok (d, None)
    | Ok (d1, np, _) => let! q := to_usize np in insert d1 q
    end.
