(** Read-only queries: statistics, text at a position, fragments, block handles.

    Sources: crates/document_inspection/src/use_cases/*.rs,
    crates/common/src/format_runs.rs, crates/public_api/src/{cursor,document,text_block,inner}.rs. *)
From Verif Require Import Base FormatRunsModel RopeModel DocModel HistModel.

(** [char::is_whitespace]: the Unicode [White_Space] property. *)
Definition is_whitespace (c : char) : bool :=
  (((9 <=? c) && (c <=? 13)) || (c =? 32) || (c =? 133) || (c =? 160) || (c =? 5760)
   || ((8192 <=? c) && (c <=? 8202)) || (c =? 8232) || (c =? 8233) || (c =? 8239)
   || (c =? 8287) || (c =? 12288))%N.

(** [str::split_whitespace]: the maximal runs of other characters. *)
Fixpoint words_go (s : str) (cur : str) : list str :=
  match s with
  | [] => match cur with [] => [] | _ => [rev cur] end
  | c :: s' =>
      if is_whitespace c
      then match cur with [] => words_go s' [] | _ => rev cur :: words_go s' [] end
      else words_go s' (c :: cur)
  end.
Definition split_whitespace (s : str) : list str := words_go s [].

(** get_document_stats_uc.rs:76-104: words over all blocks. *)
Definition word_count (d : doc) : res Z :=
  let! ts := contents (d_rs d) (get_multi d (d_fblocks d)) in
  Ok (fold_right (fun t n => (Z.of_nat (length (split_whitespace t)) + n)%Z) 0%Z ts).

(** document.rs:356-369 [character_count], [block_count] (the cached numbers,
    through [to_usize]). *)
Definition character_count (d : doc) : res nat := to_usize (d_chars d).
Definition block_count (d : doc) : res nat := to_usize (d_nblocks d).

(** cursor.rs:32-40 [max_cursor_position]. *)
Definition max_cursor_position (d : doc) : res nat :=
  let! chars := to_usize (d_chars d) in
  let! blocks := to_usize (d_nblocks d) in
  Ok (if 1 <? blocks then chars + blocks - 1 else chars).

(** Segment of a block, format_runs.rs:21-66; the format fields are kept as one
    value. The [Empty] content is never built. *)
Inductive segment := SegText (t : str) (f : cfmt) | SegImage (i : image).

(** format_runs.rs:560-575 [emit_text]. *)
Definition emit_text (plain : str) (a b : nat) (f : cfmt) (out : list segment) : res (list segment) :=
  if b <=? a then Ok out
  else let! s := byte_slice plain a b in Ok (out ++ [SegText s f]).

(** format_runs.rs:592-607: images strictly before a run. *)
Fixpoint seg_images_before (plain : str) (start : nat) (imgs : list image) (cur : nat) (out : list segment)
  : res (list image * nat * list segment) :=
  match imgs with
  | i :: rest =>
      if ioff i <? start then
        let! out := emit_text plain cur (ioff i) cfmt_default out in
        seg_images_before plain start rest (ioff i) (out ++ [SegImage i])
      else Ok (imgs, cur, out)
  | [] => Ok ([], cur, out)
  end.
(** format_runs.rs:591-627: the loop over the runs. *)
Fixpoint seg_runs (plain : str) (runs : list run) (imgs : list image) (cur : nat) (out : list segment)
  : res (list image * nat * list segment) :=
  match runs with
  | [] => Ok (imgs, cur, out)
  | r :: rest =>
      let! (imgs, cur, out) := seg_images_before plain (rstart r) imgs cur out in
      let! out := emit_text plain cur (rstart r) cfmt_default out in
      let! out := emit_text plain (rstart r) (rend r) (rfmt r) out in
      seg_runs plain rest imgs (rend r) out
  end.
(** format_runs.rs:629-642: the remaining images. *)
Fixpoint seg_tail (plain : str) (imgs : list image) (cur : nat) (out : list segment) : res (nat * list segment) :=
  match imgs with
  | [] => Ok (cur, out)
  | i :: rest =>
      let! (cur, out) :=
        (if cur <? ioff i then let! out := emit_text plain cur (ioff i) cfmt_default out in Ok (ioff i, out)
         else Ok (cur, out)) in
      seg_tail plain rest cur (out ++ [SegImage i])
  end.
(** format_runs.rs:549-655 [inline_segments_view]. *)
Definition inline_segments_view (plain : str) (runs : list run) (imgs : list image) : res (list segment) :=
  let! (imgs, cur, out) := seg_runs plain runs imgs 0 [] in
  let! (cur, out) := seg_tail plain imgs cur out in
  emit_text plain cur (blen plain) cfmt_default out.

(** get_text_at_position_uc.rs:158-163. *)
Definition segment_text (s : segment) : str := match s with SegText t _ => t | SegImage _ => [FFFC] end.

(** get_text_at_position_uc.rs:152-194: one block; returns what was taken and
    how much is still wanted. The element id of the answer is left out. *)
Fixpoint take_segments (segs : list segment) (co off remaining : nat) : str * nat :=
  match segs with
  | [] => ([], remaining)
  | s :: rest =>
      if remaining =? 0 then ([], 0)
      else
        let t := segment_text s in
        let n := length t in
        if off <? co + n then
          let k := off - co in
          let take := Nat.min (n - k) remaining in
          let '(more, rem) := take_segments rest (co + n) off (remaining - take) in
          (firstn take (skipn k t) ++ more, rem)
        else take_segments rest (co + n) off remaining
  end.

Definition block_segments (d : doc) (i : id) : res (list segment) :=
  let! t := block_content (d_rs d) i in inline_segments_view t (d_runs d i) (d_images d i).

(** get_text_at_position_uc.rs:116-195: the blocks after the first one. *)
Fixpoint text_rest (d : doc) (is_ : list id) (remaining : nat) : res str :=
  match is_ with
  | [] => Ok []
  | i :: rest =>
      if remaining =? 0 then Ok []
      else if remaining =? 1 then Ok [NL]
      else
        let! segs := block_segments d i in
        let '(t, rem) := take_segments segs 0 0 (remaining - 1) in
        let! more := text_rest d rest rem in
        Ok (NL :: t ++ more)
  end.
(** get_text_at_position_uc.rs:84-108: positions on the fly, first block that
    contains the position. *)
Fixpoint text_find (d : doc) (is_ : list id) (running p : Z) (n : nat) : res (id * str) :=
  match is_ with
  | [] => Err
  | i :: rest =>
      let! len := char_length d i in
      if ((running <=? p) && (p <=? running + len))%Z then
        if n =? 0 then Ok (i, [])
        else
          let! segs := block_segments d i in
          let '(t, rem) := take_segments segs 0 (Z.to_nat (p - running)) n in
          let! more := text_rest d rest rem in
          Ok (i, t ++ more)
      else text_find d rest (running + len + 1)%Z p n
  end.
(** get_text_at_position_uc.rs:44-202 [execute]: block id and text. *)
Definition text_at_position (d : doc) (p len : Z) : res (id * str) :=
  if (len <? 0)%Z then Ok (0%N, [])
  else text_find d (map b_id (get_multi d (collect_block_ids d))) 0 p (Z.to_nat len).

(** ** Fragments of a paragraph, text_block.rs:484-729 *)

(** Fragment without its word starts; the format is the stored one, before the
    conversion to [TextFormat]. *)
Inductive fragment :=
| FText (t : str) (f : cfmt) (off len : nat) (eid : N)
| FImage (i : image) (off : nat) (eid : N).

(** format_runs.rs:311-314 [synth_element_id]. *)
Definition synth_element_id (block : id) (byte : nat) : N :=
  N.lor (N.lor (2 ^ 62) (N.shiftl (N.land block (2 ^ 30 - 1)) 32)) (N.of_nat byte).

(** Fragments so far, next character offset, byte cursor. *)
Record fstate := mk_fstate { fs_out : list fragment; fs_off : nat; fs_byte : nat }.

(** text_block.rs:535-600 [emit_default_text], [emit_run_text]. *)
Definition emit_frag (plain : str) (b : id) (x y : nat) (f : cfmt) (st : fstate) : res fstate :=
  if y <=? x then Ok st
  else
    let! t := byte_slice plain x y in
    Ok (mk_fstate (fs_out st ++ [FText t f (fs_off st) (length t) (synth_element_id b x)])
                  (fs_off st + length t) y).
Definition emit_img (b : id) (i : image) (st : fstate) : fstate :=
  mk_fstate (fs_out st ++ [FImage i (fs_off st) (synth_element_id b (ioff i))]) (S (fs_off st)) (fs_byte st).

(** text_block.rs:608-669: images before or inside a run. *)
Fixpoint frag_images (plain : str) (b : id) (r : run) (imgs : list image) (rc : nat) (st : fstate)
  : res (list image * nat * fstate) :=
  match imgs with
  | [] => Ok ([], rc, st)
  | i :: rest =>
      if ioff i <? rstart r then
        let! st := emit_frag plain b (fs_byte st) (ioff i) cfmt_default st in
        frag_images plain b r rest rc (emit_img b i st)
      else if ioff i <=? rend r then
        let! st := emit_frag plain b (fs_byte st) rc cfmt_default st in
        let! st := emit_frag plain b rc (ioff i) (rfmt r) st in
        let st := emit_img b i st in
        frag_images plain b r rest (ioff i) (mk_fstate (fs_out st) (fs_off st) (ioff i))
      else Ok (imgs, rc, st)
  end.
Fixpoint frag_runs (plain : str) (b : id) (runs : list run) (imgs : list image) (st : fstate)
  : res (list image * fstate) :=
  match runs with
  | [] => Ok (imgs, st)
  | r :: rest =>
      let! (imgs, rc, st) := frag_images plain b r imgs (rstart r) st in
      let! st := emit_frag plain b (fs_byte st) rc cfmt_default st in
      let! st := emit_frag plain b rc (rend r) (rfmt r) st in
      frag_runs plain b rest imgs st
  end.
(** text_block.rs:694-713. *)
Fixpoint frag_tail (plain : str) (b : id) (imgs : list image) (st : fstate) : res fstate :=
  match imgs with
  | [] => Ok st
  | i :: rest =>
      let! st := emit_frag plain b (fs_byte st) (ioff i) cfmt_default st in
      frag_tail plain b rest (emit_img b i st)
  end.
Definition build_raw_fragments (plain : str) (b : id) (runs : list run) (imgs : list image) : res (list fragment) :=
  let! (imgs, st) := frag_runs plain b runs imgs (mk_fstate [] 0 0) in
  let! st := frag_tail plain b imgs st in
  let! st := emit_frag plain b (fs_byte st) (blen plain) cfmt_default st in
  Ok (fs_out st).

(** text_block.rs:289-292 [fragments], no highlighter attached. *)
Definition block_fragments (d : doc) (i : id) : res (list fragment) :=
  match get_block d i with
  | None => Ok []
  | Some _ =>
      let! t := block_content (d_rs d) i in
      build_raw_fragments t i (d_runs d i) (d_images d i)
  end.

(** text_block.rs:256-282 [char_format_at]. *)
Fixpoint format_in (fs : list fragment) (off : nat) : option cfmt :=
  match fs with
  | [] => None
  | FText _ f o n _ :: rest => if (o <=? off) && (off <? o + n) then Some f else format_in rest off
  | FImage i o _ :: rest => if off =? o then Some (ifmt i) else format_in rest off
  end.
Definition char_format_at (d : doc) (i : id) (off : nat) : res (option cfmt) :=
  let! fs := block_fragments d i in Ok (format_in fs off).

(** ** Block handles, text_block.rs:49-150, inner.rs:435-464 *)

(** inner.rs:435-464 [refresh_block_position(s)]. *)
Definition refreshed (d : doc) (b : block) : res block :=
  if positions_match_flow (d_rs d) (length (d_blocks d)) then
    let! r := range_of (index (d_rs d)) (MBlock (b_id b)) in
    match r with
    | Some (s, _) => let! c := byte_to_char (rope (d_rs d)) s in Ok (set_b_pos b (Z.of_nat c))
    | None => Ok b
    end
  else Ok b.
Fixpoint refreshed_all (d : doc) (bs : list block) : res (list block) :=
  match bs with
  | [] => Ok []
  | b :: rest => let! b' := refreshed d b in let! bs' := refreshed_all d rest in Ok (b' :: bs')
  end.

(** text_block.rs:97-108 [position]. *)
Definition block_position (d : doc) (i : id) : res nat :=
  match get_block d i with
  | None => Ok 0
  | Some b => let! b' := refreshed d b in to_usize (b_pos b')
  end.
(** text_block.rs:34-60 [text], [length]. *)
Definition block_text (d : doc) (i : id) : res str :=
  match get_block d i with None => Ok [] | Some _ => block_content (d_rs d) i end.

(** All blocks by refreshed position (text_block.rs:122-127); the order in which
    [get_all_block] lists them is the table order here. *)
Definition blocks_sorted (d : doc) : res (list block) :=
  let! bs := refreshed_all d (d_blocks d) in Ok (sort_blocks bs).
(** text_block.rs:432-440 [compute_block_number]. *)
Definition block_number (d : doc) (i : id) : res nat :=
  let! bs := blocks_sorted d in
  Ok (match index_of_block i bs with Some k => k | None => 0 end).
(** text_block.rs:120-133 [next]. *)
Definition block_next (d : doc) (i : id) : res (option id) :=
  let! bs := blocks_sorted d in
  Ok (match index_of_block i bs with Some k => option_map b_id (nth_error bs (S k)) | None => None end).
(** text_block.rs:136-152 [previous]. *)
Definition block_previous (d : doc) (i : id) : res (option id) :=
  let! bs := blocks_sorted d in
  Ok (match index_of_block i bs with
      | Some (S k) => option_map b_id (nth_error bs k)
      | _ => None end).
