(** Copy and paste: reading a range as a fragment, and inserting a fragment.

    Sources: crates/document_inspection/src/use_cases/extract_fragment_uc.rs,
    crates/document_editing/src/use_cases/insert_fragment_uc.rs,
    crates/common/src/parser_tools/fragment_schema.rs,
    crates/public_api/src/{fragment,cursor}.rs. Flat documents, so fragments
    without tables: the table branches of both use cases are not modelled.
    Writing a fragment as JSON and reading it back is the identity. *)
From Verif Require Import Base FormatRunsModel RopeModel DocModel SearchModel HistModel QueryModel ListModel ListDocModel.

(** fragment_schema.rs:58-79 [FragmentBlock]; an element (82-101) is a
    [segment], the [fmt_*] fields are a [bfmt], [FragmentList] (104-109) is a
    [list_entity]. *)
Record fblock := mk_fblock {
  fb_text : str; fb_elems : list segment; fb_fmt : bfmt; fb_list : option list_entity
}.

(** [x.unwrap_or(0) == 0]. *)
Definition zero_or_none (x : option Z) : bool := match x with Some v => (v =? 0)%Z | None => true end.
Definition is_none {A} (x : option A) : bool := match x with Some _ => false | None => true end.
(** fragment_schema.rs:137-156 [is_inline_only]; the tab positions are not looked at. *)
Definition is_inline_only (fb : fblock) : bool :=
  let f := fb_fmt fb in
  is_none (f_heading_level f) && is_none (fb_list fb) && is_none (f_alignment f)
  && zero_or_none (f_indent f) && zero_or_none (f_text_indent f) && is_none (f_marker f)
  && is_none (f_top_margin f) && is_none (f_bottom_margin f) && is_none (f_left_margin f)
  && is_none (f_right_margin f) && is_none (f_line_height f) && is_none (f_non_breakable_lines f)
  && is_none (f_direction f) && is_none (f_background_color f) && is_none (f_is_code_block f)
  && is_none (f_code_language f).

(** public_api/src/fragment.rs:15-18 [DocumentFragment]: [None] is the empty
    string that [DocumentFragment::new] puts in [data]. *)
Record dfrag := mk_dfrag { df_data : option (list fblock); df_text : str }.
Definition empty_fragment : dfrag := mk_dfrag None [].

(** fragment.rs:33-86 [from_plain_text]. *)
Definition plain_fblock (line : str) : fblock :=
  mk_fblock line [SegText line cfmt_default] bfmt_default None.
Definition fragment_from_plain_text (s : str) : dfrag :=
  mk_dfrag (Some (map plain_fblock (split_lines s))) s.

(** extract_fragment_uc.rs:471-531 [extract_elements_in_range]; [cur] is
    [char_cursor]. The caller has [ls <= le], so the slice is in bounds. *)
Fixpoint extract_elements (es : list segment) (ls le cur : nat) : list segment * str :=
  match es with
  | [] => ([], [])
  | e :: rest =>
      let n := length (segment_text e) in
      let stop := cur + n in
      if stop <=? ls then extract_elements rest ls le stop
      else if le <=? cur then ([], [])
      else
        let ts := ls - cur in
        let te := if le <? stop then le - cur else n in
        let '(more, text) := extract_elements rest ls le stop in
        match e with
        | SegText t f =>
            match firstn (te - ts) (skipn ts t) with
            | [] => (more, text)
            | piece => (SegText piece f :: more, piece ++ text)
            end
        | SegImage _ => if (ts =? 0) && (te =? 1) then (e :: more, FFFC :: text) else (more, text)
        end
  end.

(** extract_fragment_uc.rs:281-341, the loop of the text path, on the blocks
    sorted by stored position; [last] is [blocks.last()]. *)
Fixpoint extract_blocks (L : ldoc) (last : option id) (s e : Z) (bs : list block) : res (list fblock) :=
  match bs with
  | [] => Ok []
  | b :: rest =>
      let! n := char_length (l_doc L) (b_id b) in
      if ((b_pos b + n <? s) || (e <=? b_pos b))%Z then extract_blocks L last s e rest
      else
        let ls := if (b_pos b <? s)%Z then Z.to_nat (s - b_pos b) else 0 in
        let le := if (e <? b_pos b + n)%Z then Z.to_nat (e - b_pos b) else Z.to_nat n in
        let! es := block_segments (l_doc L) (b_id b) in
        let '(out, text) := extract_elements es ls le 0 in
        let is_last := match last with Some x => N.eqb (b_id b) x | None => false end in
        let full := (ls =? 0) && (le =? Z.to_nat n) && ((b_pos b + n <? e)%Z || is_last) in
        let! more := extract_blocks L last s e rest in
        Ok (mk_fblock text out (if full then b_fmt b else bfmt_default)
              (if full then match b_list b with Some l => get_list L l | None => None end else None)
            :: more)
  end.

(** extract_fragment_uc.rs:45-359 [execute] without tables: the fragment and
    its plain text. *)
Definition extract_fragment (L : ldoc) (p a : Z) : res (list fblock * str) :=
  let s := Z.min p a in
  let e := Z.max p a in
  if (s =? e)%Z then Ok ([], [])
  else
    let bs := sort_blocks (get_multi (l_doc L) (collect_block_ids (l_doc L))) in
    let! fbs := extract_blocks L (option_map b_id (nth_error bs (length bs - 1))) s e bs in
    Ok (fbs, join_lines (map fb_text fbs)).

(** cursor.rs:637-684 [selection] on a document without tables. *)
Definition selection (L : ldoc) (p a : nat) : res dfrag :=
  if p =? a then Ok empty_fragment
  else
    match extract_fragment L (Z.of_nat p) (Z.of_nat a) with
    | Ok (fbs, t) => Ok (mk_dfrag (Some fbs) t)
    | Err => Ok empty_fragment
    | Panic => Panic
    end.
(** fragment.rs:101-114 [from_document]: the range up to [i64::MAX]. *)
Definition fragment_from_document (L : ldoc) : res dfrag :=
  let! (fbs, t) := extract_fragment L 0 (2 ^ 63 - 1) in Ok (mk_dfrag (Some fbs) t).

(** insert_fragment_uc.rs:72-128 [frag_block_state]. *)
Fixpoint state_go (es : list segment) (o : nat) : list run * list image :=
  match es with
  | [] => ([], [])
  | SegText t f :: rest =>
      let n := blen t in
      let '(rs, is_) := state_go rest (o + n) in
      ((if 0 <? n then mk_run o (o + n) f :: rs else rs), is_)
  | SegImage i :: rest =>
      let '(rs, is_) := state_go rest o in (rs, set_ioff i o :: is_)
  end.
Definition frag_block_state (fb : fblock) : list run * list image :=
  let '(rs, is_) := state_go (fb_elems fb) 0 in (coalesce rs, is_).

(** insert_fragment_uc.rs:130-155 [write_block_state]. *)
Definition write_block_state (d : doc) (i : id) (rs : list run) (is_ : list image) : doc :=
  set_images (set_runs d i rs) i is_.

Definition move_run (n : nat) (r : run) : run := mk_run (rstart r + n) (rend r + n) (rfmt r).
Definition move_image (n : nat) (i : image) : image := set_ioff i (ioff i + n).

(** [sort_by_key(|a| a.byte_offset)], stable. *)
Fixpoint insert_image_sorted (i : image) (l : list image) : list image :=
  match l with
  | [] => [i]
  | x :: rest => if ioff i <=? ioff x then i :: l else x :: insert_image_sorted i rest
  end.
Definition sort_images (l : list image) : list image := fold_right insert_image_sorted [] l.

(** insert_fragment_uc.rs:679-722 [build_head_state]. *)
Definition build_head_state (before : str) (lr : list run) (li : list image)
  (merge_first overwrite : bool) (fb : fblock) : str * list run * list image :=
  let '(fr, fi) := frag_block_state fb in
  if overwrite then (fb_text fb, fr, fi)
  else if merge_first then
    (before ++ fb_text fb, coalesce (lr ++ map (move_run (blen before)) fr),
     li ++ map (move_image (blen before)) fi)
  else (before, lr, li).

(** insert_fragment_uc.rs:727-763 [build_tail_state]. *)
Definition build_tail_state (after : str) (rr : list run) (ri : list image)
  (merge_last : bool) (fb : fblock) : str * list run * list image :=
  if merge_last then
    let '(fr, fi) := frag_block_state fb in
    let n := blen (fb_text fb) in
    (fb_text fb ++ after, coalesce (fr ++ map (move_run n) rr), fi ++ map (move_image n) ri)
  else (after, rr, ri).

(** block_repository.rs:161-186 [create] at an index: past the end it appends. *)
Definition create_block_at (d : doc) (pos : Z) (l : option id) (f : bfmt) (idx : nat) : doc * id :=
  let i := d_next d in
  (mk_doc (d_rs d) (d_blocks d ++ [mk_block i pos l f]) (d_runs d) (d_images d)
          (if idx <? length (d_fblocks d) then firstn idx (d_fblocks d) ++ i :: skipn idx (d_fblocks d)
           else d_fblocks d ++ [i])
          (d_order d) (d_chars d) (d_nblocks d) (N.succ i), i).

(** block_table.rs:112-128 [update_with_relationships]: the whole block. *)
Fixpoint put_full (bs : list block) (b : block) : list block :=
  match bs with
  | [] => [b]
  | x :: rest => if N.eqb (b_id x) (b_id b) then b :: rest else x :: put_full rest b
  end.
Definition update_block_full (d : doc) (b : block) : doc := set_blocks d (put_full (d_blocks d) b).

(** insert_fragment_uc.rs:1741-1760 and 1831-1851: list of each pasted
    paragraph, reusing lists through the [ListGrouper]. The indent is read as
    an unsigned number; a negative one is taken as 0 here. *)
Fixpoint place_lists (L : ldoc) (g : grouper) (fbs : list fblock) : ldoc * list (option id) :=
  match fbs with
  | [] => (L, [])
  | fb :: rest =>
      match fb_list fb with
      | None => let '(L', ids) := place_lists L (reset g) rest in (L', None :: ids)
      | Some e =>
          let '(g1, r) := try_reuse g (l_style e) (Z.to_nat (l_indent e)) in
          match r with
          | Some i => let '(L', ids) := place_lists L g1 rest in (L', Some i :: ids)
          | None =>
              let '(L1, i) := new_list L e in
              let '(L', ids) := place_lists L1 (register g1 i (l_style e) (Z.to_nat (l_indent e))) rest in
              (L', Some i :: ids)
          end
      end
  end.
(** insert_fragment_uc.rs:1726-1736: the list of the current paragraph is
    known to the grouper, unless that paragraph is overwritten. *)
Definition first_grouper (L : ldoc) (overwrite : bool) (l : option id) : grouper :=
  if overwrite then []
  else match l with
       | Some i => match get_list L i with
                   | Some e => register [] i (l_style e) (Z.to_nat (l_indent e))
                   | None => [] end
       | None => [] end.

(** insert_fragment_uc.rs:1825-1886: create the paragraphs in the middle. Also
    returns their ids and texts, the characters added and the next position. *)
Fixpoint create_middle (d : doc) (idx : nat) (pos : Z) (fbs : list (fblock * option id))
  : doc * list (id * str) * Z * Z :=
  match fbs with
  | [] => (d, [], 0%Z, pos)
  | (fb, l) :: rest =>
      let '(rs, is_) := frag_block_state fb in
      let n := (Z.of_nat (length (fb_text fb)) + Z.of_nat (length is_))%Z in
      let '(d1, i) := create_block_at d pos l (fb_fmt fb) idx in
      let d2 := write_block_state d1 i rs is_ in
      let '(d3, made, chars, pos') := create_middle d2 (S idx) (pos + n + 1)%Z rest in
      (d3, (i, fb_text fb) :: made, (n + chars)%Z, pos')
  end.

(** insert_fragment_uc.rs:2057-2077: open the new paragraphs in the rope, each
    after the previous one. *)
Fixpoint rope_open (rs : rstore) (prev : id) (len : nat) (made : list (id * str)) : res rstore :=
  match made with
  | [] => Ok rs
  | (i, t) :: rest =>
      let! rs1 := rope_split_block rs prev len i in
      let! rs2 := (match t with [] => Ok rs1 | _ => rope_insert_in_block rs1 i 0 t end) in
      rope_open rs2 i (blen t) rest
  end.
(** insert_fragment_uc.rs:2032-2052, 2243-2250, 2413-2421: cut [after] from a
    paragraph and put [extra] at the same place. *)
Definition rope_head (rs : rstore) (i : id) (o : nat) (after extra : str) : res rstore :=
  let! rs1 := (match after with [] => Ok rs | _ => rope_delete_in_block rs i o (o + blen after) end) in
  match extra with [] => Ok rs1 | _ => rope_insert_in_block rs1 i o extra end.

(** insert_fragment_uc.rs:2006-2018: [child_order] gets the new ids, in order,
    after index [k]. *)
Definition order_insert (order : list id) (k : nat) (is_ : list id) : list id :=
  let at_ := Nat.min (S k) (length order) in firstn at_ order ++ is_ ++ skipn at_ order.

Definition shift_blocks (bs : list block) (k : nat) (n : Z) : list block :=
  map (fun b => set_b_pos b (b_pos b + n)%Z) (skipn (S k) bs).

(** insert_fragment_uc.rs:1600-1679: one paragraph without paragraph
    formatting goes into the current paragraph. *)
Definition paste_inline (d : doc) (bs : list block) (cur : block) (k : nat) (p : Z) (bt : str) (o : nat)
  (fb : fblock) : res (doc * Z * Z) :=
  let i := b_id cur in
  let '(fr, fi) := frag_block_state fb in
  let n := (Z.of_nat (length (fb_text fb)) + Z.of_nat (length fi))%Z in
  if (n =? 0)%Z then Ok (d, p, 0%Z)
  else
    let! _ := byte_slice bt 0 o in
    let nb := blen (fb_text fb) in
    let runs := coalesce (splice_range (shift_runs_for_insert (d_runs d i) o nb) o (o + nb)
                                       (map (move_run o) fr)) in
    let images := sort_images (shift_images_for_insert (d_images d i) o nb ++ map (move_image o) fi) in
    let d1 := write_block_state (update_block d cur) i runs images in
    let! rs := rope_insert_in_block (d_rs d1) i o (fb_text fb) in
    let d2 := update_multi (set_rs d1 rs) (shift_blocks bs k n) in
    Ok (set_chars d2 (d_chars d + n)%Z, (p + n)%Z, 0%Z).

(** insert_fragment_uc.rs:1693-2128: several paragraphs. [off] characters of
    the current paragraph come before the insertion point. *)
Definition paste_many (L : ldoc) (bs : list block) (cur : block) (k : nat) (bt : str) (o : nat)
  (fbs : list fblock) (first_fb last_fb : fblock) : res (ldoc * Z * Z) :=
  let d := l_doc L in
  let i := b_id cur in
  let! before := byte_slice bt 0 o in
  let! after := byte_slice bt o (blen bt) in
  let runs := d_runs d i in
  let images := d_images d i in
  let old_len := (Z.of_nat (length bt) + Z.of_nat (length images))%Z in
  let ri := split_images_right images o in
  let merge_first := is_inline_only first_fb in
  let merge_last := is_inline_only last_fb in
  let overwrite := match before with [] => negb merge_first | _ => false end in
  let '(head, hr, hi) :=
    build_head_state before (split_runs_left runs o) (split_images_left images o) merge_first overwrite first_fb in
  let taken := if merge_first || overwrite then 1 else 0 in
  let mids := skipn taken (if merge_last then removelast fbs else fbs) in
  let '(L1, lids) := place_lists L (first_grouper L overwrite (b_list cur))
                       (if overwrite then first_fb :: mids else mids) in
  let cur' := if overwrite then mk_block i (b_pos cur) (hd None lids) (fb_fmt first_fb) else cur in
  let mid_lids := if overwrite then tl lids else lids in
  let d1 := write_block_state (if overwrite then update_block_full d cur' else update_block d cur') i hr hi in
  let head_len := (Z.of_nat (length head) + Z.of_nat (length hi))%Z in
  let chars0 := if merge_first || overwrite then (head_len - old_len)%Z else 0%Z in
  let '(d2, made, chars1, pos) :=
    create_middle d1 (S k) (b_pos cur + head_len + 1)%Z (combine mids mid_lids) in
  let '(tail, tr, ti) := build_tail_state after (split_runs_right runs o) ri merge_last last_fb in
  let chars2 := if merge_last then Z.of_nat (length (fb_text last_fb)) else 0%Z in
  let skip_tail := match tail, ri with [], [] => negb merge_last | _, _ => false end in
  let tail_len := (Z.of_nat (length tail) + Z.of_nat (length ti))%Z in
  let '(d3, made') :=
    if skip_tail then (d2, made)
    else
      let '(dt, ni) := create_block_at d2 pos (if overwrite then None else b_list cur)
                         (if overwrite then bfmt_default else b_fmt cur) (S k + length made) in
      (write_block_state dt ni tr ti, made ++ [(ni, tail)]) in
  let d4 := set_order d3 (order_insert (d_order d) k (map fst made')) in
  let extra := if blen before <? blen head then skipn (length before) head else [] in
  let! rs1 := rope_head (d_rs d4) i o after extra in
  let! rs2 := rope_open rs1 i (blen head) made' in
  let d5 := set_rs d4 rs2 in
  let old_next := (b_pos cur + old_len + 1)%Z in
  let new_next := if skip_tail then pos else (pos + tail_len + 1)%Z in
  let d6 := update_multi d5 (shift_blocks bs k (new_next - old_next)) in
  let added := Z.of_nat (length made') in
  let d7 := set_chars (set_nblocks d6 (d_nblocks d + added)%Z) (d_chars d + (chars0 + chars1 + chars2))%Z in
  let np := if skip_tail then (pos - 1)%Z
            else if merge_last then (pos + Z.of_nat (length (fb_text last_fb)))%Z else pos in
  Ok (mk_ldoc d7 (l_lists L1) (l_next L1), np, added).

Definition make_list (L : ldoc) (l : option list_entity) : ldoc * option id :=
  match l with Some e => let '(L', i) := new_list L e in (L', Some i) | None => (L, None) end.

(** insert_fragment_uc.rs:2130-2280: one paragraph with paragraph formatting,
    at the start of a paragraph. The new tail is not in the rope when its
    length is read (line 2197). *)
Definition paste_one_over (L : ldoc) (bs : list block) (cur : block) (k : nat) (after : str) (o : nat)
  (fb : fblock) : res (ldoc * Z * Z) :=
  let d := l_doc L in
  let i := b_id cur in
  let images := d_images d i in
  let ri := split_images_right images o in
  let old_len := (Z.of_nat (length after) + Z.of_nat (length images))%Z in
  let '(fr, fi) := frag_block_state fb in
  let n := (Z.of_nat (length (fb_text fb)) + Z.of_nat (length fi))%Z in
  let '(L1, l) := make_list L (fb_list fb) in
  let d1 := write_block_state (update_block_full d (mk_block i (b_pos cur) l (fb_fmt fb))) i fr fi in
  let pos := (b_pos cur + n + 1)%Z in
  let skip_tail := match after, ri with [], [] => true | _, _ => false end in
  let! (d2, made, pos2) :=
    (if skip_tail then Ok (d1, [], pos)
     else
       let '(dt, ni) := create_block_at d1 pos None bfmt_default (S k) in
       let! tl_ := char_length dt ni in
       Ok (set_order (write_block_state dt ni (split_runs_right (d_runs d i) o) ri)
                     (order_insert (d_order d) k [ni]),
           [(ni, after)], (pos + tl_ + 1)%Z)) in
  let! rs1 := rope_head (d_rs d2) i 0 after (fb_text fb) in
  let! rs2 := rope_open rs1 i (blen (fb_text fb)) made in
  let d3 := set_rs d2 rs2 in
  let old_next := (b_pos cur + old_len + 1)%Z in
  let new_next := if skip_tail then pos else pos2 in
  let d4 := update_multi d3 (shift_blocks bs k (new_next - old_next)) in
  let added := Z.of_nat (length made) in
  let d5 := set_chars (set_nblocks d4 (d_nblocks d + added)%Z) (d_chars d + (n - old_len))%Z in
  Ok (mk_ldoc d5 (l_lists L1) (l_next L1), (b_pos cur + n)%Z, added).

(** insert_fragment_uc.rs:2281-2463: the same, inside or at the end of a
    paragraph. The rope still holds the whole paragraph when its length is
    read (line 2294). *)
Definition paste_one_split (L : ldoc) (bs : list block) (cur : block) (k : nat) (bt before after : str) (o : nat)
  (fb : fblock) : res (ldoc * Z * Z) :=
  let d := l_doc L in
  let i := b_id cur in
  let runs := d_runs d i in
  let images := d_images d i in
  let ri := split_images_right images o in
  let old_len := (Z.of_nat (length bt) + Z.of_nat (length images))%Z in
  let '(fr, fi) := frag_block_state fb in
  let n := (Z.of_nat (length (fb_text fb)) + Z.of_nat (length fi))%Z in
  let d1 := write_block_state (update_block d cur) i (split_runs_left runs o) (split_images_left images o) in
  let! len := char_length d1 i in
  let pos := (b_pos cur + len + 1)%Z in
  let '(L1, l) := make_list L (fb_list fb) in
  let '(dm, mi) := create_block_at d1 pos l (fb_fmt fb) (S k) in
  let d2 := write_block_state dm mi fr fi in
  let pos2 := (pos + n + 1)%Z in
  let '(dt, ti) := create_block_at d2 pos2 (b_list cur) (b_fmt cur) (S (S k)) in
  let d3 := write_block_state dt ti (split_runs_right runs o) ri in
  let d4 := set_order d3 (order_insert (d_order d) k [mi; ti]) in
  let old_next := (b_pos cur + old_len + 1)%Z in
  let new_next := (pos2 + (Z.of_nat (length after) + Z.of_nat (length ri)) + 1)%Z in
  let d5 := update_multi d4 (shift_blocks bs k (new_next - old_next)) in
  let d6 := set_chars (set_nblocks d5 (d_nblocks d + 2)%Z) (d_chars d + n)%Z in
  let! rs1 := rope_head (d_rs d6) i o after [] in
  let! rs2 := rope_open rs1 i (blen before) [(mi, fb_text fb); (ti, after)] in
  Ok (mk_ldoc (set_rs d6 rs2) (l_lists L1) (l_next L1), pos2, 1%Z).

(** insert_fragment_uc.rs:1506-2464 [execute_insert_fragment] for a fragment
    without tables: the document, the new position, the paragraphs added. The
    size limit on the serialized fragment (1510-1517) is left out. *)
Definition insert_fragment (L : ldoc) (p a : Z) (data : option (list fblock)) : res (ldoc * Z * Z) :=
  match data with
  | None | Some [] => Err
  | Some (first_fb :: others) =>
      if negb (p =? a)%Z then Err
      else
        let d := l_doc L in
        let bs := sort_blocks (get_multi d (collect_block_ids d)) in
        let! (cur, k, off) := find_block_at_position d bs p in
        let! bt := block_content (d_rs d) (b_id cur) in
        let o := logical_offset_to_byte bt (d_images d (b_id cur)) (Z.to_nat off) in
        match others with
        | [] =>
            if is_inline_only first_fb then
              let! (d', np, added) := paste_inline d bs cur k p bt o first_fb in
              Ok (mk_ldoc d' (l_lists L) (l_next L), np, added)
            else
              let! before := byte_slice bt 0 o in
              let! after := byte_slice bt o (blen bt) in
              match before with
              | [] => paste_one_over L bs cur k after o first_fb
              | _ => paste_one_split L bs cur k bt before after o first_fb
              end
        | _ => paste_many L bs cur k bt o (first_fb :: others) first_fb (last others first_fb)
        end
  end.

(** insert_fragment_uc.rs:2486-2515: [undo] restores the snapshot taken before
    the change, [redo] executes the request again. *)

(** cursor.rs:582-634 [TextCursor::insert_fragment] without the undo group and
    the events: a selection is deleted first. [None] is an error returned to
    the caller, whatever has been changed by then. *)
Definition cursor_insert_fragment (L : ldoc) (p a : nat) (f : dfrag) : res (ldoc * option nat) :=
  let insert (L : ldoc) (q : nat) :=
    match insert_fragment L (Z.of_nat q) (Z.of_nat q) (df_data f) with
    | Panic => Panic
    | Err => Ok (L, None)
    | Ok (L', np, _) => let! r := to_usize np in Ok (L', Some r)
    end in
  if p =? a then insert L p
  else
    match delete_text (l_doc L) (Z.of_nat p) (Z.of_nat a) with
    | Panic => Panic
    | Err => Ok (L, None)
    | Ok (d1, np, _) => let! q := to_usize np in insert (mk_ldoc d1 (l_lists L) (l_next L)) q
    end.
