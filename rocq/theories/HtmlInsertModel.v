(** Inserting HTML at a position: the command [insert_html_at_position].

    Sources: crates/document_editing/src/use_cases/insert_html_at_position_uc.rs,
    crates/common/src/parser_tools/content_parser.rs. Flat documents. The HTML is
    given as the elements its reader finds ([parse_html_elements]; the reader of
    HTML itself is left out). The snapshot for [undo] is in
    RichModel. *)
From Verif Require Import Base FormatRunsModel RopeModel DocModel QueryModel ListModel ListDocModel FragmentModel ImportModel MdInsertModel.

(** insert_html_at_position_uc.rs:385-407, 810-832: the format of a new
    paragraph; that it is a code block is left out. *)
Definition html_fmt (b : pblock) : bfmt :=
  mk_bfmt None None None None None (pb_heading b) None None None [] (pb_line_height b) (pb_non_breakable b)
    (pb_direction b) (pb_background b) None None.
(** insert_html_at_position_uc.rs:288-293, 647-652: the format of a paragraph
    that is overwritten: the other fields stay. *)
Definition over_fmt (f : bfmt) (b : pblock) : bfmt :=
  mk_bfmt (f_alignment f) (f_top_margin f) (f_bottom_margin f) (f_left_margin f) (f_right_margin f) (pb_heading b)
    (f_indent f) (f_text_indent f) (f_marker f) (f_tab_positions f) (pb_line_height b) (pb_non_breakable b)
    (pb_direction b) (pb_background b) (f_is_code_block f) (f_code_language f).

Definition is_nil {A} (l : list A) : bool := match l with [] => true | _ => false end.

(** insert_html_at_position_uc.rs:221-619 (several paragraphs), 629-761 (one
    paragraph over the current one) and 762-919 (one paragraph in the current
    one): the paragraph is cut in two. [over] replaces its first part, with its
    list; [first] is merged into the first part, [last_] into the second, [mids]
    come between. With [may_skip] an empty second part is not made (467, 627).
    The rope is written after the paragraphs are created, as in [split_in].
    Returns the document, the position after the last new paragraph or of the
    second part, whether the second part was left out, and the number of new
    paragraphs. *)
Definition html_in (d : doc) (bs : list block) (cur : block) (k : nat) (bt : str) (o : nat)
  (over : option (pblock * option id)) (first : option pblock) (mids : list (pblock * option id)) (last_ : option pblock)
  (may_skip : bool) : res (doc * Z * bool * Z) :=
  let i := b_id cur in
  let! before := byte_slice bt 0 o in
  let! after := byte_slice bt o (blen bt) in
  let runs := d_runs d i in
  let images := d_images d i in
  let old_len := (Z.of_nat (length bt) + Z.of_nat (length images))%Z in
  let '(head, hr, hi) :=
    match over, first with
    | Some (b, _), _ => let '(t, rs) := payload b in (t, rs, [])
    | None, Some b => let '(t, rs) := payload b in
        (before ++ t, coalesce (split_runs_left runs o ++ map (move_run (blen before)) rs), split_images_left images o)
    | None, None => (before, split_runs_left runs o, split_images_left images o)
    end in
  let '(tail, tr, lt) :=
    match last_ with
    | Some b => let '(t, rs) := payload b in
        (t ++ after, coalesce (rs ++ map (move_run (blen t)) (split_runs_right runs o)), t)
    | None => (after, split_runs_right runs o, []) end in
  let ti := map (move_image (blen lt)) (split_images_right images o) in
  let d0 := match over with
            | Some (b, l) => update_block_full d (mk_block i (b_pos cur) l (over_fmt (b_fmt cur) b))
            | None => update_block d cur end in
  let d1 := write_block_state d0 i hr hi in
  let! start := range_of (index (d_rs d1)) (MBlock i) in
  let! rs1 := (match start with Some _ => rope_replace_block_content (d_rs d1) i head | None => Ok (d_rs d1) end) in
  let! hl := block_char_length rs1 i in
  let delta := match over, first with None, None => 0%Z | _, _ => (Z.of_nat hl - old_len)%Z end in
  let '(d2, made, chars, pos) := create_parsed html_fmt d1 (S k) (b_pos cur + Z.of_nat hl + 1)%Z mids in
  let skip := may_skip && is_nil tail && is_none last_ && is_nil ti in
  let '(tlist, tfmt) := match over with Some _ => (None, bfmt_default) | None => (b_list cur, b_fmt cur) end in
  let '(d3, made') :=
    if skip then (d2, made)
    else let '(dt, ni) := create_block_at d2 pos tlist tfmt (S k + length made) in
         (write_block_state dt ni tr ti, made ++ [(ni, tail)]) in
  let! rs2 := (match start with Some (s, _) => rope_add rs1 (s + blen head) made' | None => Ok rs1 end) in
  let d5 := set_rs (set_order d3 (order_insert (d_order d) k (map fst made'))) rs2 in
  let! next := (if skip then Ok pos else let! n := block_char_length rs2 (d_next d2) in Ok (pos + Z.of_nat n + 1)%Z) in
  let old_next := (b_pos cur + old_len + 1)%Z in
  let d6 := update_multi d5 (shift_blocks bs k (next - old_next)) in
  let added := Z.of_nat (length made') in
  Ok (set_chars (set_nblocks d6 (d_nblocks d + added)%Z) (d_chars d + (delta + chars + Z.of_nat (length lt)))%Z, pos, skip, added).

(** insert_html_at_position_uc.rs:84-922 [execute_content_insert]: the document,
    the new position and the number of paragraphs it says are new. One paragraph
    without paragraph formatting is merged as in Markdown (158-219). *)
Definition insert_parsed_html (L : ldoc) (p a : Z) (bs : list pblock) : res (ldoc * Z * Z) :=
  if negb (p =? a)%Z then Err
  else
    let d := l_doc L in
    let blocks := sort_blocks (get_multi d (d_fblocks d)) in
    let! (cur, k, off) := find_block_at_position d blocks p in
    let! bt := block_content (d_rs d) (b_id cur) in
    let o := logical_offset_to_byte bt (d_images d (b_id cur)) (Z.to_nat off) in
    match bs with
    | [] => Panic
    | [b] =>
        if is_inline b then
          let! (d', np) := merge_in d blocks cur k p bt o b in Ok (mk_ldoc d' (l_lists L) (l_next L), np, 0%Z)
        else
          let! before := byte_slice bt 0 o in
          let '(L1, l) := make_list L (list_of b) in
          if is_nil before then
            let! (d', pos, _, added) := html_in d blocks cur k bt o (Some (b, l)) None [] None true in
            Ok (mk_ldoc d' (l_lists L1) (l_next L1), (pos - 1)%Z, added)
          else
            let! (d', pos, _, _) := html_in d blocks cur k bt o None None [(b, l)] None false in
            Ok (mk_ldoc d' (l_lists L1) (l_next L1), pos, 1%Z)
    | first :: others =>
        let last_ := last others first in
        let mf := is_inline first in
        let ml := is_inline last_ in
        let! before := byte_slice bt 0 o in
        let over := is_nil before && negb mf in
        let mids := skipn (if mf || over then 1 else 0) (if ml then removelast bs else bs) in
        let '(L1, lids) := place_lists L (first_grouper L over (b_list cur)) (map listed (if over then first :: mids else mids)) in
        let! (d', pos, skip, added) :=
          html_in d blocks cur k bt o (if over then Some (first, hd None lids) else None) (if mf then Some first else None)
            (combine mids (if over then tl lids else lids)) (if ml then Some last_ else None) true in
        Ok (mk_ldoc d' (l_lists L1) (l_next L1),
            (if skip then pos - 1 else if ml then pos + Z.of_nat (length (fst (payload last_))) else pos)%Z, added)
    end.

(** insert_html_at_position_uc.rs:924-938 [execute_insert_html]. *)
Definition insert_html_at (L : ldoc) (p a : Z) (es : list pelement) : res (ldoc * Z * Z) :=
  insert_parsed_html L p a (flatten_to_blocks es).
