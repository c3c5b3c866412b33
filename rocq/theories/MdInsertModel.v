(** Inserting Markdown at a position: the command [insert_markdown_at_position].

    Sources: crates/document_editing/src/use_cases/insert_markdown_at_position_uc.rs,
    crates/common/src/parser_tools/content_parser.rs. Flat documents. The
    Markdown is given as the elements its reader finds (MdReadModel makes them
    from the events of the Markdown reader). The snapshot for [undo] is in
    RichModel. *)
From Verif Require Import Base FormatRunsModel RopeModel DocModel QueryModel ListModel ListDocModel FragmentModel ImportModel.

(** content_parser.rs:104-117 [ParsedBlock::is_inline_only]. *)
Definition is_inline (b : pblock) : bool :=
  is_none (pb_heading b) && is_none (pb_list b) && negb (pb_code b) && (pb_quotes b =? 0) && is_none (pb_line_height b)
  && is_none (pb_non_breakable b) && is_none (pb_direction b) && is_none (pb_background b).

(** content_parser.rs:38-87 [flatten_to_blocks]: each cell of a table is a
    paragraph; at least one paragraph. *)
Definition cell_block (ss : list span) : pblock := mk_pblock ss None None 0 false None 0 None None None None.
Definition flatten_element (e : pelement) : list pblock :=
  match e with PBlock b => [b] | PTable t => map cell_block (concat (pt_rows t)) end.
Definition flatten_to_blocks (es : list pelement) : list pblock :=
  match flat_map flatten_element es with [] => [cell_block [empty_span]] | bs => bs end.

(** insert_markdown_at_position_uc.rs:79-83 [parsed_block_payload]. *)
Definition payload (b : pblock) : str * list run := runs_from_spans (pb_spans b) (pb_code b).

(** insert_markdown_at_position_uc.rs:329-351, 531-554: the new paragraph of a
    parsed block gets its heading level; that it is a code block is left out. *)
Definition inserted_fmt (b : pblock) : bfmt :=
  mk_bfmt None None None None None (pb_heading b) None None None [] None None None None None None.
(** insert_markdown_at_position_uc.rs:307-327, 516-529: the list of a parsed
    block; [place_lists] needs nothing else of it. *)
Definition list_of (b : pblock) : option list_entity :=
  option_map (fun st => mk_list st (Z.of_nat (pb_indent b)) [] []) (pb_list b).
Definition listed (b : pblock) : fblock := mk_fblock [] [] bfmt_default (list_of b).

(** insert_markdown_at_position_uc.rs:302-366: create the paragraphs in the
    middle, with the format [fmt] gives. Also returns their ids and texts, the
    characters added and the next position. *)
Fixpoint create_parsed (fmt : pblock -> bfmt) (d : doc) (idx : nat) (pos : Z) (bs : list (pblock * option id))
  : doc * list (id * str) * Z * Z :=
  match bs with
  | [] => (d, [], 0%Z, pos)
  | (b, l) :: rest =>
      let '(t, rs) := payload b in
      let n := Z.of_nat (length t) in
      let '(d1, i) := create_block_at d pos l (fmt b) idx in
      let d2 := write_block_state d1 i rs [] in
      let '(d3, made, chars, pos') := create_parsed fmt d2 (S idx) (pos + n + 1)%Z rest in
      (d3, (i, t) :: made, (n + chars)%Z, pos')
  end.

(** insert_markdown_at_position_uc.rs:358-361, 438-440, 560-563, 595-597: each
    new paragraph is put in the rope at the end of the previous one. *)
Fixpoint rope_add (st : rstore) (next : nat) (made : list (id * str)) : res rstore :=
  match made with
  | [] => Ok st
  | (i, t) :: rest => let! st1 := rope_insert_block_at st next i t in rope_add st1 (next + 1 + blen t) rest
  end.

(** insert_markdown_at_position_uc.rs:229-484 and 486-634: the paragraph is cut
    in two. [first] is merged into the first part, [last_] into the second,
    [mids] come between; [touch] is true when the current paragraph is saved
    (494). The rope is written after the paragraphs are created, not in between:
    they do not depend on each other, except for the lengths read at 293, 459,
    514 and 614. Returns the document, the position of the second part and the
    number of new paragraphs. *)
Definition split_in (d : doc) (bs : list block) (cur : block) (k : nat) (bt : str) (o : nat)
  (first : option pblock) (mids : list (pblock * option id)) (last_ : option pblock) (touch : bool) : res (doc * Z * Z) :=
  let i := b_id cur in
  let! before := byte_slice bt 0 o in
  let! after := byte_slice bt o (blen bt) in
  let runs := d_runs d i in
  let images := d_images d i in
  let old_len := (Z.of_nat (length bt) + Z.of_nat (length images))%Z in
  let '(ft, fr) := match first with Some b => payload b | None => ([], []) end in
  let '(lt, lr) := match last_ with Some b => payload b | None => ([], []) end in
  let head := before ++ ft in
  let hr := match first with
            | Some _ => coalesce (split_runs_left runs o ++ map (move_run (blen before)) fr)
            | None => split_runs_left runs o end in
  let tail := lt ++ after in
  let tr := match last_ with
            | Some _ => coalesce (lr ++ map (move_run (blen lt)) (split_runs_right runs o))
            | None => split_runs_right runs o end in
  let ti := map (move_image (blen lt)) (split_images_right images o) in
  let d1 := write_block_state (if touch then update_block d cur else d) i hr (split_images_left images o) in
  let! start := range_of (index (d_rs d1)) (MBlock i) in
  let! rs1 := (match start with Some _ => rope_replace_block_content (d_rs d1) i head | None => Ok (d_rs d1) end) in
  let! hl := block_char_length rs1 i in
  let '(d2, made, chars, pos) := create_parsed inserted_fmt d1 (S k) (b_pos cur + Z.of_nat hl + 1)%Z mids in
  let '(d3, ni) := create_block_at d2 pos (b_list cur) (b_fmt cur) (S k + length made) in
  let d4 := write_block_state d3 ni tr ti in
  let made' := made ++ [(ni, tail)] in
  let! rs2 := (match start with Some (s, _) => rope_add rs1 (s + blen head) made' | None => Ok rs1 end) in
  let d5 := set_rs (set_order d4 (order_insert (d_order d) k (map fst made'))) rs2 in
  let! tl_ := block_char_length rs2 ni in
  let old_next := (b_pos cur + old_len + 1)%Z in
  let new_next := (pos + Z.of_nat tl_ + 1)%Z in
  let d6 := update_multi d5 (shift_blocks bs k (new_next - old_next)) in
  let added := Z.of_nat (length made') in
  Ok (set_chars (set_nblocks d6 (d_nblocks d + added)%Z)
        (d_chars d + (Z.of_nat (length ft) + chars + Z.of_nat (length lt)))%Z, pos, added).

(** insert_markdown_at_position_uc.rs:157-227: one paragraph without paragraph
    formatting goes into the current paragraph. *)
Definition merge_in (d : doc) (bs : list block) (cur : block) (k : nat) (p : Z) (bt : str) (o : nat) (b : pblock) : res (doc * Z) :=
  let i := b_id cur in
  let '(t, fr) := payload b in
  let n := Z.of_nat (length t) in
  if (n =? 0)%Z then Ok (d, p)
  else
    let! _ := byte_slice bt 0 o in
    let runs := coalesce (splice_range (shift_runs_for_insert (d_runs d i) o (blen t)) o (o + blen t) (map (move_run o) fr)) in
    let images := shift_images_for_insert (d_images d i) o (blen t) in
    let d1 := write_block_state (update_block d cur) i runs images in
    let! rs := rope_insert_in_block (d_rs d1) i o t in
    let d2 := update_multi (set_rs d1 rs) (shift_blocks bs k n) in
    Ok (set_chars d2 (d_chars d + n)%Z, (p + n)%Z).

(** insert_markdown_at_position_uc.rs:85-636 [execute_content_insert]: the
    document, the new position and the number of paragraphs it says are new. *)
Definition insert_parsed (L : ldoc) (p a : Z) (bs : list pblock) : res (ldoc * Z * Z) :=
  if negb (p =? a)%Z then Err
  else
    let d := l_doc L in
    let blocks := sort_blocks (get_multi d (d_fblocks d)) in
    let! (cur, k, off) := find_block_at_position d blocks p in
    let! bt := block_content (d_rs d) (b_id cur) in
    let o := logical_offset_to_byte bt (d_images d (b_id cur)) (Z.to_nat off) in
    match bs with
    | [] => Panic
    | [b] =>
        if is_inline b then
          let! (d', np) := merge_in d blocks cur k p bt o b in Ok (mk_ldoc d' (l_lists L) (l_next L), np, 0%Z)
        else
          let '(L1, l) := make_list L (list_of b) in
          let! (d', pos, _) := split_in d blocks cur k bt o None [(b, l)] None true in
          Ok (mk_ldoc d' (l_lists L1) (l_next L1), pos, 1%Z)
    | first :: others =>
        let last_ := last others first in
        let mf := is_inline first in
        let ml := is_inline last_ in
        let mids := skipn (if mf then 1 else 0) (if ml then removelast bs else bs) in
        let '(L1, lids) := place_lists L [] (map listed mids) in
        let! (d', pos, added) := split_in d blocks cur k bt o (if mf then Some first else None) (combine mids lids)
                                   (if ml then Some last_ else None) false in
        Ok (mk_ldoc d' (l_lists L1) (l_next L1),
            (if ml then pos + Z.of_nat (length (fst (payload last_))) else pos)%Z, added)
    end.

(** insert_markdown_at_position_uc.rs:638-653 [execute_insert_markdown]. *)
Definition insert_markdown_at (L : ldoc) (p a : Z) (es : list pelement) : res (ldoc * Z * Z) :=
  insert_parsed L p a (flatten_to_blocks es).
