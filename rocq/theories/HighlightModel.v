(** Syntax highlighting: what is shown over the stored formats, and which
    paragraphs are highlighted again after an edit.

    Source: crates/public_api/src/highlight.rs; text_block.rs:289-292, 440-470;
    document.rs:977-1012; cursor.rs:95-135. Simplified: a user's highlighter is a
    function (it reads its own fields and the context only); word starts are left
    out, as in QueryModel. *)
From Verif Require Import Base FormatRunsModel RopeModel DocModel HistModel QueryModel.

(** highlight.rs:29-46 [HighlightFormat]; a colour is a number. *)
Record hfmt := mk_hfmt {
  h_foreground : option N; h_background : option N; h_underline_color : option N;
  h_family : option str; h_point_size : option Z; h_weight : option Z;
  h_bold : option bool; h_italic : option bool; h_underline : option bool; h_overline : option bool;
  h_strikeout : option bool; h_letter_spacing : option Z; h_word_spacing : option Z;
  h_underline_style : option N; h_vertical : option N; h_tooltip : option str
}.
Definition hfmt_default : hfmt :=
  mk_hfmt None None None None None None None None None None None None None None None None.
(** lib.rs:128-148 [TextFormat]. *)
Record tfmt := mk_tfmt {
  x_family : option str; x_point_size : option Z; x_weight : option Z;
  x_bold : option bool; x_italic : option bool; x_underline : option bool; x_overline : option bool;
  x_strikeout : option bool; x_letter_spacing : option Z; x_word_spacing : option Z;
  x_underline_style : option N; x_vertical : option N;
  x_href : option str; x_names : list str; x_anchor : option bool; x_tooltip : option str;
  x_foreground : option N; x_background : option N; x_underline_color : option N
}.
(** Casts [as u32] and [as i32] of an [i64]. *)
Definition as_u32 (z : Z) : Z := (z mod 2 ^ 32)%Z.
Definition as_i32 (z : Z) : Z := ((z + 2 ^ 31) mod 2 ^ 32 - 2 ^ 31)%Z.
(** convert.rs:221-245 [TextFormat::from(&CharacterFormat)]. *)
Definition to_text_format (f : cfmt) : tfmt :=
  mk_tfmt (font_family f) (option_map as_u32 (font_point_size f)) (option_map as_u32 (font_weight f))
    (font_bold f) (font_italic f) (font_underline f) (font_overline f) (font_strikeout f)
    (option_map as_i32 (letter_spacing f)) (option_map as_i32 (word_spacing f))
    (underline_style f) (vertical_alignment f) (anchor_href f) (anchor_names f) (is_anchor f) (tooltip f)
    None None None.

(** highlight.rs:52-56 [HighlightSpan]. *)
Record hspan := mk_hspan { s_start : nat; s_len : nat; s_fmt : hfmt }.

(** [Option::or]. *)
Definition or_opt {A} (a b : option A) : option A := match a with Some _ => a | None => b end.
(** highlight.rs:181-213 [apply_highlight]. *)
Definition apply_highlight (base : tfmt) (hl : hfmt) : tfmt :=
  mk_tfmt (or_opt (h_family hl) (x_family base)) (or_opt (h_point_size hl) (x_point_size base))
    (or_opt (h_weight hl) (x_weight base)) (or_opt (h_bold hl) (x_bold base)) (or_opt (h_italic hl) (x_italic base))
    (or_opt (h_underline hl) (x_underline base)) (or_opt (h_overline hl) (x_overline base))
    (or_opt (h_strikeout hl) (x_strikeout base)) (or_opt (h_letter_spacing hl) (x_letter_spacing base))
    (or_opt (h_word_spacing hl) (x_word_spacing base)) (or_opt (h_underline_style hl) (x_underline_style base))
    (or_opt (h_vertical hl) (x_vertical base)) (x_href base) (x_names base) (x_anchor base)
    (or_opt (h_tooltip hl) (x_tooltip base)) (or_opt (h_foreground hl) (x_foreground base))
    (or_opt (h_background hl) (x_background base)) (or_opt (h_underline_color hl) (x_underline_color base)).
(** highlight.rs:217-270 [merge_overlapping_highlights]. *)
Definition override (m f : hfmt) : hfmt :=
  mk_hfmt (or_opt (h_foreground f) (h_foreground m)) (or_opt (h_background f) (h_background m))
    (or_opt (h_underline_color f) (h_underline_color m)) (or_opt (h_family f) (h_family m))
    (or_opt (h_point_size f) (h_point_size m)) (or_opt (h_weight f) (h_weight m)) (or_opt (h_bold f) (h_bold m))
    (or_opt (h_italic f) (h_italic m)) (or_opt (h_underline f) (h_underline m)) (or_opt (h_overline f) (h_overline m))
    (or_opt (h_strikeout f) (h_strikeout m)) (or_opt (h_letter_spacing f) (h_letter_spacing m))
    (or_opt (h_word_spacing f) (h_word_spacing m)) (or_opt (h_underline_style f) (h_underline_style m))
    (or_opt (h_vertical f) (h_vertical m)) (or_opt (h_tooltip f) (h_tooltip m)).
Definition merge_overlapping (spans : list hspan) : hfmt :=
  fold_left (fun m s => override m (s_fmt s)) spans hfmt_default.

(** flow.rs:60-95 [FragmentContent], without word starts; of an image, its name,
    width, height and quality. *)
Inductive shown :=
| SText (t : str) (f : tfmt) (off len : nat) (eid : N)
| SImage (name : str) (w h q : Z) (f : tfmt) (off : nat) (eid : N).
Definition show (f : fragment) : shown :=
  match f with
  | FText t g off len e => SText t (to_text_format g) off len e
  | FImage i off e => SImage (iname i) (iwidth i) (iheight i) (iquality i) (to_text_format (ifmt i)) off e
  end.

(** highlight.rs:350-357, 396-402: the spans that overlap [a, b). *)
Definition active (spans : list hspan) (a b : nat) : list hspan :=
  filter (fun s => (s_start s <? b) && (a <? s_start s + s_len s)) spans.
Definition covered_format (spans : list hspan) (f : tfmt) : tfmt :=
  match spans with [] => f | _ => apply_highlight f (merge_overlapping spans) end.

(** highlight.rs:325-340: the boundaries before sorting. *)
Definition span_cuts (off fin : nat) (s : hspan) : list nat :=
  let e := s_start s + s_len s in
  if (s_start s <? fin) && (off <? e)
  then (if (off <? s_start s) && (s_start s <? fin) then [s_start s] else [])
       ++ (if (off <? e) && (e <? fin) then [e] else [])
  else [].
(** [sort_unstable] of numbers, [dedup]. *)
Fixpoint put_nat (x : nat) (l : list nat) : list nat :=
  match l with [] => [x] | y :: r => if x <=? y then x :: l else y :: put_nat x r end.
Definition sort_nat (l : list nat) : list nat := fold_right put_nat [] l.
Fixpoint dedup (l : list nat) : list nat :=
  match l with
  | [] => []
  | x :: r => match r with y :: _ => if x =? y then dedup r else x :: dedup r | [] => [x] end
  end.
Definition boundaries (spans : list hspan) (off fin : nat) : list nat :=
  dedup (sort_nat (off :: fin :: flat_map (span_cuts off fin) spans)).

(** [chars[a..b]] panics out of range. *)
Definition char_slice (t : str) (a b : nat) : res str :=
  if (a <=? b) && (b <=? length t) then Ok (firstn (b - a) (skipn a t)) else Panic.
(** highlight.rs:343-388: one window of two boundaries. *)
Fixpoint cut_windows (spans : list hspan) (t : str) (f : tfmt) (off : nat) (eid : N) (bs : list nat) : res (list shown) :=
  match bs with
  | a :: rest =>
      match rest with
      | b :: _ =>
          let! more := cut_windows spans t f off eid rest in
          if b - a =? 0 then Ok more
          else
            let! u := char_slice t (a - off) (a - off + (b - a)) in
            Ok (SText u (covered_format (active spans a b) f) a (b - a) eid :: more)
      | [] => Ok []
      end
  | [] => Ok []
  end.
Definition merge_one (spans : list hspan) (x : shown) : res (list shown) :=
  match x with
  | SText t f off len e => cut_windows spans t f off e (boundaries spans off (off + len))
  | SImage n w h q f off e => Ok [SImage n w h q (covered_format (active spans off (off + 1)) f) off e]
  end.
Fixpoint merge_all (spans : list hspan) (xs : list shown) : res (list shown) :=
  match xs with
  | [] => Ok []
  | x :: rest => let! a := merge_one spans x in let! b := merge_all spans rest in Ok (a ++ b)
  end.
(** highlight.rs:301-427 [merge_highlight_spans]. *)
Definition merge_highlight_spans (xs : list shown) (spans : list hspan) : res (list shown) :=
  match spans with [] => Ok xs | _ => merge_all spans xs end.

(** ** Highlighters *)

(** What a highlighter may do with its context, highlight.rs:84-136. *)
Inductive hcall (U : Type) := SetFormat (start len : nat) (f : hfmt) | SetState (z : Z) | SetData (u : U).
Arguments SetFormat {U}. Arguments SetState {U}. Arguments SetData {U}.
(** highlight.rs:154-157 [SyntaxHighlighter::highlight_block]: the calls made for
    a text, a block, the previous state and the block's user data. *)
Definition highlighter (U : Type) := str -> id -> Z -> option U -> list (hcall U).

(** highlight.rs:164-168 [BlockHighlightData]. *)
Record hdata (U : Type) := mk_hdata { hd_spans : list hspan; hd_state : Z; hd_user : option U }.
Arguments mk_hdata {U}. Arguments hd_spans {U}. Arguments hd_state {U}. Arguments hd_user {U}.
(** highlight.rs:171-174, the map of [HighlightData]. *)
Definition hmap (U : Type) := id -> option (hdata U).
Definition hput {U} (m : hmap U) (b : id) (x : hdata U) : hmap U := fun i => if N.eqb i b then Some x else m i.

(** highlight.rs:69-138: the context starts with no span and state -1; a span of
    no character is dropped. *)
Definition do_call {U} (c : hdata U) (a : hcall U) : hdata U :=
  match a with
  | SetFormat s n f => if n =? 0 then c else mk_hdata (hd_spans c ++ [mk_hspan s n f]) (hd_state c) (hd_user c)
  | SetState z => mk_hdata (hd_spans c) z (hd_user c)
  | SetData u => mk_hdata (hd_spans c) (hd_state c) (Some u)
  end.
Definition highlight_one {U} (h : highlighter U) (t : str) (b : id) (prev : Z) (u : option U) : hdata U :=
  fold_left do_call (h t b prev u) (mk_hdata [] (-1)%Z u).

(** highlight.rs:434-448 [ordered_block_ids]. *)
Fixpoint with_texts (d : doc) (is_ : list id) : res (list (id * str)) :=
  match is_ with
  | [] => Ok []
  | i :: rest => let! t := block_content (d_rs d) i in let! more := with_texts d rest in Ok ((i, t) :: more)
  end.
Definition ordered_block_ids (d : doc) : res (list (id * str)) :=
  let! bs := blocks_sorted d in with_texts d (map b_id bs).

(** highlight.rs:452-486 [rehighlight_all]. *)
Fixpoint all_go {U} (h : highlighter U) (m : hmap U) (prev : Z) (bs : list (id * str)) : hmap U :=
  match bs with
  | [] => m
  | (b, t) :: rest => let x := highlight_one h t b prev None in all_go h (hput m b x) (hd_state x) rest
  end.
Definition rehighlight_all {U} (h : highlighter U) (d : doc) : res (hmap U) :=
  let! bs := ordered_block_ids d in Ok (all_go h (fun _ => None) (-1)%Z bs).

(** [hl.blocks.get(b).map_or(-1, |d| d.state)]. *)
Definition state_in {U} (m : hmap U) (b : id) : Z := match m b with Some x => hd_state x | None => (-1)%Z end.
(** highlight.rs:511-561: the loop; [prev] is the block before, [first] the test
    [i > start_idx] negated. *)
Fixpoint from_go {U} (h : highlighter U) (m : hmap U) (prev : option id) (first : bool) (bs : list (id * str)) : hmap U :=
  match bs with
  | [] => m
  | (b, t) :: rest =>
      let previous_state := match prev with None => (-1)%Z | Some q => state_in m q end in
      let user := match m b with Some x => hd_user x | None => None end in
      let old_state := state_in m b in
      let x := highlight_one h t b previous_state user in
      let m' := hput m b x in
      if negb first && (hd_state x =? old_state)%Z then m' else from_go h m' (Some b) false rest
  end.
(** The blocks from the one with a given id on, and the one before it. *)
Fixpoint from_block (start : id) (prev : option id) (bs : list (id * str)) : option (option id * list (id * str)) :=
  match bs with
  | [] => None
  | (b, t) :: rest => if N.eqb b start then Some (prev, bs) else from_block start (Some b) rest
  end.
(** highlight.rs:490-562 [rehighlight_from_block]. *)
Definition rehighlight_from_block {U} (h : highlighter U) (d : doc) (m : hmap U) (start : id) : res (hmap U) :=
  let! bs := ordered_block_ids d in
  Ok (match from_block start None bs with None => m | Some (prev, l) => from_go h m prev true l end).

(** highlight.rs:575-588: from the last block back, the first one that starts at
    or before the position. *)
Fixpoint target_in (d : doc) (p : nat) (bs : list (id * str)) : res (option id) :=
  match bs with
  | [] => Ok None
  | (i, _) :: rest =>
      match get_block d i with
      | None => target_in d p rest
      | Some b =>
          let! b' := refreshed d b in
          if (Z.to_nat (b_pos b') <=? p) then Ok (Some i) else target_in d p rest
      end
  end.
(** highlight.rs:566-597 [rehighlight_affected]. *)
Definition rehighlight_affected {U} (h : highlighter U) (d : doc) (m : hmap U) (p : nat) : res (hmap U) :=
  let! bs := ordered_block_ids d in
  let! o := target_in d p (rev bs) in
  let target := match o with Some i => i | None => match bs with (i, _) :: _ => i | [] => 0%N end end in
  match bs with [] => Ok m | _ => rehighlight_from_block h d m target end.

(** cursor.rs:95-135 [finish_edit_ext] and 1602-1641, 2030-2059: an edit and the
    highlighting after it; removing an empty selection does nothing. *)
Definition hedit {U} (h : highlighter U) (d : doc) (m : hmap U) (e : edit) : res (doc * hmap U) :=
  let! (d', _) := run_edit d e in
  match e with
  | ERemove p a => if p =? a then Ok (d', m) else let! m' := rehighlight_affected h d' m (Nat.min p a) in Ok (d', m')
  | EInsert p a _ | EInsertFmt p a _ _ | EBreak p a =>
      let! m' := rehighlight_affected h d' m (Nat.min p a) in Ok (d', m')
  end.

(** text_block.rs:455-470 [build_fragments_with_text], 256-282 [char_format_at]. *)
Definition shown_fragments {U} (d : doc) (m : hmap U) (i : id) : res (list shown) :=
  let! fs := block_fragments d i in
  match m i with
  | Some x => match hd_spans x with [] => Ok (map show fs) | _ => merge_highlight_spans (map show fs) (hd_spans x) end
  | None => Ok (map show fs)
  end.
Fixpoint shown_format_in (fs : list shown) (off : nat) : option tfmt :=
  match fs with
  | [] => None
  | SText _ f o n _ :: rest => if (o <=? off) && (off <? o + n) then Some f else shown_format_in rest off
  | SImage _ _ _ _ f o _ :: rest => if off =? o then Some f else shown_format_in rest off
  end.
Definition shown_format_at {U} (d : doc) (m : hmap U) (i : id) (off : nat) : res (option tfmt) :=
  let! fs := shown_fragments d m i in Ok (shown_format_in fs off).
