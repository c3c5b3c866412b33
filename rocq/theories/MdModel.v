(** Exporting documents and fragments as Markdown.

    Source: crates/document_io/src/use_cases/export_markdown_uc.rs and
    crates/public_api/src/fragment.rs. Flat
    documents: no sub-frames (block quotes) and no tables, so the quote prefix is
    empty. *)
From Coq Require Import Ascii String.
From Verif Require Import Base FormatRunsModel RopeModel DocModel QueryModel ListModel ListDocModel FragmentModel EscapeModel ExportModel.

(** export_markdown_uc.rs:363-410 [render_inline_segments], one element. *)
Definition md_segment (s : segment) : str :=
  let f := match s with SegText _ f => f | SegImage i => ifmt i end in
  let text := match s with
              | SegText t _ => if is_mono f then t else escape_markdown t
              | SegImage i => lit "![" ++ iname i ++ lit "](" ++ iname i ++ lit ")"
              end in
  match text with
  | [] => []
  | _ =>
      let x := if is_mono f then lit "`" ++ text ++ lit "`" else text in
      let x := if is_on (font_strikeout f) then lit "~~" ++ x ++ lit "~~" else x in
      let x :=
        if is_on (font_bold f) && is_on (font_italic f) then lit "***" ++ x ++ lit "***"
        else if is_on (font_bold f) then lit "**" ++ x ++ lit "**"
        else if is_on (font_italic f) then lit "*" ++ x ++ lit "*"
        else x in
      match anchor_href f with
      | Some href => lit "[" ++ x ++ lit "](" ++ href ++ lit ")"
      | None => x
      end
  end.
(** [str::repeat] with an [i64] count cast to [usize]; counts are not negative. *)
Definition repeated (x : str) (n : Z) : str := concat (repeat x (Z.to_nat n)).

(** export_markdown_uc.rs:251-361 [render_block_line]: the line, whether it is a
    list item, and the new [ordered_list_counter] and [current_list_id]. *)
Definition md_block (L : ldoc) (count : N) (cur : option id) (b : block) : res (str * bool * N * option id) :=
  let! ss := block_segments (l_doc L) (b_id b) in
  if is_on (f_is_code_block (b_fmt b)) then
    let lang := match f_code_language (b_fmt b) with Some l => l | None => [] end in
    Ok (lit "```" ++ lang ++ [10%N] ++ flat_map raw_segment ss ++ [10%N] ++ lit "```", false, 0%N, None)
  else
    let item := match export_list L b with Some _ => true | None => false end in
    let text := flat_map md_segment ss in
    match f_heading_level (b_fmt b), export_list L b with
    | Some level, _ => Ok (repeated (lit "#") level ++ lit " " ++ text, item, count, cur)
    | None, Some e =>
        let indent := repeated (lit "  ") (l_indent e) in
        if is_ordered (l_style e) then
          let same := match cur, b_list b with Some x, Some y => N.eqb x y | None, None => true | _, _ => false end in
          let count' := if same then (count + 1)%N else 1%N in
          Ok (indent ++ decimal count' ++ lit ". " ++ text, item, count', b_list b)
        else Ok (indent ++ lit "- " ++ text, item, count, cur)
    | None, None => Ok (text, item, 0%N, None)
    end.
(** export_markdown_uc.rs:121-163 [render_frame_content]: the lines and the
    separators between them. [first]: no line yet; [prev]: [prev_was_list]. *)
Fixpoint md_blocks (L : ldoc) (first prev : bool) (count : N) (cur : option id) (bs : list block) : res (list str) :=
  match bs with
  | [] => Ok []
  | b :: rest =>
      let! r := md_block L count cur b in
      let '(line, item, count, cur) := r in
      let! more := md_blocks L false item count cur rest in
      Ok ((if first then [] else [if item && prev then [10%N] else [10; 10]%N]) ++ line :: more)
  end.
(** export_markdown_uc.rs:42-114 [execute]: the parts, separators included, are
    separated once more. *)
Definition export_markdown (L : ldoc) : res str :=
  let! parts := md_blocks L true false 0%N None (export_blocks L) in Ok (join_with [10; 10]%N parts).

(** ** Fragments *)

(** fragment.rs:535-578 [render_inline_markdown], one element. *)
Definition frag_md_segment (s : segment) : str :=
  let raw := match s with SegText t _ => t | SegImage i => lit "![" ++ iname i ++ lit "](" ++ iname i ++ lit ")" end in
  let f := match s with SegText _ f => f | SegImage i => ifmt i end in
  if is_mono f then lit "`" ++ raw ++ lit "`"
  else
    let x := escape_markdown_fragment raw in
    let x :=
      if is_on (font_bold f) && is_on (font_italic f) then lit "***" ++ x ++ lit "***"
      else if is_on (font_bold f) then lit "**" ++ x ++ lit "**"
      else if is_on (font_italic f) then lit "*" ++ x ++ lit "*"
      else x in
    let x := if is_on (font_strikeout f) then lit "~~" ++ x ++ lit "~~" else x in
    if is_on (is_anchor f) then lit "[" ++ x ++ lit "](" ++ match anchor_href f with Some h => h | None => [] end ++ lit ")"
    else x.
(** fragment.rs:251-300 [to_markdown], the loop: rendered text and whether it is
    a list item. [prev]: [prev_was_list]. *)
Fixpoint frag_md_parts (prev : bool) (count : N) (fbs : list fblock) : list (str * bool) :=
  match fbs with
  | [] => []
  | fb :: rest =>
      let text := flat_map frag_md_segment (fb_elems fb) in
      let indent := match f_indent (fb_fmt fb) with Some n => if (0 <? n)%Z then repeated (lit "  ") n else [] | None => [] end in
      match f_heading_level (fb_fmt fb), fb_list fb with
      | Some level, _ => (repeated (lit "#") (Z.max 1 (Z.min 6 level)) ++ lit " " ++ text, false) :: frag_md_parts false 0%N rest
      | None, Some e =>
          let count := if prev then count else 0%N in
          if is_ordered (l_style e) then
            (indent ++ decimal (count + 1)%N ++ lit ". " ++ text, true) :: frag_md_parts true (count + 1)%N rest
          else (indent ++ lit "- " ++ text, true) :: frag_md_parts true count rest
      | None, None => (indent ++ text, false) :: frag_md_parts false 0%N rest
      end
  end.
(** fragment.rs:308-321: list items that follow each other are separated by one
    line end, others by two. *)
Fixpoint frag_md_join (parts : list (str * bool)) : str :=
  match parts with
  | [] => []
  | [p] => fst p
  | p :: ((q :: _) as rest) => fst p ++ (if snd p && snd q then [10%N] else [10; 10]%N) ++ frag_md_join rest
  end.
(** fragment.rs:226-324 [to_markdown], without tables. *)
Definition frag_to_markdown (x : dfrag) : str :=
  match df_data x with None => [] | Some fbs => frag_md_join (frag_md_parts false 0%N fbs) end.
