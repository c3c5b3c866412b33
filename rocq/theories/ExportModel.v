(** Exporting a document or a fragment as HTML, Markdown and LaTeX.

    Sources: crates/document_io/src/use_cases/export_{html,markdown,latex}_uc.rs,
    crates/public_api/src/fragment.rs. Flat documents: one frame whose
    [child_order] holds blocks only, so sub-frames (block quotes) and tables are
    left out. Alignments 0, 1, 2, 3 are left, right, center, justify; direction
    1 is right to left. *)
From Coq Require Import Ascii String.
From Verif Require Import Base FormatRunsModel RopeModel DocModel QueryModel ListModel ListDocModel FragmentModel EscapeModel.

(** A Rust string literal. *)
Definition lit (x : string) : str := map N_of_ascii (list_ascii_of_string x).
Arguments lit _%string_scope.
Definition str_eqb (a b : str) : bool := if list_eq_dec N.eq_dec a b then true else false.
(** [str::starts_with]. *)
Definition starts_with (p t : str) : bool := str_eqb (firstn (length p) t) p.
(** [format!("{}", n)] of an [i64]. *)
Definition show_int (z : Z) : str := if (z <? 0)%Z then 45%N :: decimal (Z.abs_N z) else decimal (Z.abs_N z).
(** [Vec::join]. *)
Fixpoint join_with (sep : str) (l : list str) : str :=
  match l with [] => [] | [x] => x | x :: rest => x ++ sep ++ join_with sep rest end.
(** [x == Some(true)]. *)
Definition is_on (x : option bool) : bool := match x with Some b => b | None => false end.
(** [fmt_font_family.as_deref() == Some("monospace")]. *)
Definition is_mono (f : cfmt) : bool := match font_family f with Some n => str_eqb n (lit "monospace") | None => false end.
(** export_html_uc.rs:266-273, fragment.rs:343-352: numbered list styles. *)
Definition is_ordered (st : list_style) : bool := match st with Disc | Circle | Square => false | _ => true end.
(** The list of a block, when it exists. *)
Definition export_list (L : ldoc) (b : block) : option list_entity :=
  match b_list b with Some l => get_list L l | None => None end.
(** The blocks of the frame, in display order. *)
Definition export_blocks (L : ldoc) : list block := get_multi (l_doc L) (d_order (l_doc L)).

Definition tag (name inner : str) : str := lit "<" ++ name ++ lit ">" ++ inner ++ lit "</" ++ name ++ lit ">".
Definition tag_if (on : bool) (name inner : str) : str := if on then tag name inner else inner.

(** ** HTML *)
Section Html.
(** [format!("{}", lh as f64 / 1000.0)]. *)
Variable show_height : Z -> str.

(** export_html_uc.rs:478-490. *)
Definition html_image (i : image) : str :=
  lit "<img src=""" ++ escape_html (iname i) ++ lit """ width=""" ++ show_int (iwidth i)
  ++ lit """ height=""" ++ show_int (iheight i) ++ lit """ />".
(** export_html_uc.rs:474-524, one element. *)
Definition html_segment (s : segment) : str :=
  let text := match s with SegText t _ => escape_html t | SegImage i => html_image i end in
  match text with
  | [] => []
  | _ =>
      if starts_with (lit "<img ") text then text
      else
        let f := match s with SegText _ f => f | SegImage i => ifmt i end in
        let x := tag_if (is_mono f) (lit "code") text in
        let x := tag_if (is_on (font_bold f)) (lit "strong") x in
        let x := tag_if (is_on (font_italic f)) (lit "em") x in
        let x := tag_if (is_on (font_underline f)) (lit "u") x in
        let x := tag_if (is_on (font_strikeout f)) (lit "s") x in
        match anchor_href f with
        | Some href => lit "<a href=""" ++ escape_html href ++ lit """>" ++ x ++ lit "</a>"
        | None => x
        end
  end.
(** export_html_uc.rs:459-527 [render_inline_html]. *)
Definition html_inline (d : doc) (i : id) : res str :=
  let! ss := block_segments d i in Ok (flat_map html_segment ss).

(** export_html_uc.rs:229-236 and export_markdown_uc.rs:262-269: the text of a
    code block; images are left out. *)
Definition raw_segment (s : segment) : str := match s with SegText t _ => t | SegImage _ => [] end.
(** export_html_uc.rs:220-252. *)
Definition html_code (d : doc) (b : block) : res str :=
  let! ss := block_segments d (b_id b) in
  let code_open := match f_code_language (b_fmt b) with
                   | Some (c :: l) => lit "<code class=""language-" ++ escape_html (c :: l) ++ lit """>"
                   | _ => lit "<code>"
                   end in
  Ok (lit "<pre>" ++ code_open ++ escape_html (flat_map raw_segment ss) ++ lit "</code></pre>").

(** export_html_uc.rs:308-330. *)
Definition html_align (a : N) : str :=
  match a with 0 => lit "left" | 1 => lit "right" | 2 => lit "center" | _ => lit "justify" end%N.
Definition html_styles (f : bfmt) : list str :=
  match f_alignment f with Some a => [lit "text-align: " ++ html_align a] | None => [] end
  ++ match f_line_height f with Some lh => [lit "line-height: " ++ show_height lh] | None => [] end
  ++ (if is_on (f_non_breakable_lines f) then [lit "white-space: pre"] else [])
  ++ match f_direction f with Some 1%N => [lit "direction: rtl"] | _ => [] end
  ++ match f_background_color f with Some c => [lit "background-color: " ++ c] | None => [] end.
Definition html_style_attr (f : bfmt) : str :=
  match html_styles f with [] => [] | l => lit " style=""" ++ join_with (lit "; ") l ++ lit """" end.
(** export_html_uc.rs:304-345: a paragraph or a heading. *)
Definition html_para (d : doc) (b : block) : res str :=
  let! inner := html_inline d (b_id b) in
  let style := html_style_attr (b_fmt b) in
  Ok (match f_heading_level (b_fmt b) with
      | Some level =>
          let n := show_int (Z.max 1 (Z.min 6 level)) in
          lit "<h" ++ n ++ style ++ lit ">" ++ inner ++ lit "</h" ++ n ++ lit ">"
      | None => lit "<p" ++ style ++ lit ">" ++ inner ++ lit "</p>"
      end).

Definition html_list (ordered : bool) (items : list str) : str :=
  tag (if ordered then lit "ol" else lit "ul") (concat items).
(** export_html_uc.rs:209-349 [render_blocks_html]. The inner loop of 279-296
    over the items of a list is the argument [open]: the kind of the list and
    the items so far. *)
Fixpoint html_blocks (L : ldoc) (open : option (bool * list str)) (bs : list block) : res str :=
  match bs with
  | [] => Ok (match open with Some (o, items) => html_list o items | None => [] end)
  | b :: rest =>
      match open, export_list L b with
      | Some (o, items), Some _ =>
          let! inner := html_inline (l_doc L) (b_id b) in
          html_blocks L (Some (o, items ++ [tag (lit "li") inner])) rest
      | _, l =>
          let closed := match open with Some (o, items) => html_list o items | None => [] end in
          if is_on (f_is_code_block (b_fmt b)) then
            let! x := html_code (l_doc L) b in
            let! more := html_blocks L None rest in
            Ok (closed ++ x ++ more)
          else
            match l with
            | Some e =>
                let! inner := html_inline (l_doc L) (b_id b) in
                let! more := html_blocks L (Some (is_ordered (l_style e), [tag (lit "li") inner])) rest in
                Ok (closed ++ more)
            | None =>
                let! x := html_para (l_doc L) b in
                let! more := html_blocks L None rest in
                Ok (closed ++ x ++ more)
            end
      end
  end.
Definition html_page (body : str) : str :=
  lit "<html><head><meta charset=""utf-8""></head><body>" ++ body ++ lit "</body></html>".
(** export_html_uc.rs:42-105 [execute]. *)
Definition export_html (L : ldoc) : res str :=
  let! body := html_blocks L None (export_blocks L) in Ok (html_page body).

(** fragment.rs:417-466 [push_inline_html], one element. *)
Definition frag_html_image (i : image) : str :=
  lit "<img src=""" ++ escape_html_fragment (iname i) ++ lit """ width=""" ++ show_int (iwidth i)
  ++ lit """ height=""" ++ show_int (iheight i) ++ lit """>".
Definition frag_html_segment (s : segment) : str :=
  let text := match s with SegText t _ => escape_html_fragment t | SegImage i => frag_html_image i end in
  let f := match s with SegText _ f => f | SegImage i => ifmt i end in
  let x := tag_if (is_mono f) (lit "code") text in
  let x := tag_if (is_on (font_bold f)) (lit "strong") x in
  let x := tag_if (is_on (font_italic f)) (lit "em") x in
  let x := tag_if (is_on (font_underline f)) (lit "u") x in
  let x := tag_if (is_on (font_strikeout f)) (lit "s") x in
  match is_on (is_anchor f), anchor_href f with
  | true, Some href => lit "<a href=""" ++ escape_html_fragment href ++ lit """>" ++ x ++ lit "</a>"
  | _, _ => x
  end.
Definition frag_html_inline (ss : list segment) : str := flat_map frag_html_segment ss.

(** fragment.rs:380-415 [block_style_attr]. *)
Definition frag_styles (f : bfmt) : list str :=
  match f_alignment f with Some a => [lit "text-align: " ++ html_align a] | None => [] end
  ++ match f_indent f with Some n => if (0 <? n)%Z then [lit "margin-left: " ++ show_int n ++ lit "em"] else [] | None => [] end
  ++ match f_text_indent f with Some n => if (n =? 0)%Z then [] else [lit "text-indent: " ++ show_int n ++ lit "px"] | None => [] end
  ++ match f_top_margin f with Some n => [lit "margin-top: " ++ show_int n ++ lit "px"] | None => [] end
  ++ match f_bottom_margin f with Some n => [lit "margin-bottom: " ++ show_int n ++ lit "px"] | None => [] end
  ++ match f_left_margin f with Some n => [lit "margin-left: " ++ show_int n ++ lit "px"] | None => [] end
  ++ match f_right_margin f with Some n => [lit "margin-right: " ++ show_int n ++ lit "px"] | None => [] end.
(** fragment.rs:190-208. *)
Definition frag_html_para (fb : fblock) : str :=
  let inner := frag_html_inline (fb_elems fb) in
  match f_heading_level (fb_fmt fb) with
  | Some level => tag (lit "h" ++ show_int (Z.max 1 (Z.min 6 level))) inner
  | None =>
      match frag_styles (fb_fmt fb) with
      | [] => tag (lit "p") inner
      | l => lit "<p style=""" ++ join_with (lit "; ") l ++ lit """>" ++ inner ++ lit "</p>"
      end
  end.
(** fragment.rs:155-211, the loop over the blocks; the inner loop of 172-184 is
    the argument [open]: the kind of the list and the items so far. *)
Fixpoint frag_html_blocks (open : option (bool * list str)) (fbs : list fblock) : str :=
  match fbs with
  | [] => match open with Some (o, items) => html_list o items | None => [] end
  | fb :: rest =>
      let item := tag (lit "li") (frag_html_inline (fb_elems fb)) in
      let closed := match open with Some (o, items) => html_list o items | None => [] end in
      match open, fb_list fb with
      | Some (o, items), Some e =>
          if Bool.eqb (is_ordered (l_style e)) o then frag_html_blocks (Some (o, items ++ [item])) rest
          else closed ++ frag_html_blocks (Some (is_ordered (l_style e), [item])) rest
      | None, Some e => frag_html_blocks (Some (is_ordered (l_style e), [item])) rest
      | _, None => closed ++ frag_html_para fb ++ frag_html_blocks None rest
      end
  end.
(** fragment.rs:127-224 [to_html], without tables. *)
Definition frag_to_html (x : dfrag) : str :=
  match df_data x with
  | None => html_page []
  | Some [fb] => html_page (if is_inline_only fb then frag_html_inline (fb_elems fb) else frag_html_blocks None [fb])
  | Some fbs => html_page (frag_html_blocks None fbs)
  end.
End Html.
