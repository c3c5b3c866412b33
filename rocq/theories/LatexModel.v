(** Exporting a document as LaTeX.

    Source: crates/document_io/src/use_cases/export_latex_uc.rs. Flat documents:
    one frame whose [child_order] holds blocks only, so sub-frames (block quotes)
    and tables are left out. *)
From Coq Require Import Ascii String.
From Verif Require Import Base FormatRunsModel RopeModel DocModel QueryModel ListModel ListDocModel FragmentModel EscapeModel ExportModel.

Definition newline : str := [10%N].
(** [format!("\\{}{{{}}}", name, inner)]. *)
Definition command (name inner : str) : str := lit "\" ++ name ++ lit "{" ++ inner ++ lit "}".
Definition command_if (on : bool) (name inner : str) : str := if on then command name inner else inner.

(** export_latex_uc.rs:345-386, one element. *)
Definition latex_segment (s : segment) : str :=
  let text := match s with
              | SegText t _ => escape_latex t
              | SegImage i => command (lit "includegraphics") (escape_latex (iname i))
              end in
  match text with
  | [] => []
  | _ =>
      if starts_with (lit "\includegraphics") text then text
      else
        let f := match s with SegText _ f => f | SegImage i => ifmt i end in
        let x := command_if (is_mono f) (lit "texttt") text in
        let x := command_if (is_on (font_bold f)) (lit "textbf") x in
        let x := command_if (is_on (font_italic f)) (lit "textit") x in
        let x := command_if (is_on (font_underline f)) (lit "underline") x in
        let x := command_if (is_on (font_strikeout f)) (lit "sout") x in
        match anchor_href f with
        | Some href => lit "\href{" ++ escape_latex href ++ lit "}{" ++ x ++ lit "}"
        | None => x
        end
  end.
(** export_latex_uc.rs:330-389 [render_inline_latex]. *)
Definition latex_inline (d : doc) (i : id) : res str :=
  let! ss := block_segments d i in Ok (flat_map latex_segment ss).
(** export_latex_uc.rs:305-328 [render_raw_text]. *)
Definition latex_raw_segment (s : segment) : str := match s with SegText t _ => t | SegImage i => iname i end.
Definition latex_raw (d : doc) (i : id) : res str :=
  let! ss := block_segments d i in Ok (flat_map latex_raw_segment ss).

Section Latex.
(** [format!("{:.2}", lh as f64 / 1000.0)]. *)
Variable show_stretch : Z -> str.

(** export_latex_uc.rs:260-271. *)
Definition latex_heading (h : option Z) (inner : str) : str :=
  match h with
  | Some level =>
      command (match level with
               | 1 => lit "section" | 2 => lit "subsection" | 3 => lit "subsubsection" | _ => lit "paragraph"
               end%Z) inner
  | None => inner
  end.
(** export_latex_uc.rs:273-293. *)
Definition latex_wraps (f : bfmt) (content : str) : str :=
  let x := match f_line_height f with
           | Some lh => lit "{\setstretch{" ++ show_stretch lh ++ lit "}" ++ content ++ lit "}"
           | None => content
           end in
  let x := match f_direction f with Some 1%N => command (lit "RL") x | _ => x end in
  let x := match f_background_color f with
           | Some c => lit "\colorbox{" ++ c ++ lit "}{\parbox{\linewidth}{" ++ x ++ lit "}}"
           | None => x
           end in
  command_if (is_on (f_non_breakable_lines f)) (lit "mbox") x.
(** export_latex_uc.rs:257-297: a paragraph or a heading. *)
Definition latex_para (d : doc) (b : block) : res str :=
  let! inner := latex_inline d (b_id b) in
  Ok (latex_wraps (b_fmt b) (latex_heading (f_heading_level (b_fmt b)) inner)).
(** export_latex_uc.rs:248-256. *)
Definition latex_code (d : doc) (b : block) : res str :=
  let! raw := latex_raw d (b_id b) in
  Ok (lit "\begin{verbatim}" ++ newline ++ raw ++ newline ++ lit "\end{verbatim}").

(** export_latex_uc.rs:220, 241-246. *)
Definition latex_env (ordered : bool) : str := if ordered then lit "enumerate" else lit "itemize".
Definition latex_list (ordered : bool) (items : list str) : str :=
  lit "\begin{" ++ latex_env ordered ++ lit "}" ++ newline ++ join_with newline items ++ newline
  ++ lit "\end{" ++ latex_env ordered ++ lit "}".
(** export_latex_uc.rs:184-303 [render_blocks_latex]: the parts. The inner loop of
    223-240 over the items of a list is the argument [open]: the kind of the list
    and the items so far. *)
Fixpoint latex_blocks (L : ldoc) (open : option (bool * list str)) (bs : list block) : res (list str) :=
  let closed := match open with Some (o, items) => [latex_list o items] | None => [] end in
  match bs with
  | [] => Ok closed
  | b :: rest =>
      match export_list L b with
      | Some e =>
          let! inner := latex_inline (l_doc L) (b_id b) in
          let item := lit "\item " ++ inner in
          latex_blocks L (Some (match open with
                                | Some (o, items) => (o, items ++ [item])
                                | None => (is_ordered (l_style e), [item])
                                end)) rest
      | None =>
          let! x := if is_on (f_is_code_block (b_fmt b)) then latex_code (l_doc L) b else latex_para (l_doc L) b in
          let! more := latex_blocks L None rest in
          Ok (closed ++ x :: more)
      end
  end.
(** export_latex_uc.rs:99-112. *)
Definition latex_file (class body : str) : str :=
  lit "\documentclass{" ++ (match class with [] => lit "article" | _ => class end) ++ lit "}" ++ newline
  ++ lit "\usepackage{hyperref}" ++ newline ++ lit "\usepackage{ulem}" ++ newline ++ lit "\usepackage{graphicx}" ++ newline
  ++ lit "\usepackage{setspace}" ++ newline ++ lit "\usepackage{xcolor}" ++ newline
  ++ lit "\begin{document}" ++ newline ++ newline ++ body ++ newline ++ newline ++ lit "\end{document}".
(** export_latex_uc.rs:46-116 [execute], 118-182 [render_frame_latex]. *)
Definition export_latex (class : str) (preamble : bool) (L : ldoc) : res str :=
  let! parts := latex_blocks L None (export_blocks L) in
  let body := join_with (newline ++ newline) parts in
  Ok (if preamble then latex_file class body else body).
End Latex.
