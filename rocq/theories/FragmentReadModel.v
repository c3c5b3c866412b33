(** Fragments made from Markdown and from HTML, and inserting them.

    Sources: crates/public_api/src/fragment.rs, crates/public_api/src/cursor.rs.
    As in MdReadModel and HtmlReadModel, Markdown is given as the events of its
    reader and HTML as its tree. Fragments with tables are not modelled. *)
From Verif Require Import Base FormatRunsModel RopeModel DocModel QueryModel ListModel ListDocModel FragmentModel
  ImportModel MdReadModel HtmlReadModel.

(** fragment.rs:621-657 [span_to_fragment_element]: the format
    [character_format_from_span] gives outside code blocks. *)
Definition element_of (s : span) : segment := SegText (sp_text s) (span_fmt s false).
(** fragment.rs:669-704: a parsed block. Its code block flag, its language and
    its depth of block quotes are left out. *)
Definition fblock_of (b : pblock) : fblock :=
  mk_fblock (span_text (pb_spans b)) (map element_of (pb_spans b))
    (mk_bfmt None None None None None (pb_heading b) None None None []
       (pb_line_height b) (pb_non_breakable b) (pb_direction b) (pb_background b) None None)
    (option_map (fun st => mk_list st (Z.of_nat (pb_indent b)) [] []) (pb_list b)).
Fixpoint fragment_blocks (l : list pelement) : option (list fblock) :=
  match l with
  | [] => Some []
  | PBlock b :: rest => option_map (cons (fblock_of b)) (fragment_blocks rest)
  | PTable _ :: _ => None
  end.
(** fragment.rs:661-787 [parsed_elements_to_fragment] and
    [parsed_plain_text_from_data]; [None] if there are tables. *)
Definition fragment_of_parsed (l : list pelement) : option dfrag :=
  option_map (fun fbs => mk_dfrag (Some fbs) (join_lines (map fb_text fbs))) (fragment_blocks l).
(** fragment.rs:90-99 [from_html], [from_markdown]. *)
Definition fragment_from_html (lh : str -> option Z) (page : list dom) : option dfrag := fragment_of_parsed (parse_html lh page).
Definition fragment_from_markdown (es : list event) : option dfrag := fragment_of_parsed (parse_markdown es).
(** cursor.rs:573-583 [insert_html], [insert_markdown]. *)
Definition cursor_insert_html (lh : str -> option Z) (L : ldoc) (p a : nat) (page : list dom) : option (res (ldoc * option nat)) :=
  option_map (cursor_insert_fragment L p a) (fragment_from_html lh page).
Definition cursor_insert_markdown (L : ldoc) (p a : nat) (es : list event) : option (res (ldoc * option nat)) :=
  option_map (cursor_insert_fragment L p a) (fragment_from_markdown es).
