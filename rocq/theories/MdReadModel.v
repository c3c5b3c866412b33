(** Reading Markdown: crates/common/src/parser_tools/content_parser.rs:121-493.
    The events come from the pulldown-cmark library, which is not modelled. *)
From Verif Require Import Base RopeModel ListModel ListDocModel ImportModel.

(** The pulldown-cmark events [parse_markdown] looks at. Start and end tags are
    separate; [EOther] stands for the events it passes over (images, HTML,
    rules, footnotes, task markers). *)
Inductive event :=
| EStartParagraph | EEndParagraph
| EStartHeading (level : Z) | EEndHeading
| EStartList (ordered : bool) | EEndList
| EStartItem | EEndItem
| EStartCode (language : option str) | EEndCode
| EStartTable | EEndTable | EStartHead | EEndHead | EStartRow | EEndRow | EStartCell | EEndCell
| EStartEmphasis | EEndEmphasis | EStartStrong | EEndStrong | EStartStrike | EEndStrike
| EStartLink (href : str) | EEndLink
| EText (t : str) | ECode (t : str) | ESoftBreak | EHardBreak
| EStartQuote | EEndQuote | EOther.

(** content_parser.rs:128-155, the variables of the loop. *)
Record mdstate := mk_mdstate {
  m_done : list pelement;
  m_spans : list span;
  m_heading : option Z;
  m_list : option list_style;
  m_code : bool;
  m_language : option str;
  m_quotes : nat;
  m_in_block : bool;
  m_bold : bool; m_italic : bool; m_strike : bool; m_href : option str;
  m_stack : list (option list_style);
  m_indent : nat;
  m_in_table : bool; m_in_head : bool;
  m_rows : list (list (list span));
  m_cells : list (list span);
  m_cell : list span;
  m_header_rows : nat
}.
Definition md_start : mdstate :=
  mk_mdstate [] [] None None false None 0 false false false false None [] 0 false false [] [] [] 0.

Definition upd_done s x := mk_mdstate x (m_spans s) (m_heading s) (m_list s) (m_code s) (m_language s) (m_quotes s) (m_in_block s) (m_bold s) (m_italic s) (m_strike s) (m_href s) (m_stack s) (m_indent s) (m_in_table s) (m_in_head s) (m_rows s) (m_cells s) (m_cell s) (m_header_rows s).
Definition upd_spans s x := mk_mdstate (m_done s) x (m_heading s) (m_list s) (m_code s) (m_language s) (m_quotes s) (m_in_block s) (m_bold s) (m_italic s) (m_strike s) (m_href s) (m_stack s) (m_indent s) (m_in_table s) (m_in_head s) (m_rows s) (m_cells s) (m_cell s) (m_header_rows s).
Definition upd_heading s x := mk_mdstate (m_done s) (m_spans s) x (m_list s) (m_code s) (m_language s) (m_quotes s) (m_in_block s) (m_bold s) (m_italic s) (m_strike s) (m_href s) (m_stack s) (m_indent s) (m_in_table s) (m_in_head s) (m_rows s) (m_cells s) (m_cell s) (m_header_rows s).
Definition upd_list s x := mk_mdstate (m_done s) (m_spans s) (m_heading s) x (m_code s) (m_language s) (m_quotes s) (m_in_block s) (m_bold s) (m_italic s) (m_strike s) (m_href s) (m_stack s) (m_indent s) (m_in_table s) (m_in_head s) (m_rows s) (m_cells s) (m_cell s) (m_header_rows s).
Definition upd_code s x := mk_mdstate (m_done s) (m_spans s) (m_heading s) (m_list s) x (m_language s) (m_quotes s) (m_in_block s) (m_bold s) (m_italic s) (m_strike s) (m_href s) (m_stack s) (m_indent s) (m_in_table s) (m_in_head s) (m_rows s) (m_cells s) (m_cell s) (m_header_rows s).
Definition upd_language s x := mk_mdstate (m_done s) (m_spans s) (m_heading s) (m_list s) (m_code s) x (m_quotes s) (m_in_block s) (m_bold s) (m_italic s) (m_strike s) (m_href s) (m_stack s) (m_indent s) (m_in_table s) (m_in_head s) (m_rows s) (m_cells s) (m_cell s) (m_header_rows s).
Definition upd_quotes s x := mk_mdstate (m_done s) (m_spans s) (m_heading s) (m_list s) (m_code s) (m_language s) x (m_in_block s) (m_bold s) (m_italic s) (m_strike s) (m_href s) (m_stack s) (m_indent s) (m_in_table s) (m_in_head s) (m_rows s) (m_cells s) (m_cell s) (m_header_rows s).
Definition upd_in_block s x := mk_mdstate (m_done s) (m_spans s) (m_heading s) (m_list s) (m_code s) (m_language s) (m_quotes s) x (m_bold s) (m_italic s) (m_strike s) (m_href s) (m_stack s) (m_indent s) (m_in_table s) (m_in_head s) (m_rows s) (m_cells s) (m_cell s) (m_header_rows s).
Definition upd_bold s x := mk_mdstate (m_done s) (m_spans s) (m_heading s) (m_list s) (m_code s) (m_language s) (m_quotes s) (m_in_block s) x (m_italic s) (m_strike s) (m_href s) (m_stack s) (m_indent s) (m_in_table s) (m_in_head s) (m_rows s) (m_cells s) (m_cell s) (m_header_rows s).
Definition upd_italic s x := mk_mdstate (m_done s) (m_spans s) (m_heading s) (m_list s) (m_code s) (m_language s) (m_quotes s) (m_in_block s) (m_bold s) x (m_strike s) (m_href s) (m_stack s) (m_indent s) (m_in_table s) (m_in_head s) (m_rows s) (m_cells s) (m_cell s) (m_header_rows s).
Definition upd_strike s x := mk_mdstate (m_done s) (m_spans s) (m_heading s) (m_list s) (m_code s) (m_language s) (m_quotes s) (m_in_block s) (m_bold s) (m_italic s) x (m_href s) (m_stack s) (m_indent s) (m_in_table s) (m_in_head s) (m_rows s) (m_cells s) (m_cell s) (m_header_rows s).
Definition upd_href s x := mk_mdstate (m_done s) (m_spans s) (m_heading s) (m_list s) (m_code s) (m_language s) (m_quotes s) (m_in_block s) (m_bold s) (m_italic s) (m_strike s) x (m_stack s) (m_indent s) (m_in_table s) (m_in_head s) (m_rows s) (m_cells s) (m_cell s) (m_header_rows s).
Definition upd_stack s x := mk_mdstate (m_done s) (m_spans s) (m_heading s) (m_list s) (m_code s) (m_language s) (m_quotes s) (m_in_block s) (m_bold s) (m_italic s) (m_strike s) (m_href s) x (m_indent s) (m_in_table s) (m_in_head s) (m_rows s) (m_cells s) (m_cell s) (m_header_rows s).
Definition upd_indent s x := mk_mdstate (m_done s) (m_spans s) (m_heading s) (m_list s) (m_code s) (m_language s) (m_quotes s) (m_in_block s) (m_bold s) (m_italic s) (m_strike s) (m_href s) (m_stack s) x (m_in_table s) (m_in_head s) (m_rows s) (m_cells s) (m_cell s) (m_header_rows s).
(** The table variables together. *)
Definition upd_table s in_table in_head rows cells cell header := mk_mdstate (m_done s) (m_spans s) (m_heading s) (m_list s) (m_code s) (m_language s) (m_quotes s) (m_in_block s) (m_bold s) (m_italic s) (m_strike s) (m_href s) (m_stack s) (m_indent s) in_table in_head rows cells cell header.

(** A parsed block without style fields, pushed with the spans collected so far. *)
Definition push_block (s : mdstate) (heading : option Z) (l : option list_style) (indent : nat) (code : bool) (lang : option str)
  : mdstate :=
  upd_spans
    (upd_done s (m_done s ++ [PBlock (mk_pblock (m_spans s) heading l indent code lang (m_quotes s) None None None None)])) [].
(** content_parser.rs:368-423: a span goes to the cell of a table, or to the
    block. *)
Definition push_span (s : mdstate) (t : str) (code : bool) : mdstate :=
  let x := mk_span t (m_bold s) (m_italic s) false (m_strike s) code (m_href s) in
  if m_in_table s
  then upd_table s (m_in_table s) (m_in_head s) (m_rows s) (m_cells s) (m_cell s ++ [x]) (m_header_rows s)
  else upd_spans s (m_spans s ++ [x]).
Definition has_spans (s : mdstate) : bool := match m_spans s with [] => false | _ => true end.
(** content_parser.rs:272-276: the newline at the end of the last span of a
    code block is removed. *)
Definition drop_newline (t : str) : str :=
  match rev t with c :: r => if N.eqb c NL then rev r else t | [] => t end.
Fixpoint trim_code (l : list span) : list span :=
  match l with
  | [] => []
  | [x] => [mk_span (drop_newline (sp_text x)) (sp_bold x) (sp_italic x) (sp_underline x) (sp_strikeout x) (sp_code x) (sp_href x)]
  | x :: rest => x :: trim_code rest
  end.

(** content_parser.rs:157-440, one event. *)
Definition md_event (s : mdstate) (e : event) : mdstate :=
  match e with
  | EStartParagraph => upd_code (upd_heading (upd_in_block s true) None) false
  | EEndParagraph =>
      let s' := if has_spans s || m_in_block s
                then upd_heading (push_block s (m_heading s) (m_list s) (m_indent s) false None) None
                else s in
      upd_list (upd_in_block s' false) None
  | EStartHeading level => upd_code (upd_heading (upd_in_block s true) (Some level)) false
  | EEndHeading => upd_in_block (upd_heading (push_block s (m_heading s) None 0 false None) None) false
  | EStartList ordered => upd_stack s (Some (if ordered then Decimal else Disc) :: m_stack s)
  | EEndList => upd_stack s (tl (m_stack s))
  | EStartItem =>
      let s' := if has_spans s then push_block s None (m_list s) (m_indent s) false None else s in
      upd_indent (upd_list (upd_in_block s' true) (match m_stack s with Some st :: _ => Some st | _ => None end))
        (match m_stack s with [] => 0 | l => length l - 1 end)
  | EEndItem =>
      let s' := if has_spans s then push_block s None (m_list s) (m_indent s) false None else s in
      upd_list (upd_in_block s' false) None
  | EStartCode lang =>
      upd_language (upd_code (upd_in_block s true) true) (match lang with Some (c :: l) => Some (c :: l) | _ => None end)
  | EEndCode =>
      let s' := upd_spans s (trim_code (m_spans s)) in
      upd_code (upd_in_block (upd_language (push_block s' None None 0 true (m_language s)) None) false) false
  | EStartTable => upd_table s true false [] [] [] 0
  | EEndTable =>
      upd_table (upd_done s (m_done s ++ [PTable (mk_ptable (m_header_rows s) (m_rows s))]))
        false (m_in_head s) [] (m_cells s) (m_cell s) (m_header_rows s)
  | EStartHead => upd_table s (m_in_table s) true (m_rows s) [] (m_cell s) (m_header_rows s)
  | EEndHead => upd_table s (m_in_table s) false (m_rows s ++ [m_cells s]) [] (m_cell s) (m_header_rows s + 1)
  | EStartRow => upd_table s (m_in_table s) (m_in_head s) (m_rows s) [] (m_cell s) (m_header_rows s)
  | EEndRow =>
      if m_in_head s then s
      else upd_table s (m_in_table s) (m_in_head s) (m_rows s ++ [m_cells s]) [] (m_cell s) (m_header_rows s)
  | EStartCell => upd_table s (m_in_table s) (m_in_head s) (m_rows s) (m_cells s) [] (m_header_rows s)
  | EEndCell => upd_table s (m_in_table s) (m_in_head s) (m_rows s) (m_cells s ++ [m_cell s]) [] (m_header_rows s)
  | EStartEmphasis => upd_italic s true
  | EEndEmphasis => upd_italic s false
  | EStartStrong => upd_bold s true
  | EEndStrong => upd_bold s false
  | EStartStrike => upd_strike s true
  | EEndStrike => upd_strike s false
  | EStartLink href => upd_href s (Some href)
  | EEndLink => upd_href s None
  | EText t => let s' := push_span s t (m_code s) in if m_in_table s then s' else upd_in_block s' true
  | ECode t => let s' := push_span s t true in if m_in_table s then s' else upd_in_block s' true
  | ESoftBreak => push_span s [32%N] false
  | EHardBreak =>
      if has_spans s || m_in_block s
      then upd_heading (push_block s (m_heading s) (m_list s) (m_indent s) (m_code s) (m_language s)) None
      else s
  | EStartQuote => upd_quotes s (m_quotes s + 1)
  | EEndQuote => upd_quotes s (m_quotes s - 1)
  | EOther => s
  end.
(** The single empty paragraph of empty content: content_parser.rs:460-477,
    1070-1087. *)
Definition empty_block : pblock := mk_pblock [empty_span] None None 0 false None 0 None None None None.
(** content_parser.rs:121-480 [parse_markdown], on the events. *)
Definition parse_markdown (es : list event) : list pelement :=
  let s := fold_left md_event es md_start in
  let s := if has_spans s then push_block s (m_heading s) (m_list s) (m_indent s) (m_code s) (m_language s) else s in
  match m_done s with [] => [PBlock empty_block] | l => l end.

(** The parsed blocks, when they are outside block quotes and there is no table. *)
Fixpoint flat_blocks (l : list pelement) : option (list pblock) :=
  match l with
  | [] => Some []
  | PBlock b :: rest =>
      if pb_quotes b =? 0 then option_map (cons b) (flat_blocks rest) else None
  | PTable _ :: _ => None
  end.
(** content_parser.rs and import_markdown_uc.rs together: setting the content to a
    source with these events; [None] outside the model. *)
Definition import_markdown (L : ldoc) (es : list event) : option ldoc :=
  option_map (import_parsed false L) (flat_blocks (parse_markdown es)).
