(** Building a document from parsed content.

    Sources: crates/common/src/parser_tools/content_parser.rs (the parsed
    content and its character formats), crates/document_io/src/use_cases/
    import_{markdown,html}_uc.rs (the document built from it). Flat documents:
    the parsed blocks are outside block quotes and there are no parsed tables.
    Cancellation and progress are in LongOpModel. *)
From Coq Require Import Ascii String.
From Verif Require Import Base FormatRunsModel RopeModel DocModel ListModel ListDocModel.

(** content_parser.rs:5-13 [ParsedSpan]. *)
Record span := mk_span {
  sp_text : str; sp_bold : bool; sp_italic : bool; sp_underline : bool; sp_strikeout : bool; sp_code : bool;
  sp_href : option str
}.
Definition empty_span : span := mk_span [] false false false false false None.
(** content_parser.rs:90-102 [ParsedBlock]; direction 1 is right to left. *)
Record pblock := mk_pblock {
  pb_spans : list span;
  pb_heading : option Z;
  pb_list : option list_style;
  pb_indent : nat;
  pb_code : bool;
  pb_language : option str;
  pb_quotes : nat;
  pb_line_height : option Z;
  pb_non_breakable : option bool;
  pb_direction : option N;
  pb_background : option str
}.
(** content_parser.rs:23-36 [ParsedTable], [ParsedElement]; a cell is its spans. *)
Record ptable := mk_ptable { pt_header_rows : nat; pt_rows : list (list (list span)) }.
Inductive pelement := PBlock (b : pblock) | PTable (t : ptable).

(** content_parser.rs:1095-1118 [character_format_from_span]. *)
Definition monospace : str := map N_of_ascii (list_ascii_of_string "monospace").
Definition some_true (b : bool) : option bool := if b then Some true else None.
Definition span_fmt (s : span) (is_code_block : bool) : cfmt :=
  mk_cfmt (if sp_code s || is_code_block then Some monospace else None) None None
    (some_true (sp_bold s)) (some_true (sp_italic s)) (some_true (sp_underline s)) None (some_true (sp_strikeout s))
    None None (sp_href s) [] (match sp_href s with Some _ => Some true | None => None end) None None None.
(** content_parser.rs:1130-1160 [format_runs_from_spans]; [off] is
    [plain_text.len()]. *)
Fixpoint span_runs (off : nat) (spans : list span) (is_code_block : bool) : list run :=
  match spans with
  | [] => []
  | s :: rest =>
      let off' := off + blen (sp_text s) in
      if (off =? off') || cfmt_eqb (span_fmt s is_code_block) cfmt_default then span_runs off' rest is_code_block
      else mk_run off off' (span_fmt s is_code_block) :: span_runs off' rest is_code_block
  end.
Definition span_text (spans : list span) : str := flat_map sp_text spans.
Definition runs_from_spans (spans : list span) (is_code_block : bool) : str * list run :=
  (span_text spans, coalesce (span_runs 0 spans is_code_block)).

(** import_html_uc.rs:199-213 and import_markdown_uc.rs:188-198: the block made
    for a parsed block; Markdown import leaves the four style fields out. *)
Definition pblock_fmt (html : bool) (b : pblock) : bfmt :=
  mk_bfmt None None None None None (pb_heading b) None None None []
    (if html then pb_line_height b else None) (if html then pb_non_breakable b else None)
    (if html then pb_direction b else None) (if html then pb_background b else None)
    (some_true (pb_code b)) (pb_language b).
(** import_markdown_uc.rs:220-248 (import_html_uc.rs:237-265): the list of the block; [i] is the new
    block. *)
Definition join_list (L : ldoc) (g : grouper) (i : id) (b : pblock) : ldoc * grouper :=
  match pb_list b with
  | None => (L, reset g)
  | Some st =>
      match try_reuse g st (pb_indent b) with
      | (g', Some l) => (mk_ldoc (set_block_list (l_doc L) i (Some l)) (l_lists L) (l_next L), g')
      | (g', None) =>
          let '(L1, l) := new_list L (mk_list st (Z.of_nat (pb_indent b)) [] []) in
          (mk_ldoc (set_block_list (l_doc L1) i (Some l)) (l_lists L1) (l_next L1), register g' l st (pb_indent b))
      end
  end.
(** import_markdown_uc.rs:138-262 (import_html_uc.rs:149-279): the loop over the
    parsed blocks; [first] is [!emitted_any_main_block], [pos] is
    [document_position]. *)
Fixpoint import_blocks (html : bool) (L : ldoc) (g : grouper) (first : bool) (pos : Z) (bs : list pblock)
  : ldoc * list id :=
  match bs with
  | [] => (L, [])
  | b :: rest =>
      let '(text, runs) := runs_from_spans (pb_spans b) (pb_code b) in
      let '(d1, i) := create_block (l_doc L) pos None (pblock_fmt html b) in
      let rs := if first then d_rs d1 else rope_insert_block_boundary (d_rs d1) in
      let d2 := set_runs (set_rs d1 (rope_append_block rs i text)) i runs in
      let '(L3, g') := join_list (mk_ldoc d2 (l_lists L) (l_next L)) g i b in
      let '(L4, is_) :=
        import_blocks html L3 g' false
          (pos + Z.of_nat (length text) + match rest with [] => 0 | _ => 1 end)%Z rest in
      (L4, i :: is_)
  end.
(** import_markdown_uc.rs:60-435 [import_parsed_elements] and
    import_html_uc.rs:63-442 [execute]: the frames of the document are removed
    with their blocks, its lists stay. *)
Definition import_parsed (html : bool) (L : ldoc) (bs : list pblock) : ldoc :=
  let '(L1, is_) :=
    import_blocks html (mk_ldoc (clear_document (l_doc L)) (l_lists L) (l_next L)) [] true 0 bs in
  let d2 := set_order (l_doc L1) is_ in
  mk_ldoc (set_nblocks (set_chars d2 (sum_lengths (map (fun b => span_text (pb_spans b)) bs))) (Z.of_nat (length bs)))
    (l_lists L1) (l_next L1).
