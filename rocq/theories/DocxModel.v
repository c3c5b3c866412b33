(** Exporting a document as DOCX: what is handed to the library that writes the file.

    Source: crates/document_io/src/use_cases/export_docx_uc.rs. The file format itself
    (crate docx-rs) and failures while writing are left out. *)
From Coq Require Import SpecFloat.
From Verif Require Import Base FormatRunsModel RopeModel DocModel QueryModel ExportModel TableModel FormatApiModel.
From Coq Require Import Ascii String.
Local Open Scope Z_scope.

(** ** Paragraphs *)
(** A run of text: bold, italic, underlined, struck out, in Courier New. *)
Record drun := mk_drun { dr_text : str; dr_bold : bool; dr_italic : bool; dr_underline : bool; dr_strike : bool; dr_courier : bool }.
(** A paragraph: the number of its heading style, line spacing in 240ths, lines kept together. *)
Record dpara := mk_dpara { dp_heading : option Z; dp_spacing : option Z; dp_keep : bool; dp_runs : list drun }.

(** export_docx_uc.rs:194-225, one element. *)
Definition docx_run (s : segment) : list drun :=
  let '(text, f) := match s with
                    | SegText t f => (t, f)
                    | SegImage i => (lit "[Image: " ++ iname i ++ lit "]", ifmt i)
                    end%list in
  match text with
  | [] => []
  | _ => [mk_drun text (is_on (font_bold f)) (is_on (font_italic f)) (is_on (font_underline f)) (is_on (font_strikeout f)) (is_mono f)]
  end.
Definition docx_runs (d : doc) (i : id) : res (list drun) := let! ss := block_segments d i in Ok (flat_map docx_run ss).
(** f64, as f32 in [FormatApiModel]; [as i32]: towards zero, saturating. *)
Definition f64_of (v : Z) : spec_float := binary_normalize 53 1024 v 0 false.
Definition f64_to_i32 (x : spec_float) : Z := clamp (- 2 ^ 31) (2 ^ 31 - 1) (f32_to_i64 x).
(** export_docx_uc.rs:177-179. *)
Definition spacing (lh : Z) : Z := f64_to_i32 (SFmul 53 1024 (SFdiv 53 1024 (f64_of lh) (f64_of 1000)) (f64_of 240)).
(** export_docx_uc.rs:160-226, one block. *)
Definition docx_para (d : doc) (b : block) : res dpara :=
  let! runs := docx_runs d (b_id b) in
  let f := b_fmt b in
  Ok (mk_dpara (option_map (clamp 1 6) (f_heading_level f)) (option_map spacing (f_line_height f)) (is_on (f_non_breakable_lines f)) runs).

(** export_docx_uc.rs:113-237 for a document of one frame. [cancelled n] is what the
    [n]th look at the cancel flag sees. The result is the paragraphs and their number;
    [None] stands for the error that reports the cancelling. *)
Fixpoint docx_paras (d : doc) (cancelled : nat -> bool) (n : nat) (bs : list block) : res (option (list dpara)) :=
  match bs with
  | [] => Ok (Some [])
  | b :: rest =>
      if cancelled n then Ok None
      else
        let! p := docx_para d b in
        let! more := docx_paras d cancelled (S n) rest in
        Ok (option_map (cons p) more)
  end.
(** export_docx_uc.rs:52-281: the file written, if any, and the result. [writable]: the
    directory is there and the file can be created. *)
Definition export_docx (writable : bool) (cancelled : nat -> bool) (d : doc) : option (list dpara) * res Z :=
  if cancelled 0%nat then (None, Err)
  else match docx_paras d cancelled 1 (sort_blocks (get_multi d (d_fblocks d))) with
       | Ok (Some ps) => if writable then (Some ps, Ok (Z.of_nat (List.length ps))) else (None, Err)
       | Ok None => (None, Err)
       | Err => (None, Err)
       | Panic => (None, Panic)
       end.

(** ** Tables *)
(** A cell of the file: columns it takes, whether it starts ([true]) or continues
    ([false]) a vertical merge, and its paragraphs. *)
Record dcell (A : Type) := mk_dcell { dc_span : Z; dc_merge : option bool; dc_paras : list A }.
Arguments mk_dcell {A}. Arguments dc_span {A}. Arguments dc_merge {A}. Arguments dc_paras {A}.
Section Table.
Context {A : Type}.
(** The paragraph written for a block: export_docx_uc.rs:359-398. *)
Variable para : tblock -> A.
(** An empty paragraph. *)
Variable empty : A.

Definition covered (cov : list (Z * Z)) (r k : Z) : bool := existsb (fun p => (fst p =? r) && (snd p =? k)) cov.
(** export_docx_uc.rs:404-414: the slots that a cell covers besides its own. *)
Definition marks (rows cols r k rs cs : Z) : list (Z * Z) :=
  filter (fun p => (fst p <? rows) && (snd p <? cols) && negb ((fst p =? r) && (snd p =? k)))
         (flat_map (fun sr => map (fun sc => (r + sr, k + sc)) (zrange cs)) (zrange rs)).
(** export_docx_uc.rs:317-422, one slot. *)
Definition docx_slot (d : tdoc) (cells : list tcell) (r k : Z) (cov : list (Z * Z)) : list (dcell A) * list (Z * Z) :=
  if covered cov r k then
    ((if (0 <? r) && existsb (fun c => (tc_col c =? k) && (tc_row c <? r) && (r <? tc_row c + tc_rs c)) cells
      then [mk_dcell 1 (Some false) []] else []), cov)
  else match find (fun c => (tc_row c =? r) && (tc_col c =? k)) cells with
       | Some c =>
           ([mk_dcell (if 1 <? tc_cs c then tc_cs c else 1) (if 1 <? tc_rs c then Some true else None)
                      (map para (sort_tblocks (tc_blocks c)))],
            cov ++ marks (t_rows d) (t_cols d) r k (tc_rs c) (tc_cs c))
       | None => ([mk_dcell 1 None [empty]], cov)
       end.
Fixpoint docx_row (d : tdoc) (cells : list tcell) (r : Z) (ks : list Z) (cov : list (Z * Z)) : list (dcell A) * list (Z * Z) :=
  match ks with
  | [] => ([], cov)
  | k :: rest =>
      let (x, cov) := docx_slot d cells r k cov in
      let (xs, cov) := docx_row d cells r rest cov in (x ++ xs, cov)
  end.
Fixpoint docx_rows (d : tdoc) (cells : list tcell) (rs : list Z) (cov : list (Z * Z)) : list (list (dcell A)) :=
  match rs with
  | [] => []
  | r :: rest => let (x, cov) := docx_row d cells r (zrange (t_cols d)) cov in x :: docx_rows d cells rest cov
  end.
(** export_docx_uc.rs:286-432 [render_table_docx], without the widths. *)
Definition docx_table (d : tdoc) : list (list (dcell A)) := docx_rows d (sort_cells (t_cells d)) (zrange (t_rows d)) [].

(** A document with one table, export_docx_uc.rs:113-140: the frames of the document are
    the main frame, the frames of the cells and the frame that anchors the table
    (insert_table_uc.rs:319-372). *)
Inductive delem := DPara (p : A) | DTable (t : list (list (dcell A))).
Definition docx_with_table (d : tdoc) : list delem := map (fun b => DPara (para b)) (sort_tblocks (t_others d)) ++ [DTable (docx_table d)].
End Table.
