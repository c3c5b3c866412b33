(** How exported tables are read. *)
From Coq Require Import String.
From Verif Require Import Base FormatRunsModel RopeModel QueryModel TableModel TableSpec ExportModel.
Local Open Scope Z_scope.

(** ** HTML *)
(** A cell: rows and columns it takes, and what is in it. *)
Record td := mk_td { td_rows : Z; td_cols : Z; td_in : str }.
Definition show_span (name : str) (n : Z) : str := if 1 <? n then lit " " ++ name ++ lit "=""" ++ show_int n ++ lit """" else [].
Definition show_td (t : td) : str :=
  lit "<td" ++ show_span (lit "rowspan") (td_rows t) ++ show_span (lit "colspan") (td_cols t) ++ lit ">" ++ td_in t ++ lit "</td>".
Definition show_tr (row : list td) : str := lit "<tr>" ++ flat_map show_td row ++ lit "</tr>".
Definition show_table (border : option Z) (rows : list (list td)) : str :=
  lit "<table" ++ match border with Some n => lit " border=""" ++ show_int n ++ lit """" | None => [] end ++ lit ">"
  ++ flat_map show_tr rows ++ lit "</table>".
(** HTML, "forming a table": the cells of a row go, in order, to the slots that no
    cell placed so far takes. A cell placed: row, column, cell. *)
Definition placed_td := (Z * Z * td)%type.
Definition takes (p : placed_td) (r k : Z) : Prop :=
  let '(r0, k0, t) := p in r0 <= r < r0 + td_rows t /\ k0 <= k < k0 + td_cols t.
Definition taken (ps : list placed_td) (r k : Z) : Prop := exists p, In p ps /\ takes p r k.
Inductive row_laid (r : Z) : list placed_td -> Z -> list td -> list placed_td -> Prop :=
| row_end ps k : row_laid r ps k [] ps
| row_skip ps k t rest ps' : taken ps r k -> row_laid r ps (k + 1) (t :: rest) ps' -> row_laid r ps k (t :: rest) ps'
| row_cell ps k t rest ps' : ~ taken ps r k -> row_laid r (ps ++ [(r, k, t)]) (k + 1) rest ps' -> row_laid r ps k (t :: rest) ps'.
Inductive laid : list placed_td -> Z -> list (list td) -> list placed_td -> Prop :=
| laid_end ps r : laid ps r [] ps
| laid_row ps r row rest ps1 ps2 : row_laid r ps 0 row ps1 -> laid ps1 (r + 1) rest ps2 -> laid ps r (row :: rest) ps2.

(** ** Markdown *)
(** A line of a pipe table: cells end at a bar, unless a backslash comes before
    it; spaces around are not part of them. *)
Fixpoint bars (cur : str) (s : str) : list str :=
  match s with
  | [] => [rev cur]
  | 92%N :: c :: rest => bars (c :: 92%N :: cur) rest
  | 124%N :: rest => rev cur :: bars [] rest
  | c :: rest => bars (c :: cur) rest
  end.
Fixpoint skip_spaces (s : str) : str := match s with 32%N :: rest => skip_spaces rest | _ => s end.
Definition trimmed (s : str) : str := rev (skip_spaces (rev (skip_spaces s))).
(** Bars at both ends. *)
Definition line_cells (s : str) : option (list str) :=
  match s with 124%N :: rest => match rev (bars [] rest) with [] :: cells => Some (map trimmed (rev cells)) | _ => None end | _ => None end.
(** Lines. *)
Fixpoint split_lines (cur : str) (s : str) : list str :=
  match s with [] => [rev cur] | 10%N :: rest => rev cur :: split_lines [] rest | c :: rest => split_lines (c :: cur) rest end.
Fixpoint all_some {A} (l : list (option A)) : option (list A) :=
  match l with [] => Some [] | Some x :: rest => option_map (cons x) (all_some rest) | None :: _ => None end.
(** A header, a line of dashes of the same width, and the other rows. *)
Definition read_pipes (s : str) : option (list (list str)) :=
  match all_some (map line_cells (split_lines [] s)) with
  | Some (head :: dashes :: rest) =>
      if (forallb (str_eqb (lit "---")) dashes && Nat.eqb (List.length dashes) (List.length head))%bool then Some (head :: rest) else None
  | _ => None
  end.
(** Text in which every bar has its backslash, and no backslash is last. *)
Fixpoint barred (s : str) : Prop :=
  match s with [] => True | 92%N :: rest => match rest with [] => False | _ :: rest' => barred rest' end | 124%N :: _ => False | _ :: rest => barred rest end.

(** ** LaTeX *)
(** A cell of a tabular: how many columns and rows it takes, and its text. *)
Record lx := mk_lx { lx_rows : Z; lx_cols : Z; lx_in : str }.
Definition show_lx (t : lx) : str :=
  let rows x := if 1 <? lx_rows t then lit "\multirow{" ++ show_int (lx_rows t) ++ lit "}{*}{" ++ x ++ lit "}" else x in
  let cols x := if 1 <? lx_cols t then lit "\multicolumn{" ++ show_int (lx_cols t) ++ lit "}{|l|}{" ++ x ++ lit "}" else x in
  cols (rows (lx_in t)).
Definition show_lx_row (row : list lx) : str := [10%N] ++ join_with (lit " & ") (map show_lx row) ++ lit " \\" ++ [10%N] ++ lit "\hline".
Definition show_tabular (cols : Z) (rows : list (list lx)) : str :=
  lit "\begin{tabular}{|" ++ join_with (lit "|") (repeat (lit "l") (Z.to_nat cols)) ++ lit "|}" ++ [10%N] ++ lit "\hline"
  ++ flat_map show_lx_row rows ++ [10%N] ++ lit "\end{tabular}".
(** Cells stand one after the other, each in the column after the one before,
    whatever the rows above are. *)
Fixpoint lx_columns (k : Z) (row : list lx) : list (Z * lx) :=
  match row with [] => [] | t :: rest => (k, t) :: lx_columns (k + lx_cols t) rest end.
Fixpoint lx_places (r : Z) (rows : list (list lx)) : list (Z * Z * lx) :=
  match rows with [] => [] | row :: rest => map (fun '(k, t) => (r, k, t)) (lx_columns 0 row) ++ lx_places (r + 1) rest end.
(** The paragraphs of a cell that have text. *)
Definition texts (inline : id -> str) (bs : list tblock) : list str :=
  filter (fun t => match t with [] => false | _ => true end) (map (fun b => inline (tb_id b)) bs).
(** Row [r], column [k] of rows that were read. *)
Definition pipe_at (rows : list (list str)) (r k : Z) : option str :=
  match nth_error rows (Z.to_nat r) with Some row => nth_error row (Z.to_nat k) | None => None end.
(** How often a text is in another. *)
Fixpoint begins (a s : str) : bool := match a, s with [], _ => true | x :: a, y :: s => ((x =? y)%N && begins a s)%bool | _, [] => false end.
Fixpoint times (a s : str) : nat := match s with [] => 0 | _ :: rest => (if begins a s then 1 else 0) + times a rest end.
(** The cells of the document's table where they are, as HTML and LaTeX cells. *)
Definition td_place (inline : id -> str) (c : tcell) : placed_td :=
  (tc_row c, tc_col c, mk_td (tc_rs c) (tc_cs c) (join_with (lit "<br/>") (texts inline (tc_blocks c)))).
Definition lx_place (inline : id -> str) (c : tcell) : Z * Z * lx :=
  (tc_row c, tc_col c, mk_lx (tc_rs c) (tc_cs c) (join_with (lit " ") (texts inline (tc_blocks c)))).
(** Text that is not code and has no link. *)
Definition wordy (s : segment) : Prop := match s with SegText t f => is_mono f = false /\ anchor_href f = None /\ ~ In 10%N t | SegImage _ => False end.
