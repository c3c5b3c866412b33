(** Tables in exported documents, and tables read back.

    Sources: crates/document_io/src/use_cases/export_{html,markdown,latex}_uc.rs,
    import_{html,markdown}_uc.rs, crates/common/src/parser_tools/content_parser.rs. *)
From Coq Require Import String.
From Verif Require Import Base RopeModel TableModel TableTextModel EscapeModel ExportModel.
Local Open Scope Z_scope.

Section Inline.
(** What the exporter makes of the text of one paragraph ([render_inline_html],
    [render_inline_markdown], [render_inline_latex]: see ExportModel, MdModel and
    LatexModel). *)
Variable inline : id -> str.

(** export_html_uc.rs:413-420, export_markdown_uc.rs:447-453: paragraphs with no
    text are left out. *)
Definition shown_parts (bs : list tblock) : list str :=
  filter (fun t => match t with [] => false | _ => true end) (map (fun b => inline (tb_id b)) bs).
(** [cells.iter().find(...)] on the sorted cells (export_html_uc.rs:394-396). *)
Definition starts_at (r k : Z) (c : tcell) : bool := (tc_row c =? r) && (tc_col c =? k).
Definition found (d : tdoc) (r k : Z) : option tcell := find (starts_at r k) (sort_cells (t_cells d)).

(** ** HTML *)
(** export_html_uc.rs:399-424. *)
Definition html_td (c : tcell) : str :=
  lit "<td" ++ (if 1 <? tc_rs c then lit " rowspan=""" ++ show_int (tc_rs c) ++ lit """" else [])
  ++ (if 1 <? tc_cs c then lit " colspan=""" ++ show_int (tc_cs c) ++ lit """" else [])
  ++ lit ">" ++ join_with (lit "<br/>") (shown_parts (tc_blocks c)) ++ lit "</td>".
(** 427-436: the slots below and beside the first one are marked. *)
Definition mark (d : tdoc) (c : tcell) (r k : Z) (covered : Z -> Z -> bool) : Z -> Z -> bool := fun r' k' =>
  covered r' k'
  || ((r <=? r') && (r' <? r + tc_rs c) && (k <=? k') && (k' <? k + tc_cs c) && negb ((r' =? r) && (k' =? k))
      && (r' <? t_rows d) && (k' <? t_cols d)).
(** 387-440: one row. *)
Fixpoint html_row (d : tdoc) (r : Z) (ks : list Z) (covered : Z -> Z -> bool) : str * (Z -> Z -> bool) :=
  match ks with
  | [] => ([], covered)
  | k :: rest =>
      if covered r k then html_row d r rest covered
      else
        match found d r k with
        | Some c => let '(s, covered') := html_row d r rest (mark d c r k covered) in (html_td c ++ s, covered')
        | None => let '(s, covered') := html_row d r rest covered in (lit "<td></td>" ++ s, covered')
        end
  end.
Fixpoint html_rows (d : tdoc) (rs : list Z) (covered : Z -> Z -> bool) : str :=
  match rs with
  | [] => []
  | r :: rest =>
      let '(s, covered') := html_row d r (zrange (t_cols d)) covered in
      lit "<tr>" ++ s ++ lit "</tr>" ++ html_rows d rest covered'
  end.
(** export_html_uc.rs:357-449 [render_table_html]; [border]: [fmt_border]. *)
Definition html_table (border : option Z) (d : tdoc) : str :=
  lit "<table" ++ match border with Some n => lit " border=""" ++ show_int n ++ lit """" | None => [] end ++ lit ">"
  ++ html_rows d (zrange (t_rows d)) (fun _ _ => false) ++ lit "</table>".

(** ** Markdown *)
(** export_markdown_uc.rs:428-457: the texts by row and column; a later cell
    overwrites an earlier one. *)
Definition md_text (c : tcell) : str := join_with (lit " ") (shown_parts (sort_tblocks (tc_blocks c))).
Definition md_put (d : tdoc) (g : Z -> Z -> str) (c : tcell) : Z -> Z -> str :=
  if (tc_row c <? 0) || (t_rows d <=? tc_row c) || (tc_col c <? 0) || (t_cols d <=? tc_col c) then g
  else fun r k => if (r =? tc_row c) && (k =? tc_col c) then md_text c else g r k.
Definition md_grid (d : tdoc) : Z -> Z -> str := fold_left (md_put d) (sort_cells (t_cells d)) (fun _ _ => []).
(** 462-479. *)
Definition md_line (d : tdoc) (g : Z -> Z -> str) (r : Z) : str :=
  lit "|" ++ flat_map (fun k => lit " " ++ g r k ++ lit " |") (zrange (t_cols d)) ++ [10%N]
  ++ (if r =? 0 then lit "|" ++ flat_map (fun _ => lit "---|") (zrange (t_cols d)) ++ [10%N] else []).
(** 482-484: the last line feed goes. *)
Definition drop_last_lf (s : str) : str := match rev s with 10%N :: t => rev t | _ => s end.
(** export_markdown_uc.rs:406-487 [render_table_markdown]. *)
Definition md_table (d : tdoc) : str := drop_last_lf (flat_map (md_line d (md_grid d)) (zrange (t_rows d))).

(** ** LaTeX *)
(** export_latex_uc.rs:450-491. *)
Definition latex_cell (c : tcell) : str :=
  let inner := join_with (lit " ") (shown_parts (tc_blocks c)) in
  let rows := lit "\multirow{" ++ show_int (tc_rs c) ++ lit "}{*}{" ++ inner ++ lit "}" in
  let cols x := lit "\multicolumn{" ++ show_int (tc_cs c) ++ lit "}{|l|}{" ++ x ++ lit "}" in
  if (1 <? tc_rs c) && (1 <? tc_cs c) then cols rows else if 1 <? tc_cs c then cols inner else if 1 <? tc_rs c then rows else inner.
(** 433-512: one row. [n]: how many steps of the loop are followed; every step goes
    on by one column at least. *)
Fixpoint latex_row (n : nat) (d : tdoc) (r k : Z) (covered : Z -> Z -> bool) : list str * (Z -> Z -> bool) :=
  match n with
  | O => ([], covered)
  | S n =>
      if t_cols d <=? k then ([], covered)
      else if covered r k then latex_row n d r (k + 1) covered
      else
        match found d r k with
        | Some c => let '(s, covered') := latex_row n d r (k + tc_cs c) (mark d c r k covered) in (latex_cell c :: s, covered')
        | None => let '(s, covered') := latex_row n d r (k + 1) covered in ([] :: s, covered')
        end
  end.
Fixpoint latex_rows (d : tdoc) (rs : list Z) (covered : Z -> Z -> bool) : str :=
  match rs with
  | [] => []
  | r :: rest =>
      let '(s, covered') := latex_row (Z.to_nat (t_cols d)) d r 0 covered in
      [10%N] ++ join_with (lit " & ") s ++ lit " \\" ++ [10%N] ++ lit "\hline" ++ latex_rows d rest covered'
  end.
(** export_latex_uc.rs:407-519 [render_table_latex]. *)
Definition latex_table (d : tdoc) : str :=
  lit "\begin{tabular}{|" ++ join_with (lit "|") (repeat (lit "l") (Z.to_nat (t_cols d))) ++ lit "|}" ++ [10%N] ++ lit "\hline"
  ++ latex_rows d (zrange (t_rows d)) (fun _ _ => false) ++ [10%N] ++ lit "\end{tabular}".

(** ** The document around the table *)
(** What the exporter makes of one paragraph outside the table; there are no
    lists. *)
Variable para : id -> str.
(** export_html_uc.rs:81-102, 145-204: the document's frames in order, without those
    of the cells: the main frame, whose [child_order] has the paragraphs and the
    frame of the table, and the frame of the table (insert_table_uc.rs:372). *)
Definition html_body (border : option Z) (d : tdoc) : str :=
  flat_map (fun b => para (tb_id b)) (firstn (t_at d) (t_others d)) ++ html_table border d
  ++ flat_map (fun b => para (tb_id b)) (skipn (t_at d) (t_others d)) ++ html_table border d.
(** export_latex_uc.rs:86-104, 139-202. *)
Definition latex_body (d : tdoc) : str :=
  join_with [10; 10]%N [join_with [10; 10]%N (map (fun b => para (tb_id b)) (firstn (t_at d) (t_others d)) ++ [latex_table d]
    ++ map (fun b => para (tb_id b)) (skipn (t_at d) (t_others d))); latex_table d].
(** export_markdown_uc.rs:82-116, 125-205: what [render_frame_content] returns has
    separators of its own. *)
Definition md_body (d : tdoc) : str :=
  let lines := map (fun b => para (tb_id b)) (firstn (t_at d) (t_others d)) ++ [md_table d]
    ++ map (fun b => para (tb_id b)) (skipn (t_at d) (t_others d)) in
  let parts := match lines with [] => [] | x :: rest => x :: flat_map (fun y => [[10; 10]%N; y]) rest end in
  join_with [10; 10]%N (parts ++ [md_table d]).
End Inline.

(** ** Reading a table *)
(** A table as it is read: rows and columns, and the cells with row, column and
    spans. *)
Record read_table {A} := mk_read_table { rt_rows : Z; rt_cols : Z; rt_cells : list (Z * Z * Z * Z * A) }.
Arguments read_table : clear implicits.
Arguments mk_read_table {A}.
(** content_parser.rs:615-666 [parse_table_element]: rows without cells are left
    out, spans are not looked at; import_html_uc.rs:281-362: as many columns as the
    first row has cells, and each cell in the column of its index. *)
Fixpoint number_cells {A} (k : Z) (l : list A) : list (Z * A) :=
  match l with [] => [] | x :: rest => (k, x) :: number_cells (k + 1) rest end.
Fixpoint import_rows {A} (r : Z) (rows : list (list A)) : list (Z * Z * Z * Z * A) :=
  match rows with
  | [] => []
  | row :: rest => map (fun '(k, x) => (r, k, 1, 1, x)) (number_cells 0 row) ++ import_rows (r + 1) rest
  end.
Definition import_table {A} (rows : list (list A)) : option (read_table A) :=
  match filter (fun row : list A => match row with [] => false | _ => true end) rows with
  | [] => None
  | row :: rest => Some (mk_read_table (Z.of_nat (List.length (row :: rest))) (Z.of_nat (List.length row)) (import_rows 0 (row :: rest)))
  end.
