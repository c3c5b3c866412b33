(** Tables in exported documents (C74). *)
From Coq Require Import String Sorting.Permutation.
From Verif Require Import Base FormatRunsModel RopeModel TableModel TableSpec TableTheorems QueryModel EscapeModel ExportModel MdModel LatexModel
  TableExportModel TableExportSpec TableExportFacts TableExportMd TableExportRefuted.
Local Open Scope Z_scope.

(** A table exported as HTML, its cells placed the way HTML places them: one row
    for each row of the table, and every cell in its row and column, with its spans
    and its paragraphs. *)
Theorem exported_html_table : forall border inline d, table_history d -> exists rows ps, html_table inline border d = show_table border rows
  /\ Z.of_nat (List.length rows) = t_rows d /\ laid [] 0 rows ps /\ Permutation ps (map (td_place inline) (t_cells d)).
Proof. exact html_table_theorem. Qed.
Print Assumptions exported_html_table.
Example exported_html_table_case : table_history typed_sample /\ html_table letter (Some 1) typed_sample
  = lit "<table border=""1""><tr><td>n</td><td rowspan=""2"">o<br/>t</td><td>p</td></tr><tr><td>q</td><td>s</td></tr></table>".
Proof. split; [exact typed_sample_history|vm_compute; reflexivity]. Qed.
(** There is only one way to place them. *)
Theorem placed_one_way : forall rows a b, laid [] 0 rows a -> laid [] 0 rows b -> a = b.
Proof. exact (fun rows a b H1 H2 => laid_one _ _ _ _ H1 _ H2). Qed.
Print Assumptions placed_one_way.
Example placed_one_way_case : laid [] 0 [[mk_td 2 1 []; mk_td 1 1 []]; [mk_td 1 1 [65%N]]] [(0, 0, mk_td 2 1 []); (0, 1, mk_td 1 1 []); (1, 1, mk_td 1 1 [65%N])].
Proof.
  assert (N : forall ps r k, (forall p, In p ps -> ~ takes p r k) -> ~ taken ps r k) by (intros ps r k H (p & I & T); now apply (H p I)).
  eapply laid_row.
  - apply row_cell; [apply N; easy|]. apply row_cell; [apply N; intros p [<-|[]]; cbn; lia|]. apply row_end.
  - eapply laid_row; [|apply laid_end]. apply row_skip; [eexists; split; [left; reflexivity|cbn; lia]|].
    apply row_cell; [apply N; intros p [<-|[<-|[]]]; cbn; lia|]. apply row_end.
Qed.
(** A table with no merged cells, exported as HTML and read again. Missing: merged
    cells; see below. *)
Theorem html_table_back_partial : forall border inline d, table_history d -> (forall c, In c (t_cells d) -> tc_rs c = 1 /\ tc_cs c = 1) ->
  exists rows t, html_table inline border d = show_table border rows /\ import_table rows = Some t /\ rt_rows t = t_rows d /\ rt_cols t = t_cols d
    /\ Permutation (map (fun '(r, k, rs, cs, x) => (r, k, x)) (rt_cells t)) (map (td_place inline) (t_cells d)).
Proof. exact html_reimport_theorem. Qed.
Print Assumptions html_table_back_partial.
Example html_table_back_case : table_history sample /\ (forall c, In c (t_cells sample) -> tc_rs c = 1 /\ tc_cs c = 1) /\ List.length (t_cells sample) = 6%nat.
Proof. split; [exact sample_history|]. split; [|reflexivity]. intros c H. cbn in H. each_cell; auto. Qed.
(** Two cells of the first row merged: the table read has a column less, and cells
    outside of it. *)
Theorem html_table_back_refuted : exists inline d rows t, table_history d /\ html_table inline None d = show_table None rows /\ import_table rows = Some t
  /\ rt_cols t < t_cols d /\ exists r k rs cs x, In (r, k, rs, cs, x) (rt_cells t) /\ rt_cols t <= k.
Proof. exact html_reimport_refuted. Qed.
Print Assumptions html_table_back_refuted.

(** A table exported as Markdown, in which no text is code or a link or an image,
    read as a pipe table: every cell in its row and column, and nothing elsewhere.
    Missing: code, links and images; see below for code. *)
Theorem exported_md_table_partial : forall segs d, table_history d -> (forall b, Forall wordy (segs b)) -> let inline := fun b => flat_map md_segment (segs b) in
  exists rows, read_pipes (md_table inline d) = Some rows /\ Z.of_nat (List.length rows) = t_rows d
  /\ (forall row, In row rows -> Z.of_nat (List.length row) = t_cols d)
  /\ (forall c, In c (t_cells d) -> pipe_at rows (tc_row c) (tc_col c) = Some (trimmed (join_with (lit " ") (texts inline (sort_tblocks (tc_blocks c))))))
  /\ forall r k, slot d r k -> (forall c, In c (t_cells d) -> tc_row c = r -> tc_col c <> k) -> pipe_at rows r k = Some [].
Proof. exact md_table_theorem. Qed.
Print Assumptions exported_md_table_partial.
Example exported_md_table_case : let segs := fun b : id => [SegText [97; 124; b]%N cfmt_default] in Forall wordy (segs 20%N)
  /\ read_pipes (md_table (fun b => flat_map md_segment (segs b)) sample)
     = Some [[[97; 92; 124; 20]; [97; 92; 124; 21]; [97; 92; 124; 22]]; [[97; 92; 124; 23]; [97; 92; 124; 24]; [97; 92; 124; 25]]]%N.
Proof.
  split; [|vm_compute; reflexivity]. repeat constructor. cbn. intuition discriminate.
Qed.
(** Code with a bar in it: what is exported is not a table. *)
Theorem exported_md_table_refuted : exists segs d, table_history d
  /\ (forall b, Forall (fun s => match s with SegText t f => anchor_href f = None /\ ~ In 10%N t | _ => False end) (segs b))
  /\ read_pipes (md_table (fun b => flat_map md_segment (segs b)) d) = None.
Proof. exact md_code_bar_refuted. Qed.
Print Assumptions exported_md_table_refuted.

(** A table exported as LaTeX in which no cell takes several rows: every cell in its
    row and column. Missing: cells over several rows; see below. *)
Theorem exported_latex_table_partial : forall inline d, table_history d -> (forall c, In c (t_cells d) -> tc_rs c = 1) ->
  exists rows, latex_table inline d = show_tabular (t_cols d) rows /\ Permutation (lx_places 0 rows) (map (lx_place inline) (t_cells d)).
Proof. exact latex_table_theorem. Qed.
Print Assumptions exported_latex_table_partial.
Example exported_latex_table_case : table_history wide_sample /\ (forall c, In c (t_cells wide_sample) -> tc_rs c = 1) /\ exists c, In c (t_cells wide_sample) /\ tc_cs c = 2.
Proof.
  split; [exact wide_sample_history|]. split; [intros c H; cbn in H; each_cell; auto|]. eexists. split; [vm_compute; left; reflexivity|reflexivity].
Qed.
(** Below a cell over two rows, the next cell is in the wrong column. *)
Theorem exported_latex_table_refuted : exists inline d rows c k, table_history d /\ latex_table inline d = show_tabular (t_cols d) rows
  /\ In c (t_cells d) /\ In (tc_row c, k, snd (lx_place inline c)) (lx_places 0 rows) /\ k <> tc_col c.
Proof. exact latex_tall_refuted. Qed.
Print Assumptions exported_latex_table_refuted.
(** And the command for it is in no package that the file loads. *)
Theorem latex_package_refuted : exists inline d class, table_history d
  /\ times (lit "\multirow") (latex_file class (latex_table inline d)) = 1%nat /\ times (lit "\usepackage{multirow}") (latex_file class (latex_table inline d)) = 0%nat.
Proof. exact multirow_refuted. Qed.
Print Assumptions latex_package_refuted.

(** The one table of a document is exported twice. *)
Theorem exported_once_refuted : exists inline d, table_history d
  /\ times (html_table inline None d) (html_body inline inline None d) = 2%nat
  /\ times (latex_table inline d) (latex_body inline inline d) = 2%nat
  /\ times (md_table inline d) (md_body inline inline d) = 2%nat.
Proof. exact table_twice_refuted. Qed.
Print Assumptions exported_once_refuted.
