(** Exported tables: the theorems as stated in Props_TableExport, and where they
    fail. *)
From Coq Require Import String Sorting.Permutation.
From Verif Require Import Base FormatRunsModel RopeModel TableModel TableSpec TableFacts TableTheorems QueryModel EscapeModel ExportModel MdModel LatexModel
  TableExportModel TableExportSpec TableExportFacts TableExportMd.
Local Open Scope Z_scope.

Lemma html_table_theorem border inline d : table_history d -> exists rows ps, html_table inline border d = show_table border rows
  /\ Z.of_nat (List.length rows) = t_rows d /\ laid [] 0 rows ps /\ Permutation ps (map (td_place inline) (t_cells d)).
Proof. intros H. destruct (history_grid d H) as [G O]. now apply html_theorem. Qed.
Lemma html_reimport_theorem border inline d : table_history d -> (forall c, In c (t_cells d) -> tc_rs c = 1 /\ tc_cs c = 1) ->
  exists rows t, html_table inline border d = show_table border rows /\ import_table rows = Some t /\ rt_rows t = t_rows d /\ rt_cols t = t_cols d
    /\ Permutation (map (fun '(r, k, rs, cs, x) => (r, k, x)) (rt_cells t)) (map (td_place inline) (t_cells d)).
Proof.
  intros H One. destruct (history_grid d H) as [G O]. destruct (reimport_theorem d G inline border O One) as (rows & t & A & B & C & D & E). exists rows, t. repeat split; auto.
  apply (Permutation_map (fun '(r, k, rs, cs, x) => (r, k, x))) in E. rewrite map_map in E. exact E.
Qed.
Lemma latex_table_theorem inline d : table_history d -> (forall c, In c (t_cells d) -> tc_rs c = 1) ->
  exists rows, latex_table inline d = show_tabular (t_cols d) rows /\ Permutation (lx_places 0 rows) (map (lx_place inline) (t_cells d)).
Proof. intros H One. destruct (history_grid d H) as [G O]. now apply latex_theorem. Qed.
Lemma md_table_theorem segs d : table_history d -> (forall b, Forall wordy (segs b)) -> let inline := fun b => flat_map md_segment (segs b) in
  exists rows, read_pipes (md_table inline d) = Some rows /\ Z.of_nat (List.length rows) = t_rows d
  /\ (forall row, In row rows -> Z.of_nat (List.length row) = t_cols d)
  /\ (forall c, In c (t_cells d) -> pipe_at rows (tc_row c) (tc_col c) = Some (trimmed (join_with (lit " ") (texts inline (sort_tblocks (tc_blocks c))))))
  /\ forall r k, slot d r k -> (forall c, In c (t_cells d) -> tc_row c = r -> tc_col c <> k) -> pipe_at rows r k = Some [].
Proof. intros H W inline. destruct (history_grid d H) as [G O]. apply md_theorem; [easy| |]; intros b; now apply segments_barred. Qed.

(** ** Where they fail *)
(** The text of a paragraph, for examples. *)
Definition letter (b : id) : str := [(90 + b)%N].
(** A cell over two rows: LaTeX has no empty cell below it. *)
Lemma latex_tall_refuted : exists inline d rows c k, table_history d /\ latex_table inline d = show_tabular (t_cols d) rows
  /\ In c (t_cells d) /\ In (tc_row c, k, snd (lx_place inline c)) (lx_places 0 rows) /\ k <> tc_col c.
Proof.
  exists letter, typed_sample, (lx_rows_of typed_sample letter 2 0), (mk_tcell 15%N 1 2 1 1 0%N [mk_tblock 25%N 16 0]), 1.
  split; [exact typed_sample_history|]. split; [vm_compute; reflexivity|]. split; [vm_compute; tauto|]. split; [vm_compute; tauto|]. now cbn.
Qed.
Lemma multirow_refuted : exists inline d class, table_history d
  /\ times (lit "\multirow") (latex_file class (latex_table inline d)) = 1%nat /\ times (lit "\usepackage{multirow}") (latex_file class (latex_table inline d)) = 0%nat.
Proof. exists letter, typed_sample, (lit "article"). split; [exact typed_sample_history|]. split; vm_compute; reflexivity. Qed.
(** Code with a bar in a cell. *)
Definition mono : cfmt := mk_cfmt (Some (lit "monospace")) None None None None None None None None None None [] None None None None.
Definition code_segments (b : id) : list segment := if (b =? 20)%N then [SegText [97; 124; 98]%N mono] else [].
Lemma md_code_bar_refuted : exists segs d, table_history d /\ (forall b, Forall (fun s => match s with SegText t f => anchor_href f = None /\ ~ In 10%N t | _ => False end) (segs b))
  /\ read_pipes (md_table (fun b => flat_map md_segment (segs b)) d) = None.
Proof.
  exists code_segments, typed_sample. split; [exact typed_sample_history|]. split; [|vm_compute; reflexivity].
  intros b. unfold code_segments. destruct (b =? 20)%N; repeat constructor. cbn. intuition discriminate.
Qed.
(** Two cells of the first row merged, written and read. *)
Lemma html_reimport_refuted : exists inline d rows t, table_history d /\ html_table inline None d = show_table None rows /\ import_table rows = Some t
  /\ rt_cols t < t_cols d /\ exists r k rs cs x, In (r, k, rs, cs, x) (rt_cells t) /\ rt_cols t <= k.
Proof.
  exists letter, wide_sample, (td_rows_of wide_sample letter 2 0). eexists. split; [exact wide_sample_history|]. split; [vm_compute; reflexivity|]. split; [vm_compute; reflexivity|].
  split; [vm_compute; reflexivity|]. exists 1, 2, 1, 1, (mk_td 1 1 (letter 25%N)). split; [vm_compute; tauto|]. cbn. lia.
Qed.
(** A document with one table. *)
Lemma table_twice_refuted : exists inline d, table_history d
  /\ times (html_table inline None d) (html_body inline inline None d) = 2%nat
  /\ times (latex_table inline d) (latex_body inline inline d) = 2%nat
  /\ times (md_table inline d) (md_body inline inline d) = 2%nat.
Proof. exists letter, typed_sample. split; [exact typed_sample_history|]. repeat split; vm_compute; reflexivity. Qed.
