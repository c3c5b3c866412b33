(** Tables: C26, C27, C28, C45. *)
From Coq Require Import Sorting.Sorted Sorting.Permutation.
From Verif Require Import Base RopeModel TableModel TableSpec TableFacts TablePlaces TableTheorems.
Local Open Scope Z_scope.

(** ** C26: tables stay a proper grid *)
(** A new table is a grid of blank cells. *)
Theorem table_new_grid : forall others at_ start rows cols count chars next nextb, 1 <= rows -> 1 <= cols ->
  exists d, insert_table others at_ start rows cols count chars next nextb = Ok d /\ grid d /\ own_ids d
    /\ t_rows d = rows /\ t_cols d = cols /\ t_widths d = repeat 0 (Z.to_nat cols)
    /\ forall r k, 0 <= r < rows -> 0 <= k < cols -> exists c, covering d r k = [c] /\ tc_row c = r /\ tc_col c = k
         /\ tc_fmt c = 0%N /\ exists i, content (tc_blocks c) = [(i, 0)].
Proof. exact insert_table_grid. Qed.
Print Assumptions table_new_grid.
Theorem table_new_error : forall others at_ start rows cols count chars next nextb, ~ (1 <= rows /\ 1 <= cols) ->
  insert_table others at_ start rows cols count chars next nextb = Err.
Proof. exact insert_table_error. Qed.
Print Assumptions table_new_error.
(** After any history of operations and edits a table is a grid.
    Missing: operations that cut through a merged cell ([clean]). *)
Theorem table_grid_partial : forall d, table_history d -> grid d.
Proof. exact table_grid_theorem. Qed.
Print Assumptions table_grid_partial.
Example table_grid_case : table_history typed_sample /\ exists d', tstep typed_sample (InsertRow 2) = Ok d' /\ clean typed_sample (InsertRow 2).
Proof.
  split; [exact typed_sample_history|]. eexists. split; [vm_compute; reflexivity|]. intros (c & Hc & I). cbn in Hc. each_cell; lia.
Qed.
(** The condition is exact: the others, if they succeed, always break the grid. *)
Theorem table_grid_exact : forall d o d', table_history d -> tstep d o = Ok d' -> (grid d' <-> clean d o).
Proof. exact table_exact_theorem. Qed.
Print Assumptions table_grid_exact.
(** Removing and splitting always keep it. *)
Theorem table_grid_removal : forall d o d', table_history d -> tstep d o = Ok d' ->
  match o with RemoveRow _ | RemoveColumn _ | Split _ _ _ => grid d' | _ => True end.
Proof. exact removal_exact_theorem. Qed.
Print Assumptions table_grid_removal.
Example table_grid_removal_case : exists d', tstep typed_sample (RemoveRow 0) = Ok d' /\ length (t_cells d') = 3%nat.
Proof. eexists. split; vm_compute; reflexivity. Qed.
(** Refuted: a row or column inserted through a merged cell, a merge of selected
    cells with a merged cell in between. *)
Theorem table_grid_row_refuted : exists d i d', table_history d /\ insert_row d i = Ok d' /\ ~ grid d'.
Proof. exact grid_row_refuted. Qed.
Print Assumptions table_grid_row_refuted.
Theorem table_grid_column_refuted : exists d i d', table_history d /\ insert_column d i = Ok d' /\ ~ grid d'.
Proof. exact grid_column_refuted. Qed.
Print Assumptions table_grid_column_refuted.
Theorem table_grid_merge_refuted : exists d a b d' i, table_history d /\ In a (t_cells d) /\ In b (t_cells d)
  /\ merge_selected d a b = Ok (d', i) /\ ~ grid d'.
Proof. exact grid_merge_refuted. Qed.
Print Assumptions table_grid_merge_refuted.

(** ** C27: what moves and what stays *)
Theorem row_insertion : forall d i, table_history d ->
  (~ (0 <= i <= t_rows d) -> insert_row d i = Err)
  /\ (0 <= i <= t_rows d -> exists d', insert_row d i = Ok d' /\ t_rows d' = t_rows d + 1 /\ t_cols d' = t_cols d /\ t_widths d' = t_widths d
      /\ (forall r k c, covering d r k = [c] -> exists c', covering d' (if r <? i then r else r + 1) k = [c'] /\ same_cell c c')
      /\ (forall k, 0 <= k < t_cols d -> exists c', In c' (covering d' i k) /\ blank d c')
      /\ (forall c', In c' (t_cells d') -> blank d c' \/ exists c, In c (t_cells d) /\ same_cell c c')
      /\ (~ across_row d i -> grid d')).
Proof. exact insert_row_theorem. Qed.
Print Assumptions row_insertion.
Theorem column_insertion : forall d i, table_history d ->
  (~ (0 <= i <= t_cols d) -> insert_column d i = Err)
  /\ (0 <= i <= t_cols d -> exists d', insert_column d i = Ok d' /\ t_rows d' = t_rows d /\ t_cols d' = t_cols d + 1
      /\ width_at d' i = Some 0 /\ (forall k, 0 <= k -> width_at d' (if k <? i then k else k + 1) = width_at d k)
      /\ (forall r k c, covering d r k = [c] -> exists c', covering d' r (if k <? i then k else k + 1) = [c'] /\ same_cell c c')
      /\ (forall r, 0 <= r < t_rows d -> exists c', In c' (covering d' r i) /\ blank d c')
      /\ (forall c', In c' (t_cells d') -> blank d c' \/ exists c, In c (t_cells d) /\ same_cell c c')
      /\ (~ across_column d i -> grid d')).
Proof. exact insert_column_theorem. Qed.
Print Assumptions column_insertion.
Theorem row_removal : forall d i, table_history d ->
  (~ (0 <= i < t_rows d /\ 1 < t_rows d) -> remove_row d i = Err)
  /\ (0 <= i < t_rows d -> 1 < t_rows d -> exists d', remove_row d i = Ok d' /\ grid d' /\ t_rows d' = t_rows d - 1 /\ t_cols d' = t_cols d /\ t_widths d' = t_widths d
      /\ (forall r k c, covering d r k = [c] -> r <> i -> exists c', covering d' (if r <? i then r else r - 1) k = [c'] /\ same_cell c c')
      /\ (forall c', In c' (t_cells d') -> exists c, In c (t_cells d) /\ same_cell c c')).
Proof. exact remove_row_theorem. Qed.
Print Assumptions row_removal.
Theorem column_removal : forall d i, table_history d ->
  (~ (0 <= i < t_cols d /\ 1 < t_cols d) -> remove_column d i = Err)
  /\ (0 <= i < t_cols d -> 1 < t_cols d -> exists d', remove_column d i = Ok d' /\ grid d' /\ t_rows d' = t_rows d /\ t_cols d' = t_cols d - 1
      /\ (forall k, 0 <= k -> k <> i -> width_at d' (if k <? i then k else k - 1) = width_at d k)
      /\ (forall r k c, covering d r k = [c] -> k <> i -> exists c', covering d' r (if k <? i then k else k - 1) = [c'] /\ same_cell c c')
      /\ (forall c', In c' (t_cells d') -> exists c, In c (t_cells d) /\ same_cell c c')).
Proof. exact remove_column_theorem. Qed.
Print Assumptions column_removal.
Example rows_case : table_history typed_sample /\ t_rows typed_sample = 2 /\ t_cols typed_sample = 3
  /\ map tc_id (covering typed_sample 1 1) = [11%N]
  /\ (exists d', insert_row typed_sample 2 = Ok d' /\ map tc_id (covering d' 1 1) = [11%N] /\ map tc_id (covering d' 2 0) = [16%N])
  /\ (exists d', remove_row typed_sample 0 = Ok d' /\ map content (map tc_blocks (covering d' 0 1)) = [[(21%N, 0); (26%N, 5)]]).
Proof.
  split; [exact typed_sample_history|]. split; [reflexivity|]. split; [reflexivity|]. split; [reflexivity|].
  split; eexists; (split; [vm_compute; reflexivity|]); [split|]; vm_compute; reflexivity.
Qed.
(** Merging. Missing: ranges a cell from outside reaches into. *)
Theorem cell_merge_partial : forall d r0 c0 r1 c1, table_history d -> ~ reached d r0 c0 r1 c1 ->
  0 <= r0 <= r1 -> r1 < t_rows d -> 0 <= c0 <= c1 -> c1 < t_cols d ->
  (forall c, In c (t_cells d) -> in_rect r0 c0 r1 c1 (tc_row c) (tc_col c) -> tc_rs c = 1 /\ tc_cs c = 1) ->
  exists d' i, merge_cells d r0 c0 r1 c1 = Ok (d', i) /\ grid d' /\ t_rows d' = t_rows d /\ t_cols d' = t_cols d /\ t_widths d' = t_widths d
    /\ (forall r k c, covering d r k = [c] -> ~ in_rect r0 c0 r1 c1 r k -> exists c', covering d' r k = [c'] /\ same_cell c c')
    /\ exists s s', covering d r0 c0 = [s] /\ same_cell s s' /\ tc_id s' = i /\ forall r k, in_rect r0 c0 r1 c1 r k -> covering d' r k = [s'].
Proof. exact merge_theorem. Qed.
Print Assumptions cell_merge_partial.
Theorem cell_merge_error : forall d r0 c0 r1 c1, table_history d ->
  ~ (0 <= r0 <= r1 /\ r1 < t_rows d /\ 0 <= c0 <= c1 /\ c1 < t_cols d) \/
  (exists c, In c (t_cells d) /\ in_rect r0 c0 r1 c1 (tc_row c) (tc_col c) /\ (1 < tc_rs c \/ 1 < tc_cs c)) ->
  merge_cells d r0 c0 r1 c1 = Err.
Proof. exact merge_error_theorem. Qed.
Print Assumptions cell_merge_error.
Example cell_merge_case : table_history typed_sample /\ clean typed_sample (Merge 0 2 1 2)
  /\ exists d', merge_cells typed_sample 0 2 1 2 = Ok (d', 12%N) /\ map tc_id (covering d' 1 2) = [12%N].
Proof.
  split; [exact typed_sample_history|]. split.
  - intros (c & r & k & Hc & N & V & I). apply covers_iff in V. unfold in_rect in *. cbn in Hc. each_cell; lia.
  - eexists. split; vm_compute; reflexivity.
Qed.
(** Splitting: the cell keeps its text in its first part, the other parts are
    blank, and the parts have equal sizes up to one row and one column. *)
Theorem cell_split : forall d c sr sc, table_history d -> In c (t_cells d) -> 1 <= sr <= tc_rs c -> 1 <= sc <= tc_cs c -> ~ (tc_rs c = 1 /\ tc_cs c = 1) ->
  exists d', split_cell d (tc_id c) sr sc = Ok d' /\ grid d' /\ t_rows d' = t_rows d /\ t_cols d' = t_cols d /\ t_widths d' = t_widths d
    /\ (forall r k x, covering d r k = [x] -> x <> c -> exists x', covering d' r k = [x'] /\ same_cell x x')
    /\ (exists c', covering d' (tc_row c) (tc_col c) = [c'] /\ same_cell c c')
    /\ (forall r k, covering d r k = [c] -> exists x', covering d' r k = [x'] /\ (same_cell c x' \/ blank d x')
          /\ tc_rs c / sr <= tc_rs x' <= tc_rs c / sr + 1 /\ tc_cs c / sc <= tc_cs x' <= tc_cs c / sc + 1)
    /\ Z.of_nat (length (t_cells d')) = Z.of_nat (length (t_cells d)) + sr * sc - 1.
Proof. exact split_theorem. Qed.
Print Assumptions cell_split.
Theorem cell_split_error : forall d i sr sc,
  (forall c, In c (t_cells d) -> tc_id c = i -> ~ (1 <= sr <= tc_rs c /\ 1 <= sc <= tc_cs c /\ ~ (tc_rs c = 1 /\ tc_cs c = 1))) -> split_cell d i sr sc = Err.
Proof. exact split_error_theorem. Qed.
Print Assumptions cell_split_error.
Example cell_split_case : exists c d', In c (t_cells typed_sample) /\ tc_rs c = 2 /\ split_cell typed_sample (tc_id c) 2 1 = Ok d' /\ map tc_id (covering d' 1 1) = [16%N].
Proof. eexists _, _. split; [right; left; reflexivity|]. split; [reflexivity|]. split; vm_compute; reflexivity. Qed.

(** ** C28: cell selections *)
(** The loop ends with one result; it contains the selection, cuts no cell, and is
    inside every rectangle of which that is true. *)
Theorem selection_expands : forall cells q, (forall row col rs cs, In (row, col, rs, cs) cells -> 1 <= rs /\ 1 <= cs) ->
  r_top q <= r_bottom q -> r_left q <= r_right q ->
  exists q', (forall x, expands cells q x <-> x = q') /\ contains q' q /\ whole cells q' /\ forall w, whole cells w -> contains w q -> contains w q'.
Proof. exact expand_theorem. Qed.
Print Assumptions selection_expands.
Example selection_expands_case : expands [(0, 0, 1, 1); (0, 1, 2, 1); (1, 0, 1, 1)] (mk_rect 0 0 0 1) (mk_rect 0 0 1 1).
Proof. apply (expands_again _ _ (mk_rect 0 0 1 1)); [reflexivity|]. apply expands_stop. reflexivity. Qed.
(** A selection from one cell to another selects every cell with a slot in that
    rectangle, once, and no other. *)
Theorem selection_cells : forall d a b, table_history d -> In a (t_cells d) -> In b (t_cells d) ->
  exists q, (forall x, expands (cell_spans d) (range_between a b) x <-> x = q)
    /\ NoDup (selected_cells d q) /\ In a (selected_cells d q) /\ In b (selected_cells d q)
    /\ forall c, In c (selected_cells d q) <-> In c (t_cells d) /\ exists r k, covers c r k = true /\ inside q r k.
Proof. exact selection_theorem. Qed.
Print Assumptions selection_cells.
Example selection_cells_case : table_history merged_sample /\ In row_first (t_cells merged_sample) /\ In row_last (t_cells merged_sample)
  /\ range_between row_first row_last = mk_rect 1 0 1 2
  /\ map tc_id (selected_cells merged_sample (mk_rect 0 0 1 2)) = [10%N; 11%N; 12%N; 13%N; 15%N].
Proof. split; [exact merged_sample_history|]. split; [cbn; tauto|]. split; [cbn; tauto|]. split; vm_compute; reflexivity. Qed.

(** ** C45: positions and statistics *)
(** Missing: cells with text or several paragraphs. *)
Theorem table_positions_partial : forall d, placed_history d -> placed d /\ counted_right d.
Proof. exact positions_theorem. Qed.
Print Assumptions table_positions_partial.
Theorem table_position_step_partial : forall d o d', table_history d -> unfilled d -> own_blocks d -> placed d -> clean d o -> tstep d o = Ok d' -> placed d'.
Proof. exact position_step_theorem. Qed.
Print Assumptions table_position_step_partial.
Example table_positions_case : placed_history merged_sample /\ map tb_pos (t_others merged_sample) = [0; 9].
Proof. split; [exact merged_sample_placed|reflexivity]. Qed.
(** Inserting and splitting keep the statistics right whatever the cells hold. *)
Theorem table_counts_partial : forall d o d', table_history d -> counted_right d -> tstep d o = Ok d' ->
  match o with InsertRow _ | InsertColumn _ | Split _ _ _ => counted_right d' | _ => True end.
Proof. exact growth_count_theorem. Qed.
Print Assumptions table_counts_partial.
Example table_counts_case : table_history filled /\ counted_right filled /\ exists d', tstep filled (InsertRow 1) = Ok d' /\ t_count d' = 6.
Proof. split; [exact filled_history|]. split; [apply filled_placed|]. eexists. split; vm_compute; reflexivity. Qed.
Theorem table_positions_refuted : exists d o d', table_history d /\ own_blocks d /\ placed d /\ clean d o /\ tstep d o = Ok d' /\ ~ placed d'.
Proof. exact positions_refuted_lemma. Qed.
Print Assumptions table_positions_refuted.
Theorem table_counts_refuted : exists d i d', table_history d /\ own_blocks d /\ placed d /\ counted_right d /\ remove_row d i = Ok d'
  /\ t_count d' <> blocks_of d' /\ t_chars d' <> chars_of d'.
Proof. exact counts_refuted_lemma. Qed.
Print Assumptions table_counts_refuted.
