(** Tables: the theorems as stated in Props_Tables, and sample tables. *)
From Coq Require Import Sorting.Sorted Sorting.Permutation.
From Verif Require Import Base RopeModel TableModel TableSpec TableFacts TablePlaces.
Local Open Scope Z_scope.

(** A paragraph of three characters, a 2 x 3 table, an empty paragraph. *)
Definition sample_others : list tblock := [mk_tblock 1%N 0 3; mk_tblock 2%N 4 0].
Definition got (r : res tdoc) : tdoc := match r with Ok d => d | _ => mk_tdoc 0 0 [] [] [] 0 0 0 0%N 0%N end.
Definition sample : tdoc := Eval vm_compute in got (insert_table sample_others 1 4 2 3 2 3 10%N 20%N).
Lemma sample_placed : placed_history sample.
Proof.
  apply (placed_new sample_others 1 4 2 3 2 3 10%N 20%N); try reflexivity.
  - cbn. repeat split.
  - intros b [<-|[<-|[]]]; cbn; lia.
  - cbn. lia.
Qed.
Lemma sample_history : table_history sample. Proof. apply placed_history_table, sample_placed. Qed.
(** Its middle column merged. *)
Definition merged_sample : tdoc := Eval vm_compute in got (tstep sample (Merge 0 1 1 1)).
(** Cells of a concrete table are searched by computation. *)
Ltac each_cell := repeat match goal with H : _ \/ _ |- _ => destruct H as [H|H] end; try contradiction; subst; cbn in *.
Lemma sample_merge_clean : clean sample (Merge 0 1 1 1).
Proof.
  intros (c & r & k & Hc & N & V & I). apply covers_iff in V. unfold in_rect in *. cbn in Hc. each_cell; lia.
Qed.
Lemma merged_sample_history : table_history merged_sample.
Proof. apply (table_step sample (Merge 0 1 1 1)); [apply sample_history|apply sample_merge_clean|vm_compute; reflexivity]. Qed.
Lemma merged_sample_placed : placed_history merged_sample.
Proof. apply (placed_step sample (Merge 0 1 1 1)); [apply sample_placed|apply sample_merge_clean|vm_compute; reflexivity]. Qed.
(** The same with text and a format in two cells. *)
Definition typed_sample : tdoc :=
  mk_tdoc 2 3 [0; 0; 0] [mk_tcell 10%N 0 0 1 1 0%N [mk_tblock 20%N 4 2]; mk_tcell 11%N 0 1 2 1 7%N [mk_tblock 21%N 7 0; mk_tblock 26%N 8 5];
    mk_tcell 12%N 0 2 1 1 0%N [mk_tblock 22%N 14 0]; mk_tcell 13%N 1 0 1 1 0%N [mk_tblock 23%N 15 0]; mk_tcell 15%N 1 2 1 1 0%N [mk_tblock 25%N 16 0]]
    [mk_tblock 1%N 0 3; mk_tblock 2%N 17 0] 1 8 10 16%N 27%N.
Lemma typed_sample_history : table_history typed_sample.
Proof. apply (table_text merged_sample); [apply merged_sample_history|]. repeat split. cbn. lia. Qed.

(** ** Grids *)
Lemma not_grid_two d r k a b l : slot d r k -> covering d r k = a :: b :: l -> ~ grid d.
Proof. intros S E (_ & _ & _ & G). destruct (G r k S) as [c Hc]. rewrite E in Hc. discriminate. Qed.
Lemma grid_row_refuted : exists d i d', table_history d /\ insert_row d i = Ok d' /\ ~ grid d'.
Proof.
  exists merged_sample, 1, (got (insert_row merged_sample 1)). split; [apply merged_sample_history|]. split; [vm_compute; reflexivity|].
  eapply (not_grid_two _ 1 1); [vm_compute; intuition congruence|vm_compute; reflexivity].
Qed.
Definition wide_sample : tdoc := Eval vm_compute in got (tstep sample (Merge 0 0 0 1)).
Lemma wide_sample_history : table_history wide_sample.
Proof.
  apply (table_step sample (Merge 0 0 0 1)); [apply sample_history| |vm_compute; reflexivity].
  intros (c & r & k & Hc & N & V & I). apply covers_iff in V. unfold in_rect in *. cbn in Hc. each_cell; lia.
Qed.
Lemma grid_column_refuted : exists d i d', table_history d /\ insert_column d i = Ok d' /\ ~ grid d'.
Proof.
  exists wide_sample, 1, (got (insert_column wide_sample 1)). split; [apply wide_sample_history|]. split; [vm_compute; reflexivity|].
  eapply (not_grid_two _ 0 1); [vm_compute; intuition congruence|vm_compute; reflexivity].
Qed.
(** Selecting from the first to the last cell of the second row and merging. *)
Definition row_first : tcell := mk_tcell 13%N 1 0 1 1 0%N [mk_tblock 23%N 7 0].
Definition row_last : tcell := mk_tcell 15%N 1 2 1 1 0%N [mk_tblock 25%N 8 0].
Lemma grid_merge_refuted : exists d a b d' i, table_history d /\ In a (t_cells d) /\ In b (t_cells d) /\ merge_selected d a b = Ok (d', i) /\ ~ grid d'.
Proof.
  exists merged_sample, row_first, row_last, (match merge_selected merged_sample row_first row_last with Ok (d, _) => d | _ => sample end), 13%N.
  split; [apply merged_sample_history|]. split; [cbn; tauto|]. split; [cbn; tauto|]. split; [vm_compute; reflexivity|].
  eapply (not_grid_two _ 1 1); [vm_compute; intuition congruence|vm_compute; reflexivity].
Qed.
Lemma table_grid_theorem d : table_history d -> grid d. Proof. intros H. apply (history_grid d H). Qed.
Lemma table_exact_theorem d o d' : table_history d -> tstep d o = Ok d' -> (grid d' <-> clean d o).
Proof. intros H. destruct (history_grid d H). now apply step_exact. Qed.
Lemma removal_exact_theorem d o d' : table_history d -> tstep d o = Ok d' ->
  match o with RemoveRow _ | RemoveColumn _ | Split _ _ _ => grid d' | _ => True end.
Proof. intros H E. destruct (history_grid d H) as [G O]. destruct o; try easy; refine (proj1 (step_grid d _ d' G O _ E)); exact I. Qed.

(** ** Widths *)
Lemma step_widths d o d' : grid d -> own_ids d -> length (t_widths d) = Z.to_nat (t_cols d) -> tstep d o = Ok d' -> length (t_widths d') = Z.to_nat (t_cols d').
Proof.
  intros G O L. assert (Gr := G). destruct Gr as (R & C & _). destruct o as [i|i|i|i|r0 c0 r1 c1|i sr sc]; cbn [tstep]; intros E.
  - destruct (Z_le_gt_dec 0 i), (Z_le_gt_dec i (t_rows d)); try (rewrite insert_row_error in E by lia; easy).
    destruct (insert_row_slots d i G O) as (x & Ex & _ & _ & Ec & Ew & _); [lia|]. rewrite Ex in E. injection E as <-. now rewrite Ec, Ew.
  - destruct (Z_le_gt_dec 0 i), (Z_le_gt_dec i (t_cols d)); try (rewrite insert_column_error in E by lia; easy).
    destruct (insert_column_slots d i G O) as (x & Ex & _ & _ & Ec & Ew & _); [lia|]. rewrite Ex in E. injection E as <-. rewrite Ec, Ew.
    unfold put_at. rewrite app_length. cbn [length]. rewrite firstn_length, skipn_length. lia.
  - destruct (Z_le_gt_dec 0 i), (Z_lt_ge_dec i (t_rows d)), (Z_lt_ge_dec 1 (t_rows d)); try (rewrite remove_row_error in E by lia; easy).
    destruct (remove_row_keeps d i G O) as (x & Ex & _ & _ & _ & Ec & Ew & _); [lia|lia|]. rewrite Ex in E. injection E as <-. now rewrite Ec, Ew.
  - destruct (Z_le_gt_dec 0 i), (Z_lt_ge_dec i (t_cols d)), (Z_lt_ge_dec 1 (t_cols d)); try (rewrite remove_column_error in E by lia; easy).
    destruct (remove_column_keeps d i G O) as (x & Ex & _ & _ & Ec & _ & Ew & _); [lia|lia|]. rewrite Ex in E. injection E as <-. rewrite Ec, Ew.
    unfold drop_at. rewrite app_length, firstn_length, skipn_length. lia.
  - destruct (merge_cells d r0 c0 r1 c1) as [[x j]| |] eqn:M; cbn [bind] in E; try easy. injection E as <-.
    destruct (merge_ok _ _ _ _ _ _ _ M) as (_ & _ & _ & _ & _ & s & base & n & _ & _ & _ & _ & ->). exact L.
  - destruct (split_ok _ _ _ _ _ E) as (c & Hc & <- & S). destruct (split_keeps d c sr sc G O Hc S) as (x & Ex & _ & _ & _ & Ec & Ew & _).
    rewrite Ex in E. injection E as <-. now rewrite Ec, Ew.
Qed.
Lemma history_widths d : table_history d -> length (t_widths d) = Z.to_nat (t_cols d).
Proof.
  induction 1 as [others at_ start rows cols count chars next nextb d E|d o d' H IH Cl E|d d' H IH T]; [| |destruct T as (_ & -> & -> & _); exact IH].
  - destruct (Z_le_gt_dec 1 rows), (Z_le_gt_dec 1 cols); try (rewrite insert_table_error in E by lia; easy).
    destruct (insert_table_grid others at_ start rows cols count chars next nextb) as (x & Ex & _ & _ & _ & Ec & Ew & _); try easy.
    rewrite Ex in E. injection E as <-. now rewrite Ec, Ew, repeat_length.
  - destruct (history_grid d H). now apply (step_widths d o).
Qed.
Lemma nth_put_at {A} (l : list A) k x j : (k <= length l)%nat ->
  nth_error (put_at l k x) k = Some x /\ nth_error (put_at l k x) (if (j <? k)%nat then j else S j) = nth_error l j.
Proof.
  intros H. unfold put_at. split.
  - rewrite nth_error_app2; rewrite firstn_length_le by easy; [|easy]. now rewrite Nat.sub_diag.
  - rewrite <- (firstn_skipn k l) at 3. destruct (Nat.ltb_spec j k).
    + rewrite !nth_error_app1 by (rewrite firstn_length_le; lia). easy.
    + rewrite !nth_error_app2 by (rewrite firstn_length_le; lia). rewrite firstn_length_le by easy. now replace (S j - k)%nat with (S (j - k)) by lia.
Qed.
Lemma nth_drop_at {A} (l : list A) k j : (k < length l)%nat -> nth_error (drop_at l k) j = nth_error l (if (j <? k)%nat then j else S j).
Proof.
  intros H. unfold drop_at. rewrite <- (firstn_skipn k l) at 3. destruct (Nat.ltb_spec j k).
  - rewrite !nth_error_app1 by (rewrite firstn_length_le; lia). easy.
  - rewrite !nth_error_app2 by (rewrite firstn_length_le; lia). rewrite firstn_length_le by lia.
    replace (S j - k)%nat with (S (j - k)) by lia. replace (skipn (S k) l) with (tl (skipn k l)).
    + destruct (skipn k l) as [|x s]; cbn; [now destruct (j - k)%nat|easy].
    + clear. revert l. induction k as [|k IH]; intros l; [now destruct l|]. destruct l; [easy|]. exact (IH l).
Qed.

(** ** Rows and columns *)
Lemma insert_row_theorem d i : table_history d ->
  (~ (0 <= i <= t_rows d) -> insert_row d i = Err)
  /\ (0 <= i <= t_rows d -> exists d', insert_row d i = Ok d' /\ t_rows d' = t_rows d + 1 /\ t_cols d' = t_cols d /\ t_widths d' = t_widths d
      /\ (forall r k c, covering d r k = [c] -> exists c', covering d' (if r <? i then r else r + 1) k = [c'] /\ same_cell c c')
      /\ (forall k, 0 <= k < t_cols d -> exists c', In c' (covering d' i k) /\ blank d c')
      /\ (forall c', In c' (t_cells d') -> blank d c' \/ exists c, In c (t_cells d) /\ same_cell c c')
      /\ (~ across_row d i -> grid d')).
Proof.
  intros H. destruct (history_grid d H) as [G O]. split; [apply insert_row_error|]. intros I.
  destruct (insert_row_slots d i G O I) as (d' & E & _ & E1 & E2 & E3 & E4 & E5 & E6). exists d'.
  do 7 (split; [easy|]). intros A. apply (step_grid d (InsertRow i) d' G O A E).
Qed.
Lemma insert_column_theorem d i : table_history d ->
  (~ (0 <= i <= t_cols d) -> insert_column d i = Err)
  /\ (0 <= i <= t_cols d -> exists d', insert_column d i = Ok d' /\ t_rows d' = t_rows d /\ t_cols d' = t_cols d + 1
      /\ width_at d' i = Some 0 /\ (forall k, 0 <= k -> width_at d' (if k <? i then k else k + 1) = width_at d k)
      /\ (forall r k c, covering d r k = [c] -> exists c', covering d' r (if k <? i then k else k + 1) = [c'] /\ same_cell c c')
      /\ (forall r, 0 <= r < t_rows d -> exists c', In c' (covering d' r i) /\ blank d c')
      /\ (forall c', In c' (t_cells d') -> blank d c' \/ exists c, In c (t_cells d) /\ same_cell c c')
      /\ (~ across_column d i -> grid d')).
Proof.
  intros H. destruct (history_grid d H) as [G O]. assert (W := history_widths d H). split; [apply insert_column_error|]. intros I.
  destruct (insert_column_slots d i G O I) as (d' & E & _ & E1 & E2 & E3 & E4 & E5 & E6). exists d'.
  assert (M : Nat.min (Z.to_nat i) (length (t_widths d)) = Z.to_nat i) by lia. rewrite M in E3.
  do 3 (split; [easy|]). split; [|split].
  - unfold width_at. rewrite E3. apply (nth_put_at _ _ _ 0). lia.
  - intros k Hk. unfold width_at. rewrite E3. destruct (nth_put_at (t_widths d) (Z.to_nat i) 0 (Z.to_nat k)) as [_ <-]; [lia|]. f_equal.
    zb; destruct (Nat.ltb_spec (Z.to_nat k) (Z.to_nat i)); lia.
  - do 3 (split; [easy|]). intros A. apply (step_grid d (InsertColumn i) d' G O A E).
Qed.
Lemma remove_row_theorem d i : table_history d ->
  (~ (0 <= i < t_rows d /\ 1 < t_rows d) -> remove_row d i = Err)
  /\ (0 <= i < t_rows d -> 1 < t_rows d -> exists d', remove_row d i = Ok d' /\ grid d' /\ t_rows d' = t_rows d - 1 /\ t_cols d' = t_cols d /\ t_widths d' = t_widths d
      /\ (forall r k c, covering d r k = [c] -> r <> i -> exists c', covering d' (if r <? i then r else r - 1) k = [c'] /\ same_cell c c')
      /\ (forall c', In c' (t_cells d') -> exists c, In c (t_cells d) /\ same_cell c c')).
Proof.
  intros H. destruct (history_grid d H) as [G O]. split; [apply remove_row_error|]. intros I M.
  destruct (remove_row_keeps d i G O I M) as (d' & E & E1 & _ & E3 & E4 & E5 & E6 & E7). exists d'. do 6 (split; [easy|]). easy.
Qed.
Lemma remove_column_theorem d i : table_history d ->
  (~ (0 <= i < t_cols d /\ 1 < t_cols d) -> remove_column d i = Err)
  /\ (0 <= i < t_cols d -> 1 < t_cols d -> exists d', remove_column d i = Ok d' /\ grid d' /\ t_rows d' = t_rows d /\ t_cols d' = t_cols d - 1
      /\ (forall k, 0 <= k -> k <> i -> width_at d' (if k <? i then k else k - 1) = width_at d k)
      /\ (forall r k c, covering d r k = [c] -> k <> i -> exists c', covering d' r (if k <? i then k else k - 1) = [c'] /\ same_cell c c')
      /\ (forall c', In c' (t_cells d') -> exists c, In c (t_cells d) /\ same_cell c c')).
Proof.
  intros H. destruct (history_grid d H) as [G O]. assert (W := history_widths d H). split; [apply remove_column_error|]. intros I M.
  destruct (remove_column_keeps d i G O I M) as (d' & E & E1 & _ & E3 & E4 & E5 & E6 & E7). exists d'. do 4 (split; [easy|]). split; [|easy].
  intros k Hk N. unfold width_at. rewrite E5, nth_drop_at by lia. f_equal. zb; match goal with |- context [(?x <? Z.to_nat i)%nat] => destruct (Nat.ltb_spec x (Z.to_nat i)) end; lia.
Qed.

(** ** Merging and splitting *)
Lemma merge_theorem d r0 c0 r1 c1 : table_history d -> ~ reached d r0 c0 r1 c1 ->
  0 <= r0 <= r1 -> r1 < t_rows d -> 0 <= c0 <= c1 -> c1 < t_cols d -> (forall c, In c (t_cells d) -> in_rect r0 c0 r1 c1 (tc_row c) (tc_col c) -> tc_rs c = 1 /\ tc_cs c = 1) ->
  exists d' i, merge_cells d r0 c0 r1 c1 = Ok (d', i) /\ grid d' /\ t_rows d' = t_rows d /\ t_cols d' = t_cols d /\ t_widths d' = t_widths d
    /\ (forall r k c, covering d r k = [c] -> ~ in_rect r0 c0 r1 c1 r k -> exists c', covering d' r k = [c'] /\ same_cell c c')
    /\ exists s s', covering d r0 c0 = [s] /\ same_cell s s' /\ tc_id s' = i /\ forall r k, in_rect r0 c0 r1 c1 r k -> covering d' r k = [s'].
Proof.
  intros H NR A1 A2 A3 A4 S. destruct (history_grid d H) as [G O].
  assert (S' : single d r0 c0 r1 c1) by (intros c Hc Hi; destruct (S c Hc Hi); lia).
  assert (Gr := G). destruct Gr as (_ & _ & _ & Gr). destruct (Gr r0 c0) as [s Hs]; [unfold slot; lia|]. destruct (in_covering _ _ _ _ _ Hs) as [Hc Hv].
  assert (Hst : in_rect r0 c0 r1 c1 (tc_row s) (tc_col s)).
  { assert (D : in_rect r0 c0 r1 c1 (tc_row s) (tc_col s) \/ ~ in_rect r0 c0 r1 c1 (tc_row s) (tc_col s)) by (unfold in_rect; lia).
    destruct D as [D|D]; [easy|]. exfalso. apply NR. exists s, r0, c0. unfold in_rect. repeat split; try easy; lia. }
  destruct (single_slot d r0 c0 r1 c1 s r0 c0 S' Hc Hst Hv) as [Er Ec].
  destruct (merge_run d r0 c0 r1 c1 s O A1 A2 A3 A4 S' Hc (eq_sym Er) (eq_sym Ec)) as (d' & i & M). exists d', i. split; [easy|].
  destruct (merge_keeps d r0 c0 r1 c1 d' i G O M NR) as (K1 & _ & K3 & K4 & K5 & K6 & s' & K7 & (s2 & K8 & K9) & K10).
  do 5 (split; [easy|]). exists s2, s'. easy.
Qed.
Lemma merge_error_theorem d r0 c0 r1 c1 : table_history d ->
  ~ (0 <= r0 <= r1 /\ r1 < t_rows d /\ 0 <= c0 <= c1 /\ c1 < t_cols d) \/
  (exists c, In c (t_cells d) /\ in_rect r0 c0 r1 c1 (tc_row c) (tc_col c) /\ (1 < tc_rs c \/ 1 < tc_cs c)) ->
  merge_cells d r0 c0 r1 c1 = Err.
Proof.
  intros H X. destruct (merge_cells d r0 c0 r1 c1) as [[d' i]| |] eqn:M; [exfalso|easy|exfalso].
  - destruct (merge_ok _ _ _ _ _ _ _ M) as (A1 & A2 & A3 & A4 & S & _). destruct X as [X|(c & Hc & Hi & X)]; [lia|]. destruct (S c Hc Hi). lia.
  - clear X. unfold merge_cells in M. destruct (r1 <? r0); [easy|]. destruct (c1 <? c0); [easy|].
    destruct ((r0 <? 0) || (t_rows d <=? r1) || (c0 <? 0) || (t_cols d <=? c1)); [easy|].
    destruct (existsb _ (filter (starts_in r0 c0 r1 c1) (t_cells d))); [easy|].
    destruct (find _ (filter (starts_in r0 c0 r1 c1) (t_cells d))); easy.
Qed.
Lemma split_theorem d c sr sc : table_history d -> In c (t_cells d) -> 1 <= sr <= tc_rs c -> 1 <= sc <= tc_cs c -> ~ (tc_rs c = 1 /\ tc_cs c = 1) ->
  exists d', split_cell d (tc_id c) sr sc = Ok d' /\ grid d' /\ t_rows d' = t_rows d /\ t_cols d' = t_cols d /\ t_widths d' = t_widths d
    /\ (forall r k x, covering d r k = [x] -> x <> c -> exists x', covering d' r k = [x'] /\ same_cell x x')
    /\ (exists c', covering d' (tc_row c) (tc_col c) = [c'] /\ same_cell c c')
    /\ (forall r k, covering d r k = [c] -> exists x', covering d' r k = [x'] /\ (same_cell c x' \/ blank d x')
          /\ tc_rs c / sr <= tc_rs x' <= tc_rs c / sr + 1 /\ tc_cs c / sc <= tc_cs x' <= tc_cs c / sc + 1)
    /\ Z.of_nat (length (t_cells d')) = Z.of_nat (length (t_cells d)) + sr * sc - 1.
Proof.
  intros H Hc S1 S2 S3. destruct (history_grid d H) as [G O].
  destruct (split_keeps d c sr sc G O Hc) as (d' & E & E1 & _ & E3 & E4 & E5 & E6 & E7 & E8 & E9); [now split|]. exists d'. do 8 (split; [easy|]). easy.
Qed.
Lemma split_error_theorem d i sr sc :
  (forall c, In c (t_cells d) -> tc_id c = i -> ~ (1 <= sr <= tc_rs c /\ 1 <= sc <= tc_cs c /\ ~ (tc_rs c = 1 /\ tc_cs c = 1))) -> split_cell d i sr sc = Err.
Proof. apply split_error. Qed.

(** ** Selections *)
Lemma expand_theorem cells q : (forall row col rs cs, In (row, col, rs, cs) cells -> 1 <= rs /\ 1 <= cs) -> r_top q <= r_bottom q -> r_left q <= r_right q ->
  exists q', (forall x, expands cells q x <-> x = q') /\ contains q' q /\ whole cells q' /\ forall w, whole cells w -> contains w q -> contains w q'.
Proof.
  intros P N1 N2. destruct (expands_ends cells q (conj N1 N2)) as [q' X]. exists q'. split.
  - intros x. split; [|intros ->; easy]. intros Y. now apply (expands_fun cells q).
  - apply (expands_spec cells q q' P (conj N1 N2) X).
Qed.
Lemma selection_theorem d a b : table_history d -> In a (t_cells d) -> In b (t_cells d) ->
  exists q, (forall x, expands (cell_spans d) (range_between a b) x <-> x = q)
    /\ NoDup (selected_cells d q) /\ In a (selected_cells d q) /\ In b (selected_cells d q)
    /\ forall c, In c (selected_cells d q) <-> In c (t_cells d) /\ exists r k, covers c r k = true /\ inside q r k.
Proof.
  intros H Ha Hb. destruct (history_grid d H) as [G O]. assert (N : nonempty (range_between a b)) by (unfold nonempty; cbn; lia).
  destruct (expand_theorem (cell_spans d) (range_between a b) (spans_positive d)) as (q & X & C & _); [apply N|apply N|]. exists q. split; [easy|].
  assert (Y := proj2 (X q) eq_refl). destruct (selected_whole d _ q G N Y) as [S1 S2]. split; [easy|].
  split; [|split; [|easy]]; apply selected_in; try easy; (split; [easy|]); apply C; unfold inside; cbn; lia.
Qed.

(** ** Positions *)
Definition blk (i : N) (p l : Z) : tblock := mk_tblock i p l.
Definition filled : tdoc := mk_tdoc 1 2 [0; 0] [mk_tcell 10%N 0 0 1 1 0%N [blk 20 4 2]; mk_tcell 11%N 0 1 1 1 0%N [blk 21 7 0]] [blk 1 0 3; blk 2 8 0] 1 4 5 12%N 22%N.
Lemma filled_history : table_history filled.
Proof.
  apply (table_text (got (insert_table sample_others 1 4 1 2 2 3 10%N 20%N))); [apply (table_new sample_others 1 4 1 2 2 3 10%N 20%N); reflexivity|].
  repeat split. vm_compute. discriminate.
Qed.
Lemma filled_placed : own_blocks filled /\ placed filled /\ counted_right filled.
Proof.
  split; [|split].
  - split; [intros b Hb; cbn in Hb; each_cell; lia|]. split; [cbn; repeat constructor; cbn; intuition discriminate|]. intros b Hb. cbn in Hb. each_cell; lia.
  - exists (t_cells filled). split; [easy|]. split; [repeat constructor; cbn; lia|]. cbn. repeat split.
  - split; vm_compute; reflexivity.
Qed.
Lemma placed_in d l : placed d -> Permutation l (t_cells d) -> reads l -> in_place 0 (firstn (t_at d) (t_others d) ++ flat_map tc_blocks l ++ skipn (t_at d) (t_others d)).
Proof.
  intros (l' & P & R & I) P' R'. now rewrite (reads_unique l l' R' R (Permutation_trans P' (Permutation_sym P))).
Qed.
Lemma positions_refuted_lemma : exists d o d', table_history d /\ own_blocks d /\ placed d /\ clean d o /\ tstep d o = Ok d' /\ ~ placed d'.
Proof.
  exists filled, (InsertRow 1), (got (insert_row filled 1)). split; [apply filled_history|]. split; [apply filled_placed|].
  split; [apply filled_placed|]. split; [intros (c & Hc & I); cbn in Hc; each_cell; lia|]. split; [vm_compute; reflexivity|].
  intros P. apply (fun P => placed_in _ (t_cells (got (insert_row filled 1))) P) in P.
  - vm_compute in P. intuition discriminate.
  - easy.
  - unfold reads. vm_compute. repeat constructor; vm_compute; intuition congruence.
Qed.
Definition tall : tdoc := mk_tdoc 2 1 [0] [mk_tcell 10%N 0 0 1 1 0%N [blk 20 0 2; blk 21 3 0]; mk_tcell 11%N 1 0 1 1 0%N [blk 22 4 0]] [] 0 3 2 12%N 23%N.
Lemma counts_refuted_lemma : exists d i d', table_history d /\ own_blocks d /\ placed d /\ counted_right d /\ remove_row d i = Ok d'
  /\ t_count d' <> blocks_of d' /\ t_chars d' <> chars_of d'.
Proof.
  exists tall, 0, (got (remove_row tall 0)). split; [|split; [|split; [|split; [|split; [|split]]]]].
  - apply (table_text (got (insert_table [] 0 0 2 1 0 0 10%N 20%N))); [apply (table_new [] 0 0 2 1 0 0 10%N 20%N); reflexivity|]. repeat split. vm_compute. discriminate.
  - split; [easy|]. split; [cbn; repeat constructor; cbn; intuition discriminate|]. intros b Hb. cbn in Hb. each_cell; lia.
  - exists (t_cells tall). split; [easy|]. split; [repeat constructor; cbn; lia|]. cbn. repeat split.
  - split; vm_compute; reflexivity.
  - vm_compute. reflexivity.
  - vm_compute. discriminate.
  - vm_compute. discriminate.
Qed.
Lemma positions_theorem d : placed_history d -> placed d /\ counted_right d.
Proof. intros H. destruct (placed_history_all d H) as (_ & _ & P & C). easy. Qed.
Lemma position_step_theorem d o d' : table_history d -> unfilled d -> own_blocks d -> placed d -> clean d o -> tstep d o = Ok d' -> placed d'.
Proof. intros H U B P Cl E. destruct (history_grid d H) as [G O]. apply (step_placed d o d' G O U B P Cl E). Qed.
Lemma growth_count_theorem d o d' : table_history d -> counted_right d -> tstep d o = Ok d' ->
  match o with InsertRow _ | InsertColumn _ | Split _ _ _ => counted_right d' | _ => True end.
Proof. intros H C E. destruct (history_grid d H) as [G O]. now apply (grows_count d). Qed.
