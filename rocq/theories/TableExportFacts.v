(** Facts about exported tables. *)
From Coq Require Import String Sorting.Permutation.
From Verif Require Import Base RopeModel TableModel TableSpec TableFacts TablePlaces EscapeModel ExportModel TableExportModel TableExportSpec.
Local Open Scope Z_scope.

Fixpoint zseq (k : Z) (n : nat) : list Z := match n with O => [] | S n => k :: zseq (k + 1) n end.
Lemma zrange_zseq n : zrange n = zseq 0 (Z.to_nat n).
Proof.
  unfold zrange. generalize (Z.to_nat n). intros m. change 0 with (Z.of_nat 0). generalize 0%nat. induction m as [|m IH]; intros k; [easy|]. cbn [seq map zseq].
  rewrite IH. do 2 f_equal. lia.
Qed.
Lemma zseq_app k a b : zseq k (a + b) = zseq k a ++ zseq (k + Z.of_nat a) b.
Proof.
  revert k. induction a as [|a IH]; intros k; cbn [Nat.add zseq app]; [f_equal; lia|]. rewrite IH. do 2 f_equal. f_equal. lia.
Qed.
Lemma in_zseq k n x : In x (zseq k n) <-> k <= x < k + Z.of_nat n.
Proof.
  revert k. induction n as [|n IH]; intros k; cbn [zseq In]; [lia|]. rewrite IH. lia.
Qed.
Definition before (a b r k : Z) : Prop := a < r \/ a = r /\ b < k.

Section Grid.
Variable d : tdoc.
Hypothesis G : grid d.

Lemma found_spec r k c : found d r k = Some c <-> In c (t_cells d) /\ tc_row c = r /\ tc_col c = k.
Proof.
  assert (P := sort_cells_perm (t_cells d)). unfold found. split.
  - intros H. apply find_some in H. destruct H as [H1 H2]. unfold starts_at in H2. apply andb_true_iff in H2. destruct H2 as [A B]. apply Z.eqb_eq in A, B.
    split; [now apply (Permutation_in _ P)|easy].
  - intros (H & Er & Ek). destruct (find (starts_at r k) (sort_cells (t_cells d))) as [c'|] eqn:E.
    + apply find_some in E. destruct E as [H1 H2]. unfold starts_at in H2. apply andb_true_iff in H2. destruct H2 as [A B]. apply Z.eqb_eq in A, B.
      f_equal. apply (start_unique d); auto; [now apply (Permutation_in _ P)|congruence|congruence].
    + exfalso. assert (Q := find_none _ _ E c (Permutation_in _ (Permutation_sym P) H)). unfold starts_at in Q. rewrite Er, Ek, !Z.eqb_refl in Q. easy.
Qed.
Lemma found_at r k : found d r k = cell_at d r k.
Proof.
  destruct (found d r k) as [c|] eqn:E.
  - symmetry. apply cell_at_spec; [easy|]. now apply found_spec.
  - destruct (cell_at d r k) as [c|] eqn:E2; [|easy]. apply cell_at_spec in E2; [|easy]. apply found_spec in E2. congruence.
Qed.
(** The cell that covers a slot. *)
Lemma cover r k : slot d r k -> exists c, In c (t_cells d) /\ covers c r k = true /\ forall c', In c' (t_cells d) -> covers c' r k = true -> c' = c.
Proof.
  intros H. destruct (proj2 (proj2 (proj2 G)) r k H) as [c E]. exists c. assert (I : In c (covering d r k)) by (rewrite E; now left).
  apply filter_In in I. destruct I as [I1 I2]. split; [easy|]. split; [easy|]. intros c' H1 H2. assert (I : In c' (covering d r k)) by now apply filter_In.
  rewrite E in I. now destruct I as [->|[]].
Qed.
Lemma starts_covers c : In c (t_cells d) -> covers c (tc_row c) (tc_col c) = true.
Proof. intros H. destruct (grid_cell d c G H) as (A & B & _). apply covers_iff. lia. Qed.
Lemma starts_slot c : In c (t_cells d) -> slot d (tc_row c) (tc_col c).
Proof. intros H. destruct (grid_cell d c G H) as (A & B & C). unfold slot. lia. Qed.

(** Cells that start in a part of a row. *)
Definition row_cells (r : Z) (ks : list Z) : list tcell := flat_map (fun k => match found d r k with Some c => [c] | None => [] end) ks.
Lemma in_row_cells r ks c : In c (row_cells r ks) <-> In c (t_cells d) /\ tc_row c = r /\ In (tc_col c) ks.
Proof.
  unfold row_cells. rewrite in_flat_map. split.
  - intros (k & Hk & H). destruct (found d r k) as [x|] eqn:E; [|easy]. destruct H as [->|[]]. apply found_spec in E. now destruct E as (A & B & ->).
  - intros (H & <- & Hk). exists (tc_col c). split; [easy|]. replace (found d (tc_row c) (tc_col c)) with (Some c) by (symmetry; now apply found_spec). now left.
Qed.
Lemma row_cells_nil r ks : (forall c, In c (t_cells d) -> tc_row c = r -> ~ In (tc_col c) ks) -> row_cells r ks = [].
Proof. intros H. destruct (row_cells r ks) as [|c l] eqn:E; [easy|]. assert (I : In c (row_cells r ks)) by (rewrite E; now left). apply in_row_cells in I. now destruct (H c) as []. Qed.
Definition all_cells : list tcell := flat_map (fun r => row_cells r (zrange (t_cols d))) (zrange (t_rows d)).
Lemma all_cells_perm : own_ids d -> Permutation all_cells (t_cells d).
Proof.
  intros O. assert (E : all_cells = selected_cells d (mk_rect 0 0 (t_rows d - 1) (t_cols d - 1))).
  { unfold all_cells, selected_cells, row_cells. cbn [r_top r_left r_bottom r_right]. replace (t_rows d - 1 - 0 + 1) with (t_rows d) by lia. replace (t_cols d - 1 - 0 + 1) with (t_cols d) by lia.
    assert (M : forall l, map (Z.add 0) l = l) by (intros l; induction l as [|x l IH]; [easy|]; cbn [map]; now rewrite IH).
    rewrite !M.
    assert (F : forall (f g : Z -> list tcell) l, (forall x, f x = g x) -> flat_map f l = flat_map g l) by (intros f g l H; induction l as [|x l IH]; [easy|]; cbn; now rewrite H, IH).
    apply F. intros r. apply F. intros k. now rewrite found_at. }
  rewrite E. apply NoDup_Permutation; [now apply selected_nodup|exact (NoDup_map_inv _ _ (proj1 O))|]. intros c. rewrite selected_in by easy.
  split; [easy|]. intros H. split; [easy|]. destruct (starts_slot c H) as [A B]. unfold inside. cbn. lia.
Qed.

(** ** What is covered when the exporter is at a slot *)
Definition marked (covered : Z -> Z -> bool) (r k : Z) : Prop := forall r' k', slot d r' k' ->
  covered r' k' = true <-> exists c, In c (t_cells d) /\ covers c r' k' = true /\ (tc_row c <> r' \/ tc_col c <> k') /\ before (tc_row c) (tc_col c) r k.
Lemma marked_start : marked (fun _ _ => false) 0 0.
Proof.
  intros r k H. split; [easy|]. intros (c & Hc & _ & _ & B). destruct (starts_slot c Hc). unfold before in B. lia.
Qed.
Lemma marked_here covered r k : marked covered r k -> slot d r k ->
  if covered r k then found d r k = None /\ marked covered r (k + 1)
  else exists c, found d r k = Some c /\ marked (mark d c r k covered) r (k + 1).
Proof.
  intros M H. destruct (cover r k H) as (c & Hc & Cv & U). assert (Cv' := Cv). apply covers_iff in Cv'.
  destruct (covered r k) eqn:E.
  - apply (M r k H) in E. destruct E as (c' & Hc' & Cv2 & N & B). apply U in Cv2; [|easy]. subst c'. split.
    + destruct (found d r k) as [x|] eqn:F; [|easy]. apply found_spec in F. destruct F as (Hx & Er & Ek).
      assert (X : x = c) by (apply U; [easy|]; rewrite <- Er, <- Ek; now apply starts_covers). subst x. lia.
    + intros r' k' H'. rewrite (M r' k' H'). split.
      * intros (x & Hx & Cx & Nx & Bx). exists x. unfold before in *. repeat split; auto. lia.
      * intros (x & Hx & Cx & Nx & Bx). exists x. repeat split; auto. unfold before in *.
        destruct (Z.eq_dec (tc_row x) r) as [Er|]; [|lia]. destruct (Z.eq_dec (tc_col x) k) as [Ek|]; [|lia].
        assert (X : x = c) by (apply U; [easy|]; rewrite <- Er, <- Ek; now apply starts_covers). subst x. lia.
  - assert (S : tc_row c = r /\ tc_col c = k).
    { destruct (Z.eq_dec (tc_row c) r) as [Er|Nr], (Z.eq_dec (tc_col c) k) as [Ek|Nk]; [easy| | |]; exfalso;
        assert (X : covered r k = true) by (apply (M r k H); exists c; unfold before; repeat split; auto; lia); congruence. }
    destruct S as [Er Ek]. exists c. split; [now apply found_spec|]. intros r' k' H'. unfold mark. rewrite orb_true_iff, (M r' k' H'). rewrite !andb_true_iff, negb_true_iff, andb_false_iff.
    rewrite !Z.leb_le, !Z.ltb_lt, !Z.eqb_neq. split.
    + intros [(x & Hx & Cx & Nx & Bx)|Hm].
      * exists x. unfold before in *. repeat split; auto. lia.
      * exists c. rewrite covers_iff. unfold before. repeat split; auto; lia.
    + intros (x & Hx & Cx & Nx & Bx). destruct (Z.eq_dec (tc_row x) r) as [Er'|Nr]; [destruct (Z.eq_dec (tc_col x) k) as [Ek'|Nk]|].
      * right. assert (X : x = c) by (apply (start_unique d); auto; congruence). subst x. apply covers_iff in Cx. unfold slot in H'. lia.
      * left. exists x. unfold before in *. repeat split; auto. lia.
      * left. exists x. unfold before in *. repeat split; auto. lia.
Qed.
(** No cell starts in between. *)
Lemma marked_jump covered r k k' : marked covered r k -> k <= k' -> (forall c, In c (t_cells d) -> tc_row c = r -> ~ k <= tc_col c < k') -> marked covered r k'.
Proof.
  intros M L N r' j H'. rewrite (M r' j H'). split; intros (x & Hx & Cx & Nx & Bx); exists x; unfold before in *; repeat split; auto; [lia|].
  destruct (Z.eq_dec (tc_row x) r) as [Er|]; [|lia]. specialize (N x Hx Er). lia.
Qed.
Lemma marked_next covered r : marked covered r (t_cols d) -> marked covered (r + 1) 0.
Proof.
  intros M r' j H'. rewrite (M r' j H'). split; intros (x & Hx & Cx & Nx & Bx); exists x; unfold before in *; repeat split; auto; destruct (starts_slot x Hx); lia.
Qed.

(** ** HTML *)
Variable inline : id -> str.
Definition td_of (c : tcell) : td := mk_td (tc_rs c) (tc_cs c) (join_with (lit "<br/>") (shown_parts inline (tc_blocks c))).
Lemma html_td_is c : html_td inline c = show_td (td_of c).
Proof. reflexivity. Qed.
Lemma html_row_is r n : forall k covered, 0 <= r < t_rows d -> 0 <= k -> k + Z.of_nat n = t_cols d -> marked covered r k ->
  exists covered', html_row inline d r (zseq k n) covered = (flat_map show_td (map td_of (row_cells r (zseq k n))), covered') /\ marked covered' r (t_cols d).
Proof.
  induction n as [|n IH]; intros k covered Hr Hk E M; cbn [zseq html_row].
  - exists covered. split; [easy|]. replace (t_cols d) with k by lia. easy.
  - assert (H : slot d r k) by (unfold slot; lia). assert (X := marked_here covered r k M H). destruct (covered r k).
    + destruct X as [F M']. destruct (IH (k + 1) covered Hr ltac:(lia) ltac:(lia) M') as (cv & -> & M2). exists cv. split; [|easy]. cbn [row_cells flat_map]. now rewrite F.
    + destruct X as (c & F & M'). rewrite F. destruct (IH (k + 1) _ Hr ltac:(lia) ltac:(lia) M') as (cv & -> & M2). exists cv. split; [|easy]. cbn [row_cells flat_map]. rewrite F. reflexivity.
Qed.
Definition td_rows_of (n : nat) (r : Z) : list (list td) := map (fun r => map td_of (row_cells r (zrange (t_cols d)))) (zseq r n).
Lemma cols_nat : 0 + Z.of_nat (Z.to_nat (t_cols d)) = t_cols d.
Proof. destruct G as (_ & C & _). lia. Qed.
Lemma html_rows_is n : forall r covered, 0 <= r -> r + Z.of_nat n = t_rows d -> marked covered r 0 ->
  html_rows inline d (zseq r n) covered = flat_map show_tr (td_rows_of n r).
Proof.
  induction n as [|n IH]; intros r covered Hr E M; cbn [zseq html_rows]; [easy|]. rewrite zrange_zseq.
  destruct (html_row_is r (Z.to_nat (t_cols d)) 0 covered ltac:(lia) ltac:(lia) cols_nat M) as (cv & -> & M2). rewrite (IH (r + 1) cv ltac:(lia) ltac:(lia) (marked_next _ _ M2)).
  unfold td_rows_of. cbn [zseq map flat_map]. unfold show_tr at 2. rewrite zrange_zseq. now rewrite <- !app_assoc.
Qed.
(** Placing them. *)
Notation td_place := (TableExportSpec.td_place inline).
Definition took (ps : list placed_td) (r k : Z) : Prop := forall r' k', taken ps r' k' <-> exists c, In c (t_cells d) /\ covers c r' k' = true /\ before (tc_row c) (tc_col c) r k.
Lemma taken_app ps qs r k : taken (ps ++ qs) r k <-> taken ps r k \/ taken qs r k.
Proof. unfold taken. setoid_rewrite in_app_iff. firstorder. Qed.
Lemma taken_one c r k : taken [td_place c] r k <-> covers c r k = true.
Proof.
  unfold taken. rewrite covers_iff. split; [intros (p & [<-|[]] & H); exact H|]. intros H. exists (td_place c). split; [now left|exact H].
Qed.
Lemma took_here ps r k : took ps r k -> slot d r k ->
  match found d r k with Some c => ~ taken ps r k /\ took (ps ++ [td_place c]) r (k + 1) | None => taken ps r k /\ took ps r (k + 1) end.
Proof.
  intros T H. destruct (cover r k H) as (c & Hc & Cv & U). assert (Cv' := Cv). apply covers_iff in Cv'. destruct (found d r k) as [x|] eqn:F.
  - apply found_spec in F. destruct F as (Hx & Er & Ek). assert (X : x = c) by (apply U; [easy|]; rewrite <- Er, <- Ek; now apply starts_covers). subst x. split.
    + intros Tk. apply T in Tk. destruct Tk as (x & Hx' & Cx & Bx). apply U in Cx; [|easy]. subst x. unfold before in Bx. lia.
    + intros r' k'. rewrite taken_app, taken_one, (T r' k'). split.
      * intros [(x & Hx' & Cx & Bx)|Cx]; [exists x|exists c]; unfold before in *; repeat split; auto; lia.
      * intros (x & Hx' & Cx & Bx). destruct (Z.eq_dec (tc_row x) r) as [Er'|Nr]; [destruct (Z.eq_dec (tc_col x) k) as [Ek'|Nk]|].
        -- right. assert (X : x = c) by (apply (start_unique d); auto; congruence). now subst x.
        -- left. exists x. unfold before in *. repeat split; auto. lia.
        -- left. exists x. unfold before in *. repeat split; auto. lia.
  - assert (N : ~ (tc_row c = r /\ tc_col c = k)) by (intros N; assert (X : found d r k = Some c) by (now apply found_spec); congruence). split.
    + apply T. exists c. unfold before. repeat split; auto. lia.
    + intros r' k'. rewrite (T r' k'). split; intros (x & Hx' & Cx & Bx); exists x; unfold before in *; repeat split; auto; [lia|].
      destruct (Z.eq_dec (tc_row x) r) as [Er'|Nr]; [|lia]. destruct (Z.eq_dec (tc_col x) k) as [Ek'|Nk]; [|lia].
      assert (X : found d r k = Some x) by (now apply found_spec). congruence.
Qed.
Lemma skip_or_end r ps k l ps' : taken ps r k -> row_laid r ps (k + 1) l ps' -> row_laid r ps k l ps'.
Proof. intros T H. destruct l as [|t l]; [inversion H; subst; constructor|now apply row_skip]. Qed.
Lemma row_laid_is r n : forall k ps, 0 <= r < t_rows d -> 0 <= k -> k + Z.of_nat n = t_cols d -> took ps r k ->
  let l := row_cells r (zseq k n) in row_laid r ps k (map td_of l) (ps ++ map td_place l) /\ took (ps ++ map td_place l) r (t_cols d).
Proof.
  induction n as [|n IH]; intros k ps Hr Hk E T; cbn [zseq row_cells flat_map].
  - rewrite app_nil_r. split; [constructor|]. replace (t_cols d) with k by lia. easy.
  - assert (H : slot d r k) by (unfold slot; lia). assert (X := took_here ps r k T H). fold (row_cells r (zseq (k + 1) n)). destruct (found d r k) as [c|] eqn:F.
    + destruct X as [N T']. destruct (IH (k + 1) _ Hr ltac:(lia) ltac:(lia) T') as [L T2]. cbn [app map]. rewrite <- app_assoc in L, T2. split; [|exact T2].
      apply found_spec in F. destruct F as (_ & Er & Ek). apply row_cell; [easy|]. unfold td_place in L at 1. rewrite Er, Ek in L. exact L.
    + destruct X as [Tk T']. destruct (IH (k + 1) ps Hr ltac:(lia) ltac:(lia) T') as [L T2]. cbn [app map]. split; [|easy]. now apply skip_or_end.
Qed.
Lemma took_next ps r : took ps r (t_cols d) -> took ps (r + 1) 0.
Proof.
  intros T r' k'. rewrite (T r' k'). split; intros (x & Hx & Cx & Bx); exists x; unfold before in *; repeat split; auto; destruct (starts_slot x Hx); lia.
Qed.
Lemma laid_is n : forall r ps, 0 <= r -> r + Z.of_nat n = t_rows d -> took ps r 0 ->
  laid ps r (td_rows_of n r) (ps ++ map td_place (flat_map (fun r => row_cells r (zrange (t_cols d))) (zseq r n))).
Proof.
  induction n as [|n IH]; intros r ps Hr E T; cbn [zseq flat_map td_rows_of map].
  - rewrite app_nil_r. constructor.
  - rewrite map_app, app_assoc. destruct (row_laid_is r (Z.to_nat (t_cols d)) 0 ps ltac:(lia) ltac:(lia) cols_nat T) as [L T2]. rewrite <- zrange_zseq in L, T2.
    eapply laid_row; [exact L|]. apply (IH (r + 1)); [lia|lia|]. now apply took_next.
Qed.
Lemma rows_nat : 0 + Z.of_nat (Z.to_nat (t_rows d)) = t_rows d.
Proof. destruct G as (C & _). lia. Qed.
Lemma html_theorem border : own_ids d -> exists rows ps, html_table inline border d = show_table border rows /\ Z.of_nat (List.length rows) = t_rows d
  /\ laid [] 0 rows ps /\ Permutation ps (map td_place (t_cells d)).
Proof.
  intros O. exists (td_rows_of (Z.to_nat (t_rows d)) 0), (map td_place all_cells). split.
  - unfold html_table, show_table. rewrite zrange_zseq, html_rows_is; [reflexivity|lia|exact rows_nat|exact marked_start].
  - split; [unfold td_rows_of; rewrite map_length, <- zrange_zseq, length_zrange; destruct G; lia|]. split; [|now apply Permutation_map, all_cells_perm].
    unfold all_cells. rewrite (zrange_zseq (t_rows d)). apply (laid_is (Z.to_nat (t_rows d)) 0 []); [lia|exact rows_nat|].
    intros r k. split; [intros (p & [] & _)|]. intros (x & Hx & _ & B). destruct (starts_slot x Hx). unfold before in B. lia.
Qed.
(** ** Reading rows of single cells *)
Lemma single_row r n : (forall c, In c (t_cells d) -> tc_rs c = 1 /\ tc_cs c = 1) -> forall k, 0 <= r < t_rows d -> 0 <= k -> k + Z.of_nat n = t_cols d ->
  let l := row_cells r (zseq k n) in List.length l = n /\ number_cells k (map td_of l) = map (fun c => (tc_col c, td_of c)) l /\ forall c, In c l -> tc_row c = r.
Proof.
  intros One. induction n as [|n IH]; intros k Hr Hk E; cbn [zseq row_cells flat_map]; [easy|]. fold (row_cells r (zseq (k + 1) n)).
  destruct (IH (k + 1) Hr ltac:(lia) ltac:(lia)) as (L & N & R). destruct (cover r k ltac:(unfold slot; lia)) as (c & Hc & Cv & _). apply covers_iff in Cv. destruct (One c Hc).
  replace (found d r k) with (Some c) by (symmetry; apply found_spec; repeat split; [easy|lia|lia]). cbn [app List.length map number_cells In].
  split; [now rewrite L|]. split; [rewrite N; do 2 f_equal; lia|]. intros c' [<-|H']; [lia|auto].
Qed.
Lemma import_is n : (forall c, In c (t_cells d) -> tc_rs c = 1 /\ tc_cs c = 1) -> forall r, 0 <= r -> r + Z.of_nat n = t_rows d ->
  import_rows r (td_rows_of n r) = map (fun c => (tc_row c, tc_col c, 1, 1, td_of c)) (flat_map (fun r => row_cells r (zrange (t_cols d))) (zseq r n)).
Proof.
  intros One. induction n as [|n IH]; intros r Hr E; cbn [zseq flat_map td_rows_of map import_rows]; [easy|]. rewrite map_app. fold (td_rows_of n (r + 1)). rewrite IH by lia. f_equal.
  destruct (single_row r (Z.to_nat (t_cols d)) One 0 ltac:(lia) ltac:(lia) cols_nat) as (_ & N & R). rewrite <- zrange_zseq in N, R. rewrite N, map_map. apply map_ext_in.
  intros c Hc. now rewrite (R c Hc).
Qed.
Lemma reimport_theorem border : own_ids d -> (forall c, In c (t_cells d) -> tc_rs c = 1 /\ tc_cs c = 1) ->
  exists rows t, html_table inline border d = show_table border rows /\ import_table rows = Some t /\ rt_rows t = t_rows d /\ rt_cols t = t_cols d
    /\ Permutation (rt_cells t) (map (fun c => (tc_row c, tc_col c, 1, 1, td_of c)) (t_cells d)).
Proof.
  intros O One. exists (td_rows_of (Z.to_nat (t_rows d)) 0).
  assert (L : forall row, In row (td_rows_of (Z.to_nat (t_rows d)) 0) -> List.length row = Z.to_nat (t_cols d)).
  { intros row H. apply in_map_iff in H. destruct H as (r & <- & H). apply in_zseq in H. assert (Rn := rows_nat).
    destruct (single_row r (Z.to_nat (t_cols d)) One 0 ltac:(lia) ltac:(lia) cols_nat) as (E & _). now rewrite map_length, zrange_zseq. }
  assert (C := cols_nat). assert (R := rows_nat). destruct G as (R1 & C1 & _).
  assert (F : forall l : list (list td), (forall row, In row l -> List.length row = Z.to_nat (t_cols d)) -> filter (fun row : list td => match row with [] => false | _ => true end) l = l).
  { induction l as [|row l IH]; intros H; [easy|]. cbn. destruct row as [|x row]; [specialize (H [] ltac:(now left)); cbn in H; lia|]. f_equal. apply IH. intros; apply H. now right. }
  unfold import_table. rewrite (F _ L). destruct (td_rows_of (Z.to_nat (t_rows d)) 0) as [|row rest] eqn:E.
  { apply (f_equal (@List.length _)) in E. unfold td_rows_of in E. rewrite map_length, <- zrange_zseq, length_zrange in E. cbn in E. lia. }
  eexists. split; [|split; [reflexivity|]]. 
  - rewrite <- E. unfold html_table, show_table. rewrite zrange_zseq, html_rows_is; [reflexivity|lia|exact R|exact marked_start].
  - cbn [rt_rows rt_cols rt_cells]. rewrite (L row ltac:(now left)). rewrite <- E. split; [unfold td_rows_of; rewrite map_length, <- zrange_zseq, length_zrange; lia|]. split; [lia|].
    rewrite import_is by (easy || lia). rewrite <- zrange_zseq. apply Permutation_map. now apply all_cells_perm.
Qed.

(** ** LaTeX *)
Definition lx_of (c : tcell) : lx := mk_lx (tc_rs c) (tc_cs c) (join_with (lit " ") (shown_parts inline (tc_blocks c))).
Lemma latex_cell_is c : latex_cell inline c = show_lx (lx_of c).
Proof. unfold latex_cell, show_lx, lx_of. cbn [lx_rows lx_cols lx_in]. destruct (1 <? tc_rs c), (1 <? tc_cs c); reflexivity. Qed.
(** Behind a cell, no cell starts before its end. *)
Lemma behind c k' n : In c (t_cells d) -> tc_col c + 1 <= k' <= tc_col c + tc_cs c -> k' + Z.of_nat n = t_cols d ->
  row_cells (tc_row c) (zseq (tc_col c + 1) (Z.to_nat (t_cols d - tc_col c - 1))) = row_cells (tc_row c) (zseq k' n)
  /\ forall c', In c' (t_cells d) -> tc_row c' = tc_row c -> ~ tc_col c + 1 <= tc_col c' < k'.
Proof.
  intros Hc Hk E. assert (N : forall c', In c' (t_cells d) -> tc_row c' = tc_row c -> ~ tc_col c + 1 <= tc_col c' < k').
  { intros c' Hc' Er B. destruct (cover (tc_row c) (tc_col c') ltac:(rewrite <- Er; now apply starts_slot)) as (x & _ & _ & U).
    assert (X1 : c = x) by (apply U; [easy|]; apply covers_iff; destruct (grid_cell d c G Hc); lia).
    assert (X2 : c' = x) by (apply U; [easy|]; rewrite <- Er; now apply starts_covers). assert (c' = c) by congruence. rewrite H in B. clear - B. lia. }
  split; [|exact N]. destruct (starts_slot c Hc). replace (Z.to_nat (t_cols d - tc_col c - 1)) with (Z.to_nat (k' - tc_col c - 1) + n)%nat by lia.
  rewrite zseq_app. unfold row_cells at 1. rewrite flat_map_app. fold (row_cells (tc_row c) (zseq (tc_col c + 1) (Z.to_nat (k' - tc_col c - 1)))).
  rewrite row_cells_nil; [cbn [app]; unfold row_cells; do 2 f_equal; lia|]. intros c' Hc' Er I. apply in_zseq in I. apply (N c' Hc' Er). lia.
Qed.
Lemma row_cells_step r k n c : found d r k = Some c -> k + Z.of_nat (S n) = t_cols d ->
  row_cells r (zseq k (S n)) = c :: row_cells r (zseq (k + tc_cs c) (Z.to_nat (t_cols d - (k + tc_cs c)))).
Proof.
  intros F E. assert (F' := F). apply found_spec in F'. destruct F' as (Hc & Er & Ek). destruct (grid_cell d c G Hc) as (A1 & A2 & _ & _ & _ & A3).
  destruct (behind c (k + tc_cs c) (Z.to_nat (t_cols d - (k + tc_cs c))) Hc ltac:(lia) ltac:(lia)) as [B1 _]. rewrite Er, Ek in *. rewrite <- B1. cbn [zseq]. unfold row_cells. cbn [flat_map]. rewrite F. cbn [app].
  do 3 f_equal. lia.
Qed.
Lemma latex_row_is r m : forall n k covered, (n <= m)%nat -> 0 <= r < t_rows d -> 0 <= k -> k + Z.of_nat n = t_cols d -> marked covered r k ->
  exists covered', latex_row inline m d r k covered = (map show_lx (map lx_of (row_cells r (zseq k n))), covered') /\ marked covered' r (t_cols d).
Proof.
  induction m as [|m IH]; intros n k covered Hm Hr Hk E M.
  - destruct n; [|lia]. exists covered. split; [easy|]. replace (t_cols d) with k by lia. easy.
  - cbn [latex_row]. destruct (Z.leb_spec (t_cols d) k) as [Hl|Hl].
    + assert (n = 0%nat) by lia. subst n. exists covered. split; [easy|]. replace (t_cols d) with k by lia. easy.
    + assert (H : slot d r k) by (unfold slot; lia). assert (X := marked_here covered r k M H). destruct n as [|n]; [lia|]. destruct (covered r k).
      * destruct X as [F M']. destruct (IH n (k + 1) covered ltac:(lia) Hr ltac:(lia) ltac:(lia) M') as (cv & -> & M2). exists cv. split; [|easy]. cbn [zseq row_cells flat_map]. now rewrite F.
      * destruct X as (c & F & M'). rewrite F. assert (F' := F). apply found_spec in F'. destruct F' as (Hc & Er & Ek). destruct (grid_cell d c G Hc) as (A1 & A2 & _ & _ & _ & A3).
        destruct (behind c (k + tc_cs c) (Z.to_nat (t_cols d - (k + tc_cs c))) Hc ltac:(lia) ltac:(lia)) as [B1 B2]. rewrite Er, Ek in *.
        destruct (IH (Z.to_nat (t_cols d - (k + tc_cs c))) (k + tc_cs c) (mark d c r k covered) ltac:(lia) Hr ltac:(lia) ltac:(lia)
          (marked_jump (mark d c r k covered) r (k + 1) (k + tc_cs c) M' ltac:(lia) B2)) as (cv & -> & M2). exists cv. split; [|easy].
        now rewrite latex_cell_is, (row_cells_step r k n c F E).
Qed.
Definition lx_rows_of (n : nat) (r : Z) : list (list lx) := map (fun r => map lx_of (row_cells r (zrange (t_cols d)))) (zseq r n).
Lemma latex_rows_is n : forall r covered, 0 <= r -> r + Z.of_nat n = t_rows d -> marked covered r 0 ->
  latex_rows inline d (zseq r n) covered = flat_map show_lx_row (lx_rows_of n r).
Proof.
  induction n as [|n IH]; intros r covered Hr E M; cbn [zseq latex_rows]; [easy|].
  destruct (latex_row_is r (Z.to_nat (t_cols d)) (Z.to_nat (t_cols d)) 0 covered ltac:(lia) ltac:(lia) ltac:(lia) cols_nat M) as (cv & -> & M2).
  rewrite (IH (r + 1) cv ltac:(lia) ltac:(lia) (marked_next _ _ M2)). unfold lx_rows_of. cbn [zseq map flat_map]. unfold show_lx_row at 2. rewrite zrange_zseq. now rewrite <- !app_assoc.
Qed.
Lemma latex_shown : latex_table inline d = show_tabular (t_cols d) (lx_rows_of (Z.to_nat (t_rows d)) 0).
Proof. unfold latex_table, show_tabular. rewrite (zrange_zseq (t_rows d)), latex_rows_is; [reflexivity|lia|exact rows_nat|exact marked_start]. Qed.
(** With no cell over several rows, each cell begins where the one before ends. *)
Lemma flat_columns r : (forall c, In c (t_cells d) -> tc_rs c = 1) -> 0 <= r < t_rows d -> forall m n k, (n <= m)%nat -> 0 <= k -> k + Z.of_nat n = t_cols d ->
  (0 < n -> exists c, found d r k = Some c)%nat ->
  lx_columns k (map lx_of (row_cells r (zseq k n))) = map (fun c => (tc_col c, lx_of c)) (row_cells r (zseq k n)).
Proof.
  intros One Hr. induction m as [|m IH]; intros n k Hm Hk E S.
  - destruct n; [easy|lia].
  - destruct n as [|n]; [easy|]. destruct (S ltac:(lia)) as [c F]. assert (F' := F). apply found_spec in F'. destruct F' as (Hc & Er & Ek). destruct (grid_cell d c G Hc) as (A1 & A2 & _ & _ & _ & A3).
    rewrite (row_cells_step r k n c F E). cbn [map lx_columns lx_of lx_cols]. rewrite Ek. f_equal. apply IH; [lia|lia|lia|]. intros Hn.
    destruct (cover r (k + tc_cs c) ltac:(unfold slot; lia)) as (x & Hx & Cx & U). exists x. apply found_spec. assert (Ox := One x Hx). apply covers_iff in Cx. split; [easy|]. split; [lia|].
    destruct (Z.eq_dec (tc_col x) (k + tc_cs c)) as [|Nx]; [easy|]. exfalso.
    destruct (cover r (k + tc_cs c - 1) ltac:(unfold slot; lia)) as (y & Hy & _ & Uy). assert (Oc := One c Hc).
    assert (x = y) by (apply Uy; [easy|]; apply covers_iff; lia). assert (c = y) by (apply Uy; [easy|]; apply covers_iff; lia). assert (Xc : x = c) by congruence. rewrite Xc in *. lia.
Qed.
Lemma flat_places n : (forall c, In c (t_cells d) -> tc_rs c = 1) -> forall r, 0 <= r -> r + Z.of_nat n = t_rows d ->
  lx_places r (lx_rows_of n r) = map (fun c => (tc_row c, tc_col c, lx_of c)) (flat_map (fun r => row_cells r (zrange (t_cols d))) (zseq r n)).
Proof.
  intros One. induction n as [|n IH]; intros r Hr E; cbn [zseq flat_map lx_rows_of map lx_places]; [easy|]. rewrite map_app. fold (lx_rows_of n (r + 1)). rewrite IH by lia. f_equal.
  rewrite zrange_zseq. rewrite (flat_columns r One ltac:(lia) _ _ 0 (le_n _) ltac:(lia) cols_nat).
  - rewrite map_map. apply map_ext_in. intros c Hc. apply in_row_cells in Hc. now destruct Hc as (_ & -> & _).
  - intros _. destruct (cover r 0) as (c & Hc & Cv & _); [destruct G; unfold slot; lia|]. exists c. apply found_spec. apply covers_iff in Cv. assert (Oc := One c Hc). destruct (starts_slot c Hc). repeat split; [easy|lia|lia].
Qed.
Lemma latex_theorem : own_ids d -> (forall c, In c (t_cells d) -> tc_rs c = 1) ->
  exists rows, latex_table inline d = show_tabular (t_cols d) rows /\ Permutation (lx_places 0 rows) (map (lx_place inline) (t_cells d)).
Proof.
  intros O One. exists (lx_rows_of (Z.to_nat (t_rows d)) 0). split; [exact latex_shown|]. rewrite flat_places; [|easy|lia|exact rows_nat].
  rewrite <- zrange_zseq. apply Permutation_map. now apply all_cells_perm.
Qed.
End Grid.
(** ** Only one way to place cells *)
Lemma row_laid_one r ps k l a : row_laid r ps k l a -> forall b, row_laid r ps k l b -> a = b.
Proof.
  induction 1 as [ps k|ps k t rest ps' T _ IH|ps k t rest ps' T _ IH]; intros b H; inversion H; subst; auto; contradiction.
Qed.
Lemma laid_one ps r rows a : laid ps r rows a -> forall b, laid ps r rows b -> a = b.
Proof.
  induction 1 as [ps r|ps r row rest p1 p2 H1 _ IH]; intros b H; inversion H; subst; auto. apply IH. now rewrite (row_laid_one _ _ _ _ _ H1 _ H5).
Qed.
