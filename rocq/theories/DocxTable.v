(** The table of a DOCX file shows the table of the document. *)
From Coq Require Import Sorting.Permutation.
From Verif Require Import Base RopeModel TableModel TableSpec TablePlaces DocxModel DocxSpec.
Local Open Scope Z_scope.

Section Table.
Context {A : Type} (para : tblock -> A) (empty : A) (d : tdoc).
Hypothesis G : grid d.
Hypothesis thin : forall c, In c (t_cells d) -> tc_rs c = 1 \/ tc_cs c = 1.
Let cells := sort_cells (t_cells d).

Lemma in_cells c : In c cells <-> In c (t_cells d).
Proof.
  unfold cells. split; apply Permutation_in; [apply sort_cells_perm|symmetry; apply sort_cells_perm].
Qed.
Lemma cover_one r k : slot d r k -> exists c, In c (t_cells d) /\ covers c r k = true /\ forall c', In c' (t_cells d) -> covers c' r k = true -> c' = c.
Proof.
  intros S. destruct G as (_ & _ & _ & H). destruct (H r k S) as [c E]. exists c.
  assert (Hc : In c (covering d r k)) by (rewrite E; now left). unfold covering in Hc. apply filter_In in Hc. destruct Hc as [H1 H2].
  split; [easy|]. split; [easy|]. intros c' H3 H4. assert (Hc : In c' (covering d r k)) by (unfold covering; apply filter_In; easy).
  rewrite E in Hc. destruct Hc as [<-|[]]. easy.
Qed.
Lemma sizes c : In c (t_cells d) -> 1 <= tc_rs c /\ 1 <= tc_cs c /\ 0 <= tc_row c /\ tc_row c + tc_rs c <= t_rows d
  /\ 0 <= tc_col c /\ tc_col c + tc_cs c <= t_cols d.
Proof.
  intros H. destruct G as (_ & _ & K & _). destruct (K c H) as (R & C & S).
  assert (S1 : slot d (tc_row c) (tc_col c)) by (apply S; unfold covers; lia).
  assert (S2 : slot d (tc_row c + tc_rs c - 1) (tc_col c + tc_cs c - 1)) by (apply S; unfold covers; lia).
  unfold slot in *. lia.
Qed.

(** What a slot adds to its row. *)
Definition own (c : tcell) : dcell A :=
  mk_dcell (if 1 <? tc_cs c then tc_cs c else 1) (if 1 <? tc_rs c then Some true else None) (map para (sort_tblocks (tc_blocks c))).
Definition piece (c : tcell) (r k : Z) : list (dcell A) :=
  if tc_col c =? k then [if tc_row c =? r then own c else mk_dcell 1 (Some false) []] else [].
Definition ready (r k : Z) (cov : list (Z * Z)) : Prop :=
  forall r' k', slot d r' k' -> (covered cov r' k' = true <->
    exists c, In c (t_cells d) /\ covers c r' k' = true /\ ~ (tc_row c = r' /\ tc_col c = k')
              /\ (tc_row c < r \/ tc_row c = r /\ tc_col c < k)).

Lemma covered_app x y r k : covered (x ++ y) r k = covered x r k || covered y r k.
Proof. apply existsb_app. Qed.
Lemma in_zrange n x : In x (zrange n) <-> 0 <= x < n.
Proof.
  unfold zrange. rewrite in_map_iff. split.
  - intros (y & <- & H). apply in_seq in H. lia.
  - intros H. exists (Z.to_nat x). split; [lia|]. apply in_seq. lia.
Qed.
Lemma covered_marks r k rs cs r' k' : slot d r' k' ->
  (covered (marks (t_rows d) (t_cols d) r k rs cs) r' k' = true <->
   r <= r' < r + rs /\ k <= k' < k + cs /\ ~ (r' = r /\ k' = k)).
Proof.
  intros S. unfold covered, marks. rewrite existsb_exists. split.
  - intros ([x y] & H & E). cbn [fst snd] in E. apply filter_In in H. destruct H as [H F]. cbn [fst snd] in F.
    apply in_flat_map in H. destruct H as (sr & Hr & H). apply in_map_iff in H. destruct H as (sc & E' & Hc).
    injection E' as <- <-. apply in_zrange in Hr. apply in_zrange in Hc. lia.
  - intros (H1 & H2 & H3). exists (r', k'). cbn [fst snd]. split; [|lia]. apply filter_In. cbn [fst snd]. split.
    + apply in_flat_map. exists (r' - r). split; [apply in_zrange; lia|]. apply in_map_iff. exists (k' - k).
      split; [f_equal; lia|apply in_zrange; lia].
    + unfold slot in S. lia.
Qed.

Lemma slot_step r k cov c : slot d r k -> ready r k cov -> In c (t_cells d) -> covers c r k = true ->
  exists cov', docx_slot para empty d cells r k cov = (piece c r k, cov') /\ ready r (k + 1) cov'.
Proof.
  intros S R Hc Cc. destruct (cover_one r k S) as (c0 & _ & _ & U). assert (U' : forall c', In c' (t_cells d) -> covers c' r k = true -> c' = c).
  { intros c' H1 H2. rewrite (U c' H1 H2). symmetry. now apply U. } clear U c0.
  pose proof (sizes c Hc) as Z1. unfold docx_slot.
  assert (D : tc_row c = r /\ tc_col c = k \/ ~ (tc_row c = r /\ tc_col c = k)) by lia. destruct D as [[Dr Dk]|D].
  - assert (N : covered cov r k = false).
    { destruct (covered cov r k) eqn:E; [|easy]. apply R in E; [|easy]. destruct E as (c' & H1 & H2 & H3 & H4). rewrite (U' c' H1 H2) in H3. tauto. }
    rewrite N.
    destruct (find (fun x => (tc_row x =? r) && (tc_col x =? k)) cells) as [x|] eqn:F.
    2:{ exfalso. pose proof (find_none _ _ F c ltac:(now apply in_cells)) as Q. cbn in Q. lia. }
    apply find_some in F. destruct F as [F1 F2]. apply (proj1 (in_cells x)) in F1.
    assert (x = c). { apply U'; [easy|]. pose proof (sizes x F1). unfold covers. lia. } subst x.
    eexists. split.
    { unfold piece. rewrite Dr, Dk, !Z.eqb_refl. reflexivity. }
    intros r' k' S'. rewrite covered_app, orb_true_iff, (R r' k' S'), (covered_marks _ _ _ _ _ _ S'). split.
    + intros [(x & H1 & H2 & H3 & H4)|H].
      * exists x. split; [easy|]. split; [easy|]. split; [easy|]. lia.
      * exists c. split; [easy|]. split; [unfold covers; lia|]. split; [lia|]. lia.
    + intros (x & H1 & H2 & H3 & H4).
      assert (Q : tc_row x < r \/ tc_row x = r /\ tc_col x < k \/ (tc_row x = r /\ tc_col x = k)) by lia.
      destruct Q as [Q|[Q|Q]]; [left; exists x; tauto|left; exists x; tauto|].
      right. assert (x = c). { apply U'; [easy|]. pose proof (sizes x H1). unfold covers. lia. } subst x. unfold covers in H2. lia.
  - assert (Y : covered cov r k = true).
    { apply R; [easy|]. exists c. split; [easy|]. split; [easy|]. split; [easy|]. unfold covers in Cc. lia. }
    rewrite Y. eexists. split.
    + f_equal. unfold piece. assert (Hk : existsb (fun x => (tc_col x =? k) && (tc_row x <? r) && (r <? tc_row x + tc_rs x)) cells = (tc_col c =? k)).
      { destruct (tc_col c =? k) eqn:Ek.
        - apply existsb_exists. exists c. split; [now apply in_cells|]. unfold covers in Cc. lia.
        - destruct (existsb _ cells) eqn:Ex; [|easy]. apply existsb_exists in Ex. destruct Ex as (x & H1 & H2). apply (proj1 (in_cells x)) in H1.
          pose proof (sizes x H1). assert (x = c) by (apply U'; [easy|]; unfold covers; lia). subst x. lia. }
      rewrite Hk. destruct (tc_col c =? k) eqn:Ek; [|now rewrite andb_false_r].
      assert (tc_row c < r) by (unfold covers in Cc; lia). replace (0 <? r) with true by lia. cbn [andb].
      replace (tc_row c =? r) with false by lia. reflexivity.
    + intros r' k' S'. rewrite (R r' k' S'). split.
      * intros (x & H1 & H2 & H3 & H4). exists x. split; [easy|]. split; [easy|]. split; [easy|]. lia.
      * intros (x & H1 & H2 & H3 & H4). exists x. split; [easy|]. split; [easy|]. split; [easy|].
        assert (Q : ~ (tc_row x = r /\ tc_col x = k)).
        { intros Q. apply D. assert (x = c); [|now subst x]. apply U'; [easy|]. pose proof (sizes x H1). unfold covers. lia. }
        lia.
Qed.

(** The cell over a slot. *)
Definition over_slot (r k : Z) : option tcell := find (fun c => covers c r k) (t_cells d).
Lemma over_slot_is r k c : slot d r k -> In c (t_cells d) -> covers c r k = true -> over_slot r k = Some c.
Proof.
  intros S H1 H2. unfold over_slot. destruct (find _ (t_cells d)) as [x|] eqn:F.
  - apply find_some in F. destruct F as [F1 F2]. destruct (cover_one r k S) as (c0 & _ & _ & U). f_equal. rewrite (U x F1 F2). symmetry. now apply U.
  - pose proof (find_none _ _ F c H1) as Q. cbn in Q. congruence.
Qed.
Definition pieces (r k : Z) : list (dcell A) := match over_slot r k with Some c => piece c r k | None => [] end.
Definition zseq (a : Z) (n : nat) : list Z := map (fun i => a + Z.of_nat i) (seq 0 n).
Lemma zseq_S a n : zseq a (S n) = a :: zseq (a + 1) n.
Proof.
  unfold zseq. cbn [seq map]. f_equal; [lia|]. rewrite <- seq_shift, map_map. apply map_ext. intros. lia.
Qed.
Lemma zrange_zseq n : zrange n = zseq 0 (Z.to_nat n).
Proof. unfold zrange, zseq. apply map_ext. intros. lia. Qed.

Lemma row_is r : 0 <= r < t_rows d -> forall n k cov, 0 <= k -> k + Z.of_nat n = t_cols d -> ready r k cov ->
  exists cov', docx_row para empty d cells r (zseq k n) cov = (flat_map (pieces r) (zseq k n), cov') /\ ready r (t_cols d) cov'.
Proof.
  intros Hr. induction n as [|n IH]; intros k cov Hk E R.
  - exists cov. split; [easy|]. now replace (t_cols d) with k by lia.
  - rewrite zseq_S. cbn [docx_row flat_map]. assert (S : slot d r k) by (unfold slot; lia).
    destruct (cover_one r k S) as (c & Hc & Cc & _). destruct (slot_step r k cov c S R Hc Cc) as (cov1 & E1 & R1). rewrite E1.
    destruct (IH (k + 1) cov1 ltac:(lia) ltac:(lia) R1) as (cov2 & E2 & R2). rewrite E2. exists cov2. split; [|easy].
    unfold pieces at 2. now rewrite (over_slot_is r k c S Hc Cc).
Qed.
Lemma ready_next r cov : ready r (t_cols d) cov -> ready (r + 1) 0 cov.
Proof.
  intros R r' k' S. rewrite (R r' k' S). split; intros (x & H1 & H2 & H3 & H4); exists x; (split; [easy|]); (split; [easy|]); (split; [easy|]);
    pose proof (sizes x H1); lia.
Qed.
Lemma rows_are : forall n r cov, 0 <= r -> r + Z.of_nat n = t_rows d -> ready r 0 cov ->
  docx_rows para empty d cells (zseq r n) cov = map (fun q => flat_map (pieces q) (zrange (t_cols d))) (zseq r n).
Proof.
  induction n as [|n IH]; intros r cov Hr E R; [easy|]. rewrite zseq_S. cbn [docx_rows map]. rewrite (zrange_zseq (t_cols d)) at 1.
  assert (0 <= t_cols d) by (destruct G as (_ & ? & _); lia).
  destruct (row_is r ltac:(lia) (Z.to_nat (t_cols d)) 0 cov ltac:(lia) ltac:(lia) R) as (cov' & E' & R'). rewrite E'. rewrite <- zrange_zseq.
  f_equal. apply IH; [lia|lia|]. now apply ready_next.
Qed.
Lemma table_is : docx_table para empty d = map (fun q => flat_map (pieces q) (zrange (t_cols d))) (zrange (t_rows d)).
Proof.
  unfold docx_table. fold cells. rewrite !(zrange_zseq (t_rows d)). apply rows_are; [lia|destruct G; lia|].
  intros r k S. split; [easy|]. intros (c & H1 & _ & _ & H). pose proof (sizes c H1). lia.
Qed.

(** ** Layout *)
Definition shown_piece (c : tcell) (r : Z) : dcell A := if tc_row c =? r then own c else mk_dcell 1 (Some false) [].
Lemma span_piece c r k : In c (t_cells d) -> covers c r k = true -> dc_span (shown_piece c r) = tc_cs c.
Proof.
  intros H C. pose proof (sizes c H). unfold shown_piece. destruct (Z.eqb_spec (tc_row c) r) as [E|E]; cbn.
  - destruct (Z.ltb_spec 1 (tc_cs c)); lia.
  - destruct (thin c H) as [T|T]; unfold covers in C; lia.
Qed.
(** Slots that belong to a cell started before add nothing. *)
Lemma pieces_skip r c : In c (t_cells d) -> forall n k, tc_col c < k -> k + Z.of_nat n <= tc_col c + tc_cs c -> tc_row c <= r < tc_row c + tc_rs c ->
  flat_map (pieces r) (zseq k n) = [].
Proof.
  intros H. pose proof (sizes c H) as Z1. induction n as [|n IH]; intros k H1 H2 H3; [easy|]. rewrite zseq_S. cbn [flat_map].
  rewrite IH by lia. unfold pieces. rewrite (over_slot_is r k c); [|unfold slot; lia|easy|unfold covers; lia].
  unfold piece. replace (tc_col c =? k) with false by lia. easy.
Qed.
Lemma zseq_app k n m : zseq k (n + m) = zseq k n ++ zseq (k + Z.of_nat n) m.
Proof.
  revert k; induction n as [|n IH]; intros k; [cbn [Nat.add]; now rewrite Z.add_0_r|].
  cbn [Nat.add]. rewrite !zseq_S, IH. cbn [app]. do 3 f_equal. lia.
Qed.
Lemma layout r : 0 <= r < t_rows d -> forall n k, 0 <= k -> k + Z.of_nat n = t_cols d ->
  (n = O \/ exists c, In c (t_cells d) /\ covers c r k = true /\ tc_col c = k) ->
  row_width (flat_map (pieces r) (zseq k n)) = Z.of_nat n
  /\ forall j, k <= j < t_cols d -> forall c, In c (t_cells d) -> covers c r j = true ->
     cell_over k j (flat_map (pieces r) (zseq k n)) = Some (shown_piece c r).
Proof.
  intros Hr. induction n as [n IH] using lt_wf_ind. intros k Hk E [->|(c & Hc & Cc & Ek)].
  - split; [easy|]. intros j Hj. lia.
  - pose proof (sizes c Hc) as Z1. pose proof (span_piece c r k Hc Cc) as Sp.
    set (m := Z.to_nat (tc_cs c)). assert (Hm : (1 <= m <= n)%nat) by (unfold m; lia).
    replace n with (m + (n - m))%nat by lia. rewrite zseq_app, flat_map_app.
    assert (First : flat_map (pieces r) (zseq k m) = [shown_piece c r]).
    { replace m with (S (m - 1))%nat by lia. rewrite zseq_S. cbn [flat_map]. rewrite (pieces_skip r c Hc) by (unfold covers in Cc; unfold m; lia).
      unfold pieces. rewrite (over_slot_is r k c); [|unfold slot; lia|easy|easy]. unfold piece. rewrite Ek, Z.eqb_refl. easy. }
    rewrite First. cbn [app row_width fold_right cell_over]. fold (row_width (flat_map (pieces r) (zseq (k + Z.of_nat m) (n - m)))). rewrite Sp.
    destruct (IH (n - m)%nat ltac:(lia) (k + Z.of_nat m) ltac:(lia) ltac:(lia)) as [W L].
    { destruct (Nat.eq_dec (n - m) 0) as [Z0|Z0]; [now left|]. right.
      destruct (cover_one r (k + Z.of_nat m)) as (x & Hx & Cx & _); [unfold slot; lia|]. exists x. split; [easy|]. split; [easy|].
      destruct (Z.eq_dec (tc_col x) (k + Z.of_nat m)) as [|Ne]; [easy|]. exfalso.
      assert (Sl : slot d r (k + Z.of_nat m - 1)) by (unfold slot; lia).
      destruct (cover_one r _ Sl) as (y & _ & _ & U). assert (x = y) by (apply U; [easy|]; unfold covers in *; lia).
      assert (c = y) by (apply U; [easy|]; unfold covers in *; unfold m; lia). subst. unfold covers in Cx. unfold m in *. lia. }
    split; [rewrite W; unfold m; lia|]. intros j Hj x Hx Cx. replace (k + Z.of_nat m) with (k + tc_cs c) in L by (unfold m; lia).
    destruct ((k <=? j) && (j <? k + tc_cs c)) eqn:In_.
    + f_equal. destruct (cover_one r j) as (y & _ & _ & U); [unfold slot; lia|]. assert (c = y) by (apply U; [easy|]; unfold covers in *; lia).
      assert (x = y) by (now apply U). now subst.
    + replace (k + Z.of_nat m) with (k + tc_cs c) by (unfold m; lia). apply L; [lia|easy|easy].
Qed.

Definition row (r : Z) : list (dcell A) := flat_map (pieces r) (zrange (t_cols d)).
Lemma layout_row r : 0 <= r < t_rows d -> row_width (row r) = t_cols d
  /\ forall k c, slot d r k -> In c (t_cells d) -> covers c r k = true -> cell_over 0 k (row r) = Some (shown_piece c r).
Proof.
  intros Hr. assert (C1 : 1 <= t_cols d) by (destruct G as (_ & ? & _); lia).
  destruct (layout r Hr (Z.to_nat (t_cols d)) 0 ltac:(lia) ltac:(lia)) as [W L].
  { right. destruct (cover_one r 0) as (c & H1 & H2 & _); [unfold slot; lia|]. exists c. split; [easy|]. split; [easy|].
    pose proof (sizes c H1). unfold covers in H2. lia. }
  unfold row. rewrite zrange_zseq. split; [lia|]. intros k c S H1 H2. apply L; [unfold slot in S; lia|easy|easy].
Qed.
Lemma firstn_rows (f : Z -> list (dcell A)) n : forall m, (n < m)%nat ->
  firstn (S n) (map f (zseq 0 m)) = firstn n (map f (zseq 0 m)) ++ [f (Z.of_nat n)].
Proof.
  intros m H. assert (E : map f (zseq 0 m) = map f (zseq 0 n) ++ f (Z.of_nat n) :: map f (zseq (0 + Z.of_nat n + 1) (m - n - 1))).
  { replace m with (n + S (m - n - 1))%nat at 1 by lia. rewrite zseq_app, zseq_S, map_app. cbn [map]. now rewrite Z.add_0_l. }
  rewrite E. assert (L : length (map f (zseq 0 n)) = n) by (unfold zseq; now rewrite !map_length, seq_length).
  set (x := map f (zseq 0 n)) in *. rewrite !firstn_app, L. replace (S n - n)%nat with 1%nat by lia. rewrite Nat.sub_diag, firstn_cons, !firstn_O.
  rewrite !app_nil_r, !firstn_all2 by lia. easy.
Qed.
Lemma laid_rows : forall n k c, slot d (Z.of_nat n) k -> In c (t_cells d) -> covers c (Z.of_nat n) k = true ->
  laid_out (rev (firstn (S n) (map row (zrange (t_rows d))))) k = Some (map para (sort_tblocks (tc_blocks c))).
Proof.
  intros n. induction n as [|n IH]; intros k c S Hc Cc; rewrite zrange_zseq in *;
    (rewrite firstn_rows by (unfold slot in S; lia)); rewrite rev_app_distr; cbn [rev app laid_out].
  all: pose proof (sizes c Hc) as Z1.
  - destruct (layout_row (Z.of_nat 0)) as [_ L]; [unfold slot in S; lia|]. rewrite (L k c S Hc Cc). unfold shown_piece.
    unfold covers in Cc. replace (tc_row c =? Z.of_nat 0) with true by lia. unfold own. cbn. now destruct (1 <? tc_rs c).
  - destruct (layout_row (Z.of_nat (Datatypes.S n))) as [_ L]; [unfold slot in S; lia|]. rewrite (L k c S Hc Cc). unfold shown_piece.
    destruct (Z.eqb_spec (tc_row c) (Z.of_nat (Datatypes.S n))) as [E|E].
    + unfold own. cbn [dc_merge dc_paras]. now destruct (1 <? tc_rs c).
    + cbn [dc_merge]. apply IH; [unfold slot in *; lia|easy|]. unfold covers in *. lia.
Qed.

Lemma docx_table_section :
  length (docx_table para empty d) = Z.to_nat (t_rows d)
  /\ Forall (fun x => row_width x = t_cols d) (docx_table para empty d)
  /\ forall r k c, slot d r k -> In c (t_cells d) -> covers c r k = true ->
     slot_shown (docx_table para empty d) r k = Some (map para (sort_tblocks (tc_blocks c))).
Proof.
  rewrite table_is. fold row. split; [unfold zrange; now rewrite !map_length, seq_length|]. split.
  - rewrite Forall_forall. intros x Hx. apply in_map_iff in Hx. destruct Hx as (r & <- & Hr). apply in_zrange in Hr. now apply layout_row.
  - intros r k c S Hc Cc. unfold slot_shown. apply laid_rows; [|easy|]; rewrite Z2Nat.id by (unfold slot in S; lia); easy.
Qed.
End Table.

Lemma docx_table_theorem {A} (para : tblock -> A) (empty : A) d : grid d -> (forall c, In c (t_cells d) -> tc_rs c = 1 \/ tc_cs c = 1) ->
  length (docx_table para empty d) = Z.to_nat (t_rows d)
  /\ Forall (fun x => row_width x = t_cols d) (docx_table para empty d)
  /\ forall r k c, slot d r k -> In c (t_cells d) -> covers c r k = true ->
     slot_shown (docx_table para empty d) r k = Some (map para (sort_tblocks (tc_blocks c))).
Proof. apply docx_table_section. Qed.
