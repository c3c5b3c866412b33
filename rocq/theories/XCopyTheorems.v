(** Copying in a document with a table. *)
From Coq Require Import Sorting.Permutation Sorting.Sorted.
From Verif Require Import Base RopeModel TableModel TableSpec TableFacts TablePlaces TableTextModel TableTextSpec TableTextFacts TableTextTheorems TableEditModel TableEditSpec TableEditFacts TableEditSteps TableEditTheorems
  PropSpec FlowSpec XCopyModel XCopySpec XCopyCuts XCopyFacts.
Local Open Scope Z_scope.

Lemma with_breaks_joined ls : with_breaks ls = joined ls.
Proof. induction ls as [|l ls IH]; [easy|]. destruct ls as [|m ls]; [easy|]. rewrite joined_cons, <- IH. reflexivity. Qed.
Lemma seen_len x bs ts : seen x bs ts -> length ts = length bs.
Proof. induction 1; [easy|cbn; lia]. Qed.
Lemma seen_lens_ok x bs ts : seen x bs ts -> lens (x_store x) bs.
Proof. induction 1 as [|b t bs ts (_ & K2 & K3) _ IH]; intros y Hy; [easy|]. destruct Hy as [<-|Hy]; [|now apply IH]. unfold len_in. rewrite K2. cbn. now rewrite K3. Qed.
Lemma place_start x bs : forall ts r k b, seen x bs ts -> in_place (Z.of_nat r) bs -> nth_error bs k = Some b -> tb_pos b = Z.of_nat (r + start_of k ts).
Proof.
  induction bs as [|y bs IH]; intros ts r k b Se P E; [now destruct k|]. inversion Se as [|? t ? us K Se']; subst. cbn [in_place] in P. destruct P as [Ey P]. destruct K as (_ & _ & K3).
  destruct k as [|k]; cbn in E; [injection E as <-; cbn; rewrite Ey; lia|]. rewrite start_cons. replace (Z.of_nat r + tb_len y + 1) with (Z.of_nat (S (r + length t))) in P by lia.
  rewrite (IH us _ k b Se' P E). lia.
Qed.
Lemma hit_touched x ts s e k b : seen x (flow_blocks (x_table x)) ts -> in_place 0 (flow_blocks (x_table x)) -> nth_error (flow_blocks (x_table x)) k = Some b ->
  (hit (Z.of_nat s) (Z.of_nat e) b <-> touched ts s e k).
Proof.
  intros Se P E. assert (X := place_start x _ ts 0 k b Se P E). destruct (seen_at _ _ _ _ _ Se E) as (t & Et & (_ & _ & K3)). cbn [Nat.add] in X. unfold hit, touched. split.
  - intros [H1 H2]. exists t. split; [easy|]. lia.
  - intros (u & Eu & H1 & H2). rewrite Et in Eu. injection Eu as <-. lia.
Qed.
Lemma outside_in x k b : xhistory x -> nth_error (flow_blocks (x_table x)) k = Some b -> (outside x k <-> In b (t_others (x_table x))).
Proof.
  intros H E. split.
  - intros (bs & b' & O & E' & Hb). apply (order_flow _ _ H) in O. subst bs. rewrite E in E'. now injection E' as <-.
  - intros Hb. exists (flow_blocks (x_table x)), b. split; [now apply order_flow|easy].
Qed.
Lemma last_block bs b : last (block_ids (bs ++ [b])) 0%N = tb_id b.
Proof. unfold block_ids. rewrite map_app. apply last_last. Qed.
Lemma final_all bs : NoDup (block_ids bs) -> final_at (last (block_ids bs) 0%N) 0 bs.
Proof.
  intros N bs1 b bs2 ->. rewrite Nat.add_0_r. split.
  - intros X. destruct bs2 as [|y bs2]; [easy|]. exfalso. destruct (exists_last (l := y :: bs2) ltac:(easy)) as (m & z & Em). rewrite Em in *.
    rewrite app_comm_cons, app_assoc, last_block in X. unfold block_ids in N. rewrite map_app in N. cbn [map] in N. apply NoDup_remove_2 in N. apply N. apply in_app_iff. right.
    rewrite X. apply in_map, in_app_iff. right. now left.
  - intros X. destruct bs2; [|easy]. now rewrite last_block.
Qed.
Lemma last_twice a c b : last (block_ids (a ++ twice c ++ b)) 0%N = last (block_ids (a ++ c ++ b)) 0%N.
Proof.
  destruct b as [|y b].
  - rewrite !app_nil_r. destruct c as [|z c]; [easy|]. destruct (exists_last (l := z :: c) ltac:(easy)) as (m & w & ->). unfold twice. rewrite flat_map_app. cbn [flat_map app].
    rewrite (app_assoc a m), last_block. change [w; w] with ([w] ++ [w]). now rewrite !app_assoc, last_block.
  - destruct (exists_last (l := y :: b) ltac:(easy)) as (m & w & ->). now rewrite !app_assoc, !last_block.
Qed.
Lemma final_left l n a b : final_at l n (a ++ b) -> final_at l (length b + n) a /\ final_at l n b.
Proof.
  intros F. split.
  - intros bs1 y bs2 ->. rewrite (F bs1 y (bs2 ++ b)) by now rewrite <- app_assoc. rewrite app_length. lia.
  - intros bs1 y bs2 ->. apply (F (a ++ bs1) y bs2). now rewrite app_assoc.
Qed.

Lemma cut_missed x s e n : forall bs r us, in_place (Z.of_nat r) bs -> seen x bs us -> (forall b, In b bs -> ~ hit (Z.of_nat s) (Z.of_nat e) b) -> cut s e r n us = [].
Proof.
  induction bs as [|b bs IH]; intros r us P Se M; inversion Se as [|? t ? vs K Se']; subst; [easy|]. cbn [in_place] in P. destruct P as [Eb P]. destruct K as (_ & _ & K3).
  cbn [cut]. assert (X := M b (or_introl eq_refl)). unfold hit in X. rewrite Eb, K3 in X. assert (Y : out s e r t = true).
  { unfold out. destruct (Nat.ltb_spec (r + length t) s); [easy|]. destruct (Nat.leb_spec e r); [easy|lia]. }
  rewrite Y. cbn [app]. apply IH; [|easy|intros y Hy; apply M; now right]. replace (Z.of_nat (S (r + length t))) with (Z.of_nat r + tb_len b + 1) by lia. exact P.
Qed.
(** What is needed of the document, in one place. *)
Record ready (x : xdoc) (ts ta tc tb : list str) : Prop := mk_ready {
  rd_history : xhistory x;
  rd_seen : seen x (flow_blocks (x_table x)) ts;
  rd_texts : ts = ta ++ tc ++ tb;
  rd_above : seen x (upper (x_table x)) ta;
  rd_cells : seen x (inner (x_table x)) tc;
  rd_below : seen x (lower (x_table x)) tb;
  rd_placed : in_place 0 (flow_blocks (x_table x));
  rd_gathered : gathered (x_table x) = upper (x_table x) ++ twice (inner (x_table x)) ++ lower (x_table x);
  rd_single : forall c, In c (t_cells (x_table x)) -> length (tc_blocks c) = 1%nat /\ 1 <= tc_rs c /\ 1 <= tc_cs c;
  rd_some : inner (x_table x) <> [] }.
Lemma edited_ready x ts : edited x -> document_texts x ts -> exists ta tc tb, ready x ts ta tc tb.
Proof.
  intros Ed D. assert (I := edited_inv _ Ed). assert (Se := proj1 (texts_seen _ _ I) D). assert (H := inv_history _ I). assert (S2 := Se). rewrite flow_is in S2.
  apply seen_app in S2. destruct S2 as (ta & t2 & -> & Sa & S2). apply seen_app in S2. destruct S2 as (tc & tb & -> & Sc & Sb). exists ta, tc, tb.
  assert (G := proj1 (history_grid _ (proj2 (x_history _ H)))).
  constructor; try easy; [apply (inv_placed _ I)|apply gathered_is; [apply (seen_lens _ _ _ Se)|apply (inv_placed _ I)]| |].
  - intros c Hc. split; [now apply (inv_single _ I)|]. destruct (grid_cell _ _ G Hc) as (A & B & _). easy.
  - assert (N := grid_nonempty _ G). destruct (t_cells (x_table x)) as [|c cs] eqn:E; [easy|]. intros X. assert (Hc : In c (t_cells (x_table x))) by (rewrite E; now left).
    assert (L := inv_single _ I c Hc). destruct (tc_blocks c) as [|b bs] eqn:Eb; [discriminate|]. assert (Hb : In b (inner (x_table x))) by (apply inner_in; exists c; rewrite Eb; split; [easy|now left]).
    rewrite X in Hb. easy.
Qed.
Section copying.
Variables (x : xdoc) (ts ta tc tb : list str) (s e : nat).
Hypothesis R : ready x ts ta tc tb.
Local Notation d := (x_table x). Local Notation st := (x_store x).
Let l := last (block_ids (gathered d)) 0%N.
Let ra := starts ta. Let rc := (starts ta + starts tc)%nat.
Local Lemma final_parts : final_at l (length (inner d ++ lower d)) (upper d) /\ final_at l 0 (lower d).
Proof.
  assert (F := final_all _ (flow_ids_nodup _ (rd_history _ _ _ _ _ R))). rewrite flow_is in F. rewrite <- last_twice in F.
  replace (last (block_ids (upper d ++ twice (inner d) ++ lower d)) 0%N) with l in F by (unfold l; now rewrite (rd_gathered _ _ _ _ _ R)). apply final_left in F. destruct F as [F1 F2]. rewrite Nat.add_0_r in F1. split; [easy|]. apply (final_left l 0 (inner d)), F2.
Qed.
Local Lemma places : in_place (Z.of_nat 0) (upper d) /\ in_place (Z.of_nat ra) (inner d) /\ in_place (Z.of_nat rc) (lower d).
Proof.
  assert (P := rd_placed _ _ _ _ _ R). rewrite flow_is in P. apply in_place_app in P. destruct P as [P1 P]. apply in_place_app in P. destruct P as [P2 P3].
  rewrite (seen_width _ _ _ (rd_above _ _ _ _ _ R)) in P2, P3. rewrite (seen_width _ _ _ (rd_cells _ _ _ _ _ R)) in P3. split; [easy|]. split; [exact P2|]. unfold rc. rewrite Nat2Z.inj_add. exact P3.
Qed.
Local Lemma all_lens : lens st (gathered d).
Proof.
  intros b Hb. apply (seen_lens_ok _ _ _ (rd_seen _ _ _ _ _ R)). rewrite (rd_gathered _ _ _ _ _ R) in Hb. rewrite flow_is. rewrite !in_app_iff in *. now rewrite twice_in in Hb.
Qed.
Local Lemma gathered_in b : In b (gathered d) <-> In b (flow_blocks d).
Proof. rewrite (rd_gathered _ _ _ _ _ R), flow_is. rewrite !in_app_iff. now rewrite twice_in. Qed.
Local Lemma above_free b : In b (upper d) -> cell_with d (tb_id b) = None.
Proof. intros H. apply owner_none; [apply (rd_history _ _ _ _ _ R)|now apply upper_in]. Qed.
Local Lemma below_free b : In b (lower d) -> cell_with d (tb_id b) = None.
Proof. intros H. apply owner_none; [apply (rd_history _ _ _ _ _ R)|now apply lower_in]. Qed.
Local Lemma inner_owned b : In b (inner d) -> exists c, In c (t_cells d) /\ In b (tc_blocks c) /\ cell_with d (tb_id b) = Some (tc_id c).
Proof. intros H. apply inner_in in H. destruct H as (c & Hc & Hb). exists c. split; [easy|]. split; [easy|]. apply owner_some; [apply (rd_history _ _ _ _ _ R)|easy|easy]. Qed.
Local Lemma cut_all : cut s e 0 0 ts = cut s e 0 (length (inner d ++ lower d)) ta ++ cut s e ra (length tb) tc ++ cut s e rc 0 tb.
Proof.
  rewrite (rd_texts _ _ _ _ _ R), !cut_app. rewrite !Nat.add_0_r. cbn [Nat.add]. do 2 f_equal. rewrite !app_length. f_equal; apply (seen_len x); [apply (rd_cells _ _ _ _ _ R)|apply (rd_below _ _ _ _ _ R)].
Qed.
Local Lemma position_of b : In b (flow_blocks d) -> exists k, nth_error (flow_blocks d) k = Some b /\ (hit (Z.of_nat s) (Z.of_nat e) b <-> touched ts s e k) /\ (outside x k <-> In b (t_others d)).
Proof.
  intros Hb. apply In_nth_error in Hb. destruct Hb as [k E]. exists k. split; [easy|]. split; [apply (hit_touched x); [apply (rd_seen _ _ _ _ _ R)|apply (rd_placed _ _ _ _ _ R)|easy]|].
  now apply outside_in; [apply (rd_history _ _ _ _ _ R)|].
Qed.
Local Lemma ts_some : ts <> [].
Proof. intros E. assert (S := rd_seen _ _ _ _ _ R). rewrite E in S. inversion S as [F|]. apply (flow_nonempty _ (rd_history _ _ _ _ _ R)). now symmetry. Qed.

(** No cell is met. *)
Lemma plain_copy : (s < e)%nat -> (forall k, touched ts s e k -> outside x k) ->
  cross_copy st d (Z.of_nat s) (Z.of_nat e) (gathered d) None = Ok false
  /\ copy_text st (Z.of_nat s) (Z.of_nat e) l (gathered d) = Ok (cut s e 0 0 ts).
Proof.
  intros Lt O. assert (Nc : forall b, In b (inner d) -> ~ hit (Z.of_nat s) (Z.of_nat e) b).
  { intros b Hb Hit. destruct (inner_owned b Hb) as (c & Hc & Hbc & Ow). destruct (position_of b) as (k & _ & P1 & P2); [rewrite flow_is, !in_app_iff; auto|].
    apply P1, O, P2 in Hit. apply (apart x b c b); (easy || apply (rd_history _ _ _ _ _ R)). }
  split.
  - destruct (cross_copy_ok st d (Z.of_nat s) (Z.of_nat e) (gathered d) None all_lens) as (v & E & _ & F). rewrite E. f_equal. apply F. intros b Hb Hit.
    apply gathered_in in Hb. rewrite flow_is, !in_app_iff in Hb. destruct Hb as [Hb|[Hb|Hb]]; [now apply above_free|exfalso; now apply (Nc b)|now apply below_free].
  - rewrite (rd_gathered _ _ _ _ _ R). destruct final_parts as [F1 F2]. destruct places as (P1 & P2 & P3).
    rewrite (copy_text_cut x s e l (length (inner d ++ lower d)) _ (upper d) ta 0 (rd_above _ _ _ _ _ R) P1 F1).
    rewrite (copy_text_missed x); [|intros b Hb; apply all_lens, gathered_in; rewrite flow_is, !in_app_iff; rewrite twice_in in Hb; auto|intros b Hb; apply Nc; now apply twice_in].
    assert (Cb := copy_text_cut x s e l 0 [] (lower d) tb rc (rd_below _ _ _ _ _ R) P3 F2). rewrite app_nil_r in Cb. rewrite Cb. cbn [copy_text bind]. rewrite cut_all. f_equal. f_equal.
    rewrite app_nil_r. assert (X : cut s e ra (length tb) tc = []); [|now rewrite X].
    now apply (cut_missed x s e (length tb) (inner d)); [| apply (rd_cells _ _ _ _ _ R)|].
Qed.
(** All of the table is in the selection. *)
Lemma mixed_copy : (s < e)%nat -> table_selected x ts s e -> (exists k, touched ts s e k /\ outside x k) \/ (2 <= length (t_cells d))%nat ->
  cross_copy st d (Z.of_nat s) (Z.of_nat e) (gathered d) None = Ok true
  /\ exists above cells below, copy_mixed st d (Z.of_nat s) (Z.of_nat e) l (gathered d) false 0 = Ok (above ++ below, [mk_ftab (t_rows d) (t_cols d) cells (length above)], map xp_text above ++ copied_texts cells ++ map xp_text below)
    /\ table_copied x cells /\ map xp_text (cut s e 0 0 ts) = map xp_text above ++ copied_texts cells ++ map xp_text below
    /\ (exists mid, cut s e 0 0 ts = above ++ mid ++ below /\ length mid = length (copied_texts cells))
    /\ above = cut s e 0 (length (inner d ++ lower d)) ta /\ below = cut s e rc 0 tb.
Proof.
  intros Lt Sel Two.
  assert (Nth : forall k t, nth_error tc k = Some t -> (s <= ra + start_of k tc /\ ra + start_of k tc < e /\ ra + start_of k tc + length t <= e)%nat).
  { intros k t E. assert (La := seen_len _ _ _ (rd_above _ _ _ _ _ R)). assert (Lc := seen_len _ _ _ (rd_cells _ _ _ _ _ R)).
    assert (Hk : (k < length tc)%nat) by (apply nth_error_Some; congruence).
    destruct (nth_error (inner d) k) as [b|] eqn:Eb; [|apply nth_error_None in Eb; lia].
    assert (Ef : nth_error (flow_blocks d) (length ta + k) = Some b).
    { rewrite flow_is. rewrite La, nth_error_app2 by lia. replace (length (upper d) + k - length (upper d))%nat with k by lia. rewrite nth_error_app1; [easy|]. lia. }
    assert (Et : nth_error ts (length ta + k) = Some t).
    { rewrite (rd_texts _ _ _ _ _ R), nth_error_app2 by lia. replace (length ta + k - length ta)%nat with k by lia. now rewrite nth_error_app1. }
    assert (St : start_of (length ta + k) ts = (ra + start_of k tc)%nat).
    { rewrite (rd_texts _ _ _ _ _ R), start_right. unfold ra. f_equal. apply start_left. lia. }
    rewrite <- St. apply Sel; [easy|]. intros O. apply (outside_in x _ b (rd_history _ _ _ _ _ R) Ef) in O. apply nth_error_In in Eb. destruct (inner_owned b Eb) as (c & Hc & Hbc & _).
    apply (apart x b c b); (easy || apply (rd_history _ _ _ _ _ R)). }
  assert (P := places). destruct P as (P1 & P2 & P3). destruct final_parts as [F1 F2].
  assert (Hits : forall b, In b (inner d) -> hit (Z.of_nat s) (Z.of_nat e) b).
  { intros b Hb. apply In_nth_error in Hb. destruct Hb as [k E]. assert (X := place_start x _ tc ra k b (rd_cells _ _ _ _ _ R) P2 E).
    destruct (seen_at _ _ _ _ _ (rd_cells _ _ _ _ _ R) E) as (t & Et & (_ & _ & K3)). specialize (Nth k t Et). unfold hit. lia. }
  split.
  - destruct (cross_copy_ok st d (Z.of_nat s) (Z.of_nat e) (gathered d) None all_lens) as (v & E & F & _). rewrite E. f_equal. destruct v; [easy|exfalso]. specialize (F eq_refl).
    assert (In1 : forall b, In b (inner d) -> In b (gathered d)) by (intros b Hb; apply gathered_in; rewrite flow_is, !in_app_iff; auto).
    destruct Two as [(k & T & O)|Two].
    + assert (N := rd_some _ _ _ _ _ R). destruct (inner d) as [|b0 bs0] eqn:Ei; [easy|].
      assert (Hb0 : In b0 (inner d)) by (rewrite Ei; now left). rewrite <- Ei in *.
      assert (Hk : exists b, nth_error (flow_blocks d) k = Some b).
      { destruct T as (t & Et & _). destruct (nth_error (flow_blocks d) k) eqn:Ek; [eauto|]. apply nth_error_None in Ek. assert (Ls := seen_len _ _ _ (rd_seen _ _ _ _ _ R)). assert (k < length ts)%nat by (apply nth_error_Some; congruence). lia. }
      destruct Hk as [b Ek]. assert (Hit := proj2 (hit_touched x ts s e k b (rd_seen _ _ _ _ _ R) (rd_placed _ _ _ _ _ R) Ek) T). apply (outside_in x _ b (rd_history _ _ _ _ _ R) Ek) in O.
      assert (Hg : In b (gathered d)) by (apply gathered_in; now apply nth_error_In in Ek).
      assert (X := F b Hg Hit b0 (In1 b0 Hb0) (Hits b0 Hb0)). rewrite (owner_none x b (rd_history _ _ _ _ _ R) O) in X. destruct (inner_owned b0 Hb0) as (c & _ & _ & Y). congruence.
    + destruct (t_cells d) as [|c1 [|c2 cs]] eqn:Ec; cbn in Two; try lia.
      assert (Hc1 : In c1 (t_cells d)) by (rewrite Ec; now left). assert (Hc2 : In c2 (t_cells d)) by (rewrite Ec; right; now left).
      assert (One : forall c, In c (t_cells d) -> exists b, In b (tc_blocks c)).
      { intros c Hc. destruct (rd_single _ _ _ _ _ R c Hc) as [L1 _]. destruct (tc_blocks c) as [|b bs]; [discriminate|]. exists b. now left. }
      destruct (One c1 Hc1) as [b1 Hb1]. destruct (One c2 Hc2) as [b2 Hb2].
      assert (I1 : In b1 (inner d)) by (apply inner_in; now exists c1). assert (I2 : In b2 (inner d)) by (apply inner_in; now exists c2).
      assert (X := F b1 (In1 _ I1) (Hits _ I1) b2 (In1 _ I2) (Hits _ I2)). rewrite (owner_some x c1 b1 (rd_history _ _ _ _ _ R) Hc1 Hb1), (owner_some x c2 b2 (rd_history _ _ _ _ _ R) Hc2 Hb2) in X.
      injection X as X. destruct (history_grid _ (proj2 (x_history _ (rd_history _ _ _ _ _ R)))) as [_ [Nd _]]. rewrite Ec in Nd. cbn in Nd. inversion Nd as [|? ? Ni _]. apply Ni. left. now symmetry.
  - destruct (copy_cells_ok x (sort_cells (t_cells d)) tc) as (fs & Ef & M1 & M2 & M3).
    { intros c Hc. apply (rd_single _ _ _ _ _ R). exact (Permutation_in _ (sort_cells_perm _) Hc). }
    { exact (rd_cells _ _ _ _ _ R). }
    exists (cut s e 0 (length (inner d ++ lower d)) ta), fs, (cut s e rc 0 tb).
    assert (Wm := cut_whole s e (length tb) tc ra Nth). split; [|split; [|split; [|split; [|easy]]]].
    + rewrite (rd_gathered _ _ _ _ _ R).
      rewrite (mixed_cut x s e l (length (inner d ++ lower d)) _ false (upper d) ta 0 0 (rd_above _ _ _ _ _ R) P1 F1 above_free). cbn [Nat.add].
      assert (N := rd_some _ _ _ _ _ R). destruct (inner d) as [|b0 bs0] eqn:Ei; [easy|]. rewrite <- Ei in *.
      assert (Hb0 : In b0 (inner d)) by (rewrite Ei; now left). assert (Ol : forall b, In b (inner d) -> In b (gathered d)) by (intros b Hb; apply gathered_in; rewrite flow_is, !in_app_iff; auto).
      assert (E2 : twice (inner d) = b0 :: b0 :: twice bs0) by now rewrite Ei. rewrite E2. cbn [app copy_mixed]. assert (Lb := all_lens b0 (Ol b0 Hb0)). rewrite Lb. cbn [bind].
      rewrite (proj2 (missed_hit _ _ b0) (Hits b0 Hb0)). destruct (inner_owned b0 Hb0) as (c & _ & _ & Oc). rewrite Oc. rewrite Ef. cbn [bind].
      assert (Sk := mixed_skip x (Z.of_nat s) (Z.of_nat e) l (lower d) (twice bs0) (length (cut s e 0 (length (inner d ++ lower d)) ta))).
      rewrite Sk; [|intros b Hb; apply all_lens, Ol; rewrite Ei; right; now apply twice_in|intros b Hb; destruct (inner_owned b) as (c' & _ & _ & Oc'); [rewrite Ei; right; now apply twice_in|congruence]].
      assert (Mc := mixed_cut x s e l 0 [] true (lower d) tb rc (length (cut s e 0 (length (inner d ++ lower d)) ta)) (rd_below _ _ _ _ _ R) P3 F2 below_free). rewrite app_nil_r in Mc. rewrite Mc.
      cbn [copy_mixed bind]. now rewrite !app_nil_r.
    + exists (sort_cells (t_cells d)). split; [apply sort_cells_perm|]. split; [|now split]. apply (history_reads x (rd_history _ _ _ _ _ R)).
    + rewrite cut_all, !map_app. rewrite Wm, M3. reflexivity.
    + exists (cut s e ra (length tb) tc). split; [apply cut_all|]. rewrite M3. rewrite <- Wm at 2. now rewrite map_length.
Qed.
End copying.
Lemma min_max s e : (s < e)%nat -> Z.min (Z.of_nat s) (Z.of_nat e) = Z.of_nat s /\ Z.max (Z.of_nat s) (Z.of_nat e) = Z.of_nat e
  /\ Z.min (Z.of_nat e) (Z.of_nat s) = Z.of_nat s /\ Z.max (Z.of_nat e) (Z.of_nat s) = Z.of_nat e /\ Z.of_nat s =? Z.of_nat e = false /\ Z.of_nat e =? Z.of_nat s = false.
Proof. lia. Qed.
Lemma copy_outside_theorem x ts s e : edited x -> document_texts x ts -> (s < e)%nat -> (forall k, touched ts s e k -> outside x k) ->
  exists ps text i, x_extract x (Z.of_nat s) (Z.of_nat e) = Ok (mk_xfrag ps [] text) /\ x_extract x (Z.of_nat e) (Z.of_nat s) = Ok (mk_xfrag ps [] text)
   /\ parts ts s e i (map xp_text ps) /\ marked ts s e i ps /\ selected_text ts s e text.
Proof.
  intros Ed D Lt O. destruct (edited_ready x ts Ed D) as (ta & tc & tb & R). destruct (plain_copy x ts ta tc tb s e R Lt O) as [C1 C2]. destruct (cut_spec s e ts) as (i & P & M).
  exists (cut s e 0 0 ts), (joined (map xp_text (cut s e 0 0 ts))), i. destruct (min_max s e Lt) as (m1 & m2 & m3 & m4 & m5 & m6). unfold x_extract. rewrite m1, m2, m3, m4, m5, m6, C1. cbn [bind]. rewrite C2. cbn [bind]. rewrite with_breaks_joined.
  split; [easy|]. split; [easy|]. split; [easy|]. split; [easy|]. apply cut_selected; [easy|]. exact (ts_some x ts ta tc tb R).
Qed.
Lemma marked_app ts s e i a b : marked ts s e i (a ++ b) -> marked ts s e i a /\ marked ts s e (i + length a) b.
Proof.
  intros M. split.
  - intros j p E. apply M. now rewrite nth_error_app1; [|apply nth_error_Some; congruence].
  - intros j p E. rewrite <- Nat.add_assoc. apply M. rewrite nth_error_app2 by lia. now replace (length a + j - length a)%nat with j by lia.
Qed.
Lemma copy_table_theorem x ts s e : edited x -> document_texts x ts -> (s < e)%nat -> table_selected x ts s e ->
  (exists k, touched ts s e k /\ outside x k) \/ (2 <= length (t_cells (x_table x)))%nat ->
  exists above cells below text i, x_extract x (Z.of_nat s) (Z.of_nat e) = Ok (mk_xfrag (above ++ below) [mk_ftab (t_rows (x_table x)) (t_cols (x_table x)) cells (length above)] text)
   /\ x_extract x (Z.of_nat e) (Z.of_nat s) = x_extract x (Z.of_nat s) (Z.of_nat e) /\ table_copied x cells
   /\ parts ts s e i (map xp_text above ++ copied_texts cells ++ map xp_text below)
   /\ marked ts s e i above /\ marked ts s e (i + length above + length (copied_texts cells)) below /\ selected_text ts s e text.
Proof.
  intros Ed D Lt Sel Two. destruct (edited_ready x ts Ed D) as (ta & tc & tb & R). destruct (mixed_copy x ts ta tc tb s e R Lt Sel Two) as (C1 & above & cells & below & C2 & Tc & Em & (mid & Ec & Lm) & _).
  destruct (cut_spec s e ts) as (i & P & M). exists above, cells, below, (joined (map xp_text (cut s e 0 0 ts))), i. destruct (min_max s e Lt) as (m1 & m2 & m3 & m4 & m5 & m6).
  unfold x_extract. rewrite m1, m2, m3, m4, m5, m6, C1. cbn [bind]. rewrite C2. cbn [bind]. rewrite with_breaks_joined, <- Em.
  split; [easy|]. split; [easy|]. split; [easy|]. split; [easy|]. rewrite Ec in M. apply marked_app in M. destruct M as [M1 M2]. apply marked_app in M2. destruct M2 as [_ M2]. rewrite Lm in M2.
  split; [easy|]. split; [easy|]. apply cut_selected; [easy|]. exact (ts_some x ts ta tc tb R).
Qed.
Lemma inside_joined ts k t : nth_error ts k = Some t -> (start_of k ts + length t <= length (joined ts))%nat.
Proof.
  intros E. apply nth_error_split in E. destruct E as (ts1 & ts2 & -> & <-). rewrite start_mid, joined_mid, !app_length, lead_length. lia.
Qed.
Lemma copy_all_at x ts (m : Z) : edited x -> document_texts x ts -> (2 <= length ts)%nat -> Z.of_nat (length (joined ts)) < m ->
  exists above cells below, x_extract x 0 m = Ok (mk_xfrag (above ++ below) [mk_ftab (t_rows (x_table x)) (t_cols (x_table x)) cells (length above)] (joined ts))
   /\ table_copied x cells /\ map (fun q => Ok (xp_text q)) above = map (fun b => text_of x (tb_id b)) (firstn (t_at (x_table x)) (t_others (x_table x)))
   /\ map (fun q => Ok (xp_text q)) below = map (fun b => text_of x (tb_id b)) (skipn (t_at (x_table x)) (t_others (x_table x)))
   /\ Forall (fun q => xp_full q = true) (above ++ below).
Proof.
  intros Ed D Two Big. destruct (edited_ready x ts Ed D) as (ta & tc & tb & R). assert (Em : exists e, Z.of_nat e = m) by (exists (Z.to_nat m); lia). destruct Em as [e <-]. change 0 with (Z.of_nat 0).
  assert (Lt : (0 < e)%nat) by lia. assert (Sel : forall k t, nth_error ts k = Some t -> (0 <= start_of k ts /\ start_of k ts < e /\ start_of k ts + length t <= e)%nat).
  { intros k t E. assert (J := inside_joined ts k t E). lia. }
  assert (T2 : (exists k, touched ts 0 e k /\ outside x k) \/ (2 <= length (t_cells (x_table x)))%nat).
  { destruct (t_others (x_table x)) as [|b bs] eqn:Eo.
    - right. assert (Ls := seen_len _ _ _ (rd_seen _ _ _ _ _ R)). rewrite (Permutation_length (flow_all (x_table x))), Eo in Ls. cbn [app] in Ls.
      assert (X : length (flat_map tc_blocks (t_cells (x_table x))) = length (t_cells (x_table x))); [|lia].
      assert (S1 := rd_single _ _ _ _ _ R). clear -S1. induction (t_cells (x_table x)) as [|c cs IH]; [easy|]. cbn [flat_map]. rewrite app_length, IH; [|intros; apply S1; now right]. rewrite (proj1 (S1 c (or_introl eq_refl))). easy.
    - left. assert (Hb : In b (t_others (x_table x))) by (rewrite Eo; now left). destruct (position_of x ts ta tc tb 0 e R b (others_flow _ _ Hb)) as (k & Ek & _ & O).
      exists k. split; [|now apply O]. destruct (seen_at _ _ _ _ _ (rd_seen _ _ _ _ _ R) Ek) as (t & Et & _). exists t. split; [easy|]. specialize (Sel k t Et). lia. }
  destruct (mixed_copy x ts ta tc tb 0 e R Lt (fun k t E _ => Sel k t E) T2) as (C1 & above & cells & below & C2 & Tc & Em & (mid & Ec & Lm) & Ea & Eb).
  exists above, cells, below. destruct (min_max 0 e Lt) as (m1 & m2 & _ & _ & m5 & _). unfold x_extract. rewrite m1, m2, m5, C1. cbn [bind]. rewrite C2. cbn [bind]. rewrite with_breaks_joined, <- Em.
  assert (W : map xp_text (cut 0 e 0 0 ts) = ts) by (apply cut_whole; exact Sel). rewrite W. split; [easy|]. split; [easy|].
  assert (Ta : map xp_text above = ta).
  { rewrite Ea. apply cut_whole. intros k t E. assert (E' : nth_error ts k = Some t) by (rewrite (rd_texts _ _ _ _ _ R), nth_error_app1; [easy|apply nth_error_Some; congruence]).
    specialize (Sel k t E'). rewrite (rd_texts _ _ _ _ _ R) in Sel. rewrite start_left in Sel by (apply Nat.lt_le_incl, nth_error_Some; congruence). lia. }
  assert (Tb : map xp_text below = tb).
  { rewrite Eb. apply cut_whole. intros k t E. assert (E' : nth_error ts (length (ta ++ tc) + k) = Some t).
    { rewrite (rd_texts _ _ _ _ _ R), app_assoc, nth_error_app2 by lia. now replace (length (ta ++ tc) + k - length (ta ++ tc))%nat with k by lia. }
    specialize (Sel _ t E'). rewrite (rd_texts _ _ _ _ _ R), app_assoc in Sel. rewrite start_right, starts_app in Sel. lia. }
  split; [etransitivity; [|symmetry; exact (seen_texts _ _ _ (rd_above _ _ _ _ _ R))]; rewrite <- Ta; now rewrite map_map|].
  split; [etransitivity; [|symmetry; exact (seen_texts _ _ _ (rd_below _ _ _ _ _ R))]; rewrite <- Tb; now rewrite map_map|].
  assert (F : Forall (fun q => xp_full q = true) (cut 0 e 0 0 ts)).
  { apply Forall_forall. intros q Hq. apply In_nth_error in Hq. destruct Hq as [j Ej]. destruct (cut_parts 0 e 0 ts 0) as (i & _ & B). destruct (B j q Ej) as (t & Et & ->).
    assert (J := inside_joined ts _ t Et). cbn [part xp_full Nat.add Nat.leb andb]. destruct (Nat.ltb_spec (start_of (i + j) ts + length t) e); [easy|lia]. }
  rewrite Ec in F. rewrite !Forall_app in F. apply Forall_app. easy.
Qed.
Lemma copy_document_theorem x ts : edited x -> document_texts x ts -> (2 <= length ts)%nat -> Z.of_nat (length (joined ts)) < 2 ^ 63 - 1 ->
  exists above cells below, x_from_document x = Ok (mk_xfrag (above ++ below) [mk_ftab (t_rows (x_table x)) (t_cols (x_table x)) cells (length above)] (joined ts))
   /\ table_copied x cells /\ map (fun q => Ok (xp_text q)) above = map (fun b => text_of x (tb_id b)) (firstn (t_at (x_table x)) (t_others (x_table x)))
   /\ map (fun q => Ok (xp_text q)) below = map (fun b => text_of x (tb_id b)) (skipn (t_at (x_table x)) (t_others (x_table x)))
   /\ Forall (fun q => xp_full q = true) (above ++ below).
Proof. exact (copy_all_at x ts (2 ^ 63 - 1)). Qed.

(** ** Pasting a table over cells *)
Lemma paste_same r c d f : NoDup (map tc_id (t_cells d)) -> (forall y, In y (t_cells d) -> length (tc_blocks y) = 1%nat) -> (length (fc_blocks f) <= 1)%nat -> paste_cell r c d f = d.
Proof.
  intros N S1 L. unfold paste_cell. destruct (find _ (t_cells d)) as [y|] eqn:E; [|easy]. apply find_some in E. destruct E as [Hy _]. unfold paste_blocks.
  destruct (tc_blocks y) as [|b bs] eqn:Eb; [easy|]. assert (T : length (tl (fc_blocks f)) = 0%nat) by (destruct (fc_blocks f) as [|q [|q' qs]]; cbn in *; lia). rewrite T. cbn [seq map]. rewrite N.add_0_r.
  assert (M : map (fun z => if N.eqb (tc_id z) (tc_id y) then set_blocks z [b] else z) (t_cells d) = t_cells d).
  { rewrite <- (map_id (t_cells d)) at 2. apply map_ext_in. intros z Hz. destruct (N.eqb_spec (tc_id z) (tc_id y)) as [X|X]; [|easy].
    assert (z = y) by (apply (StateFacts.NoDup_map_inj tc_id (t_cells d)); easy). subst z. specialize (S1 y Hy). rewrite Eb in S1. destruct bs; [|discriminate]. destruct y; cbn in *. now subst. }
  rewrite M. now destruct d.
Qed.
Lemma paste_unchanged_theorem x p f x' : edited x -> (forall t c, In t (xf_tables f) -> In c (fx_cells t) -> (length (fc_blocks c) <= 1)%nat) ->
  x_paste_cells x p f = Ok (Some x') -> x' = x.
Proof.
  intros Ed F E. assert (I := edited_inv _ Ed). unfold x_paste_cells in E. destruct (xf_tables f) as [|t [|t' ts]]; try discriminate.
  destruct (find_stored _ _ p) as [[b q]| |]; try discriminate. cbn [bind] in E. destruct (find _ (t_cells (x_table x))) as [c|]; [|discriminate].
  destruct (_ || _); [discriminate|]. injection E as <-.
  assert (N := proj1 (proj2 (history_grid _ (proj2 (x_history _ (inv_history _ I)))))). assert (S1 := inv_single _ I).
  assert (G : forall cs d, NoDup (map tc_id (t_cells d)) -> (forall y, In y (t_cells d) -> length (tc_blocks y) = 1%nat) -> (forall c, In c cs -> (length (fc_blocks c) <= 1)%nat) ->
    fold_left (paste_cell (tc_row c) (tc_col c)) cs d = d).
  { clear. induction cs as [|f cs IH]; intros d N S1 L; [easy|]. cbn [fold_left]. rewrite paste_same; [apply IH|easy|easy|apply L; now left]; try easy. intros; apply L. now right. }
  rewrite G; [now destruct x|easy|easy|]. intros y Hy. apply (F t y); [now left|easy].
Qed.
