(** [insert_block] on a well-formed document. *)
From Verif Require Import Base BaseFacts FormatRunsModel FormatRunsSpec FormatRunsFacts
  RopeModel RopeSpec RopeFacts DocModel DocSpec BlockFacts DocInv DocFacts DocAttr DocDelete.
From Coq Require Import Permutation.

Lemma find_app_l bs bs' i : In i (map b_id bs) -> find_block (bs ++ bs') i = find_block bs i.
Proof.
  induction bs as [|b bs IH]; cbn [map In app find_block]; [easy|].
  destruct (N.eqb_spec (b_id b) i); [easy|]. intros [H|H]; [easy|]. auto.
Qed.
Lemma find_app_r bs bs' i : ~ In i (map b_id bs) -> find_block (bs ++ bs') i = find_block bs' i.
Proof.
  induction bs as [|b bs IH]; cbn [map In app find_block]; [easy|].
  intros H. destruct (N.eqb_spec (b_id b) i); [tauto|]. apply IH. tauto.
Qed.

Lemma split_images_nil o : split_images_left [] o = [] /\ split_images_right [] o = [].
Proof. split; reflexivity. Qed.

Lemma next_fresh d ps : wf d ps -> ~ In (d_next d) (map fst ps).
Proof. intros W H. apply (wf_next _ _ W) in H. lia. Qed.

Lemma insert_block_full d pre b t post i p :
  let ps := pre ++ (b, t) :: post in
  let ps' := pre ++ (b, firstn i t) :: (d_next d, skipn i t) :: post in
  wf d ps -> i <= length t -> clipz (ctotal ps) p = cpre pre + i ->
  exists d', insert_block d p = Ok (d', Z.of_nat (cpre pre + i + 1), d_next d)
   /\ wf d' ps'
   /\ items_of (d_runs d') ps' = spec_break (cpre pre + i) (items_of (d_runs d) ps)
   /\ para_attrs d' = firstn (S (length pre)) (para_attrs d) ++ skipn (length pre) (para_attrs d)
   /\ d_chars d' = d_chars d /\ d_nblocks d' = (d_nblocks d + 1)%Z /\ d_next d' = N.succ (d_next d).
Proof.
  intros ps ps' W Hi Hp. pose proof (wf_multi _ _ W) as Hids. pose proof (wf_nodup _ _ W) as ND.
  unfold insert_block. set (bs := get_multi d (collect_block_ids d)) in *.
  assert (Hin : In b (map b_id bs)) by (rewrite Hids; eapply wf_in_mid, W).
  destruct (find_in_list _ _ _ _ _ _ _ bs W Hi Hp Hin) as (k & x & K1 & K2 & K3 & ->).
  assert (Ek : k = length pre).
  { rewrite (index_of_paras _ _ _ _ _ Hids ND) in K1. congruence. }
  cbn [bind b_id b_list b_fmt b_pos set_b_pos]. rewrite K3, (wf_content _ _ _ _ _ W). cbn [bind].
  rewrite (wf_images _ _ W), Nat2Z.id, lob_nil, slice_0_boff, slice_boff_end. cbn [bind].
  destruct (split_images_nil (boff t i)) as [-> ->].
  set (cur := set_b_pos x (Z.of_nat (cpre pre))).
  assert (Hhas : In (b_id cur) (map b_id (d_blocks d))).
  { cbn [cur set_b_pos b_id]. rewrite K3. eapply wf_has; [exact W|eapply wf_in_mid, W]. }
  assert (Hattr : forall y, In y bs -> attr d (b_id y) = Some (b_list y, b_fmt y))
    by (intros y; apply get_multi_attr).
  assert (Hx : In x bs) by (now apply nth_error_In in K2).
  pose proof (next_fresh _ _ W) as Hfresh.
  unfold create_block.
  cbn [d_rs d_blocks d_runs d_images d_fblocks d_order d_chars d_nblocks d_next set_images set_runs update_block set_blocks].
  set (ni := d_next d) in *.
  pose proof (wf_rep _ _ W) as R. unfold ps in R. rewrite segs_mid in R. rewrite <- (firstn_skipn i t) in R.
  destruct (rep_split_block _ _ _ _ _ ni _ R) as (st' & E & R').
  { rewrite firstn_skipn, <- segs_mid, in_segs_fst. exact Hfresh. }
  rewrite boff_split, E. cbn [bind].
  assert (Hord : d_order d = map fst pre ++ b :: map fst post).
  { rewrite (wf_order _ _ W). unfold ps. now rewrite map_app. }
  unfold set_rs, set_images, set_runs.
  cbn [d_rs d_blocks d_runs d_images d_fblocks d_order d_chars d_nblocks d_next].
  pose proof ND as ND'. unfold ps in ND'. pose proof (nodup_mid _ _ _ _ ND') as [N1 N2].
  rewrite Hord, pos_of_id_mid by exact N1. rewrite map_length.
  replace (firstn (S (length pre)) (map fst pre ++ b :: map fst post)) with (map fst pre ++ [b]).
  2:{ rewrite firstn_app, map_length. rewrite firstn_all2 by (rewrite map_length; lia).
      replace (S (length pre) - length pre) with 1 by lia. reflexivity. }
  replace (skipn (S (length pre)) (map fst pre ++ b :: map fst post)) with (map fst post).
  2:{ rewrite skipn_app, map_length. rewrite skipn_all2 by (rewrite map_length; lia).
      replace (S (length pre) - length pre) with 1 by lia. reflexivity. }
  set (d6 := set_order _ _).
  assert (Hids6 : map b_id (d_blocks d6) = map b_id (d_blocks d) ++ [ni]).
  { cbn. rewrite map_app, put_ids by exact Hhas. reflexivity. }
  assert (Hruns6 : forall q, d_runs d6 q = if N.eqb q ni then split_runs_right (d_runs d b) (blen (firstn i t))
                      else if N.eqb q b then split_runs_left (d_runs d b) (blen (firstn i t)) else d_runs d q).
  { intros q. reflexivity. }
  assert (Hfst' : map fst ps' = map fst pre ++ b :: ni :: map fst post) by (unfold ps'; now rewrite map_app).
  assert (Hfst : map fst ps = map fst pre ++ b :: map fst post) by (unfold ps; now rewrite map_app).
  assert (Hperm : Permutation (map fst ps ++ [ni]) (map fst ps')).
  { rewrite Hfst, Hfst', <- app_assoc. apply Permutation_app_head. cbn [app]. constructor.
    symmetry. apply Permutation_cons_append. }
  assert (Hinps' : forall q, In q (map fst ps') <-> In q (map fst ps) \/ q = ni).
  { intros q. rewrite Hfst, Hfst', !in_app_iff. cbn [In]. intuition congruence. }
  assert (Wt : wf_runs (firstn i t ++ skipn i t) (d_runs d b)).
  { rewrite firstn_skipn. apply (wf_runs_in _ _ W). unfold ps. rewrite in_app_iff. right. now left. }
  assert (Nbni : b <> ni).
  { intros Eb. apply Hfresh. rewrite Hfst, in_app_iff. right. left. exact Eb. }
  assert (Hold : forall q, In q (map fst pre) \/ In q (map fst post) -> d_runs d6 q = d_runs d q).
  { intros q Hq. rewrite Hruns6. destruct (N.eqb_spec q ni) as [->|].
    - exfalso. apply Hfresh. rewrite Hfst, in_app_iff. cbn [In]. tauto.
    - destruct (N.eqb_spec q b) as [->|]; [|easy]. exfalso. tauto. }
  assert (Hrb : d_runs d6 b = split_runs_left (d_runs d b) (blen (firstn i t))).
  { rewrite Hruns6. destruct (N.eqb_spec b ni); [easy|]. now rewrite N.eqb_refl. }
  assert (Hrn : d_runs d6 ni = split_runs_right (d_runs d b) (blen (firstn i t))).
  { rewrite Hruns6. now rewrite N.eqb_refl. }
  assert (W6 : wf d6 ps').
  { constructor.
    - unfold ps'. now destruct pre.
    - cbn. unfold ps'. rewrite segs_mid, segs_cons. exact R'.
    - cbn. rewrite Hfst', <- app_assoc. reflexivity.
    - cbn. etransitivity; [|exact Hperm]. apply Permutation_app_tail, (wf_fblocks _ _ W).
    - rewrite Hids6. etransitivity; [|exact Hperm]. apply Permutation_app_tail, (wf_ids _ _ W).
    - intros c u Hin'. unfold ps' in Hin'. rewrite in_app_iff in Hin'.
      destruct Hin' as [Hin'|[[= <- <-]|[[= <- <-]|Hin']]].
      + rewrite Hold by (left; now apply (in_map fst) in Hin'). apply (wf_runs_in _ _ W).
        unfold ps. rewrite in_app_iff. now left.
      + rewrite Hrb. apply (split_left_wf _ _ _ Wt).
      + rewrite Hrn. apply (split_right_wf _ _ _ Wt).
      + rewrite Hold by (right; now apply (in_map fst) in Hin'). apply (wf_runs_in _ _ W).
        unfold ps. rewrite in_app_iff. right. now right.
    - intros q Hq. rewrite Hinps' in Hq. rewrite Hruns6.
      destruct (N.eqb_spec q ni) as [->|]; [tauto|].
      destruct (N.eqb_spec q b) as [->|].
      + exfalso. apply Hq. left. rewrite Hfst, in_app_iff. right. now left.
      + apply (wf_runs_out _ _ W). tauto.
    - intros q. cbn. unfold upd. destruct (N.eqb q ni); [easy|]. destruct (N.eqb q b); [easy|].
      apply (wf_images _ _ W).
    - intros q Hq. cbn. apply Hinps' in Hq. destruct Hq as [Hq| ->]; [|lia].
      apply (wf_next _ _ W) in Hq. fold ni in Hq. lia. }
  assert (Hattr6 : forall q, In q (map b_id (d_blocks d)) -> attr d6 q = attr d q).
  { intros q Hq. transitivity (attr (update_block d cur) q).
    - unfold attr, get_block. cbn. rewrite find_app_l; [easy|]. now rewrite put_ids.
    - revert q Hq. enough (same_attr d (update_block d cur)) by auto.
      apply attr_update. cbn [cur set_b_pos b_id b_list b_fmt]. now apply Hattr. }
  assert (Hattrn : attr d6 ni = Some (b_list x, b_fmt x)).
  { unfold attr, get_block. cbn. rewrite find_app_r.
    - cbn [find_block b_id]. rewrite N.eqb_refl. reflexivity.
    - rewrite put_ids by exact Hhas. intros H. apply Hfresh.
      eapply Permutation_in; [apply (wf_ids _ _ W)|exact H]. }
  set (ups := map _ (skipn (S k) bs)).
  assert (Hups : forall y, In y ups -> In (b_id y) (map b_id (d_blocks d)) /\ attr d6 (b_id y) = Some (b_list y, b_fmt y)).
  { intros y Hy. apply in_map_iff in Hy. destruct Hy as (z & <- & Hz). cbn [b_id b_list b_fmt set_b_pos].
    assert (Hz' : In z bs).
    { rewrite <- (firstn_skipn (S k) bs), in_app_iff. now right. }
    assert (In (b_id z) (map b_id (d_blocks d))).
    { apply get_multi_in in Hz'. apply in_map. tauto. }
    split; [easy|]. rewrite Hattr6 by easy. now apply Hattr. }
  assert (M : meta d6 (update_multi d6 ups)).
  { apply meta_update_multi. intros q Hq. apply in_map_iff in Hq. destruct Hq as (y & <- & Hy).
    rewrite Hids6, in_app_iff. left. now apply Hups. }
  assert (A : same_attr d6 (update_multi d6 ups)).
  { apply attr_update_multi. intros y Hy. now apply Hups. }
  eexists. split; [|split; [|split; [|split; [|split; [|split]]]]].
  - rewrite firstn_length. rewrite Nat.min_l by lia. cbn [length]. do 3 f_equal. lia.
  - eapply wf_meta; [eapply wf_meta; [exact W6|exact M]|apply meta_nblocks].
  - transitivity (items_of (d_runs d6) ps').
    { cbn [d_runs set_nblocks]. now rewrite (meta_runs _ _ M). }
    unfold ps'. rewrite items_mid, ipost_cons, Hrb, Hrn.
    rewrite (split_left_styled _ _ _ Wt), (split_right_styled _ _ _ Wt).
    rewrite (ipre_ext (d_runs d) (d_runs d6) pre) by auto.
    rewrite (ipost_ext (d_runs d) (d_runs d6) post) by auto.
    unfold spec_break, ps. rewrite (firstn_items (d_runs d) pre b t post i Hi), (skipn_items (d_runs d) pre b t post i Hi).
    rewrite <- !app_assoc. reflexivity.
  - unfold para_attrs. cbn [d_order set_nblocks].
    transitivity (map (attr d6) (d_order d6)).
    { rewrite (meta_order _ _ M). apply map_ext. intros q.
      rewrite <- (A q). reflexivity. }
    rewrite (wf_order _ _ W6), Hfst', Hord, !map_app. cbn [map].
    rewrite Hattrn.
    assert (Eb : attr d b = Some (b_list x, b_fmt x)) by (rewrite <- K3; now apply Hattr).
    rewrite Hattr6 by (eapply wf_has; [exact W|eapply wf_in_mid, W]). rewrite Eb.
    rewrite (map_ext_in (attr d6) (attr d) (map fst pre)).
    2:{ intros q Hq. apply Hattr6. eapply wf_has; [exact W|]. rewrite Hfst, in_app_iff. now left. }
    rewrite (map_ext_in (attr d6) (attr d) (map fst post)).
    2:{ intros q Hq. apply Hattr6. eapply wf_has; [exact W|]. rewrite Hfst, in_app_iff. right. now right. }
    rewrite firstn_app, skipn_app, !map_length.
    rewrite firstn_all2 by (rewrite !map_length; lia).
    rewrite skipn_all2 by (rewrite !map_length; lia).
    replace (S (length pre) - length pre) with 1 by lia. rewrite Nat.sub_diag.
    rewrite <- app_assoc. reflexivity.
  - cbn [d_chars set_nblocks]. now rewrite update_multi_chars.
  - cbn [d_nblocks set_nblocks]. reflexivity.
  - cbn [d_next set_nblocks]. now rewrite (meta_next _ _ M).
Qed.
