(** Inserting an image in a document without images. *)
From Verif Require Import Base BaseFacts FormatRunsModel FormatRunsSpec FormatRunsFacts
  RopeModel RopeSpec RopeFacts DocModel DocSpec BlockFacts DocInv DocFacts DocAttr DocDelete DocBreak DocReplace
  DocImport DocFormat HistModel DocReach DocHist DocQuery DocFresh QueryModel QuerySpec QueryFacts QueryText ReplaceExact ImageModel.
From Coq Require Import Permutation.

(** ** The anchor *)

Definition stext (ss : list segment) : str := flat_map segment_text ss.

Lemma find_segment_ok ss : Forall no_image ss -> ss <> [] -> forall k running off,
  (running <= off <= running + Z.of_nat (length (stext ss)))%Z ->
  exists A t f B so, ss = A ++ SegText t f :: B /\ so <= length t
   /\ find_segment ss k running off = Some (SegText t f, k + length A, Z.of_nat so)
   /\ off = (running + Z.of_nat (length (stext A) + so))%Z.
Proof.
  induction ss as [|s ss IH]; intros H Hne k running off Ho; [easy|]. inversion H as [|? ? H1 H2]; subst.
  destruct s as [t f|]; [|easy]. cbn [find_segment seg_chars].
  cbn [stext flat_map segment_text] in Ho. rewrite app_length in Ho.
  destruct (Z.leb_spec off (running + Z.of_nat (length t))) as [L|L].
  - exists [], t, f, ss, (Z.to_nat (off - running)). cbn [stext flat_map length app]. rewrite Nat.add_0_r.
    split; [easy|]. split; [lia|]. split; [|lia]. do 2 f_equal. lia.
  - destruct ss as [|s' ss].
    + cbn [flat_map length] in Ho. lia.
    + destruct (IH H2 ltac:(discriminate) (S k) (running + Z.of_nat (length t))%Z off) as (A & u & g & B & so & E & L1 & E1 & E2).
      { unfold stext. lia. }
      exists (SegText t f :: A), u, g, B, so. cbn [app length]. rewrite E1, E. split; [easy|]. split; [easy|].
      split; [do 3 f_equal; lia|]. rewrite E2. cbn [stext flat_map segment_text]. rewrite app_length. unfold stext. lia.
Qed.

Lemma seg_bytes_sum A : Forall no_image A -> fold_right (fun x n => seg_bytes x + n) 0 A = blen (stext A).
Proof.
  induction A as [|s A IH]; intros H; [easy|]. inversion H; subst. cbn [fold_right stext flat_map]. rewrite blen_app.
  rewrite IH by easy. destruct s; easy.
Qed.

Lemma anchor_byte_ok ss i : Forall no_image ss -> i <= length (stext ss) ->
  anchor_byte ss (Z.of_nat i) = boff (stext ss) i.
Proof.
  intros H Hi. unfold anchor_byte. destruct ss as [|s ss].
  - cbn in *. unfold boff. now rewrite firstn_nil.
  - destruct (find_segment_ok _ H ltac:(discriminate) 0 0%Z (Z.of_nat i) ltac:(lia)) as (A & t & f & B & so & E & L & E1 & E2).
    rewrite E1, E. cbn [plus]. rewrite firstn_app, Nat.sub_diag, firstn_O, app_nil_r, firstn_all.
    assert (HA : Forall no_image A) by (rewrite E in H; apply Forall_app in H; tauto).
    rewrite (seg_bytes_sum _ HA). destruct (Z.ltb_spec (Z.of_nat so) 0); [lia|]. rewrite Nat2Z.id.
    replace i with (length (stext A) + so) by lia. unfold boff, stext. rewrite flat_map_app. cbn [flat_map segment_text].
    rewrite firstn_app_2, firstn_app, blen_app. replace (so - length t) with 0 by lia. now rewrite firstn_O, app_nil_r.
Qed.

(** ** The whole operation *)

Lemma sorted_in d pre b t post : wf d (pre ++ (b, t) :: post) ->
  In b (map b_id (sort_blocks (get_multi d (d_fblocks d)))).
Proof.
  intros W. eapply Permutation_in; [apply Permutation_map; symmetry; apply sort_perm|].
  rewrite (wf_multi_f _ _ W). eapply Permutation_in; [symmetry; apply (wf_fblocks _ _ W)|]. eapply wf_in_mid, W.
Qed.

Definition with_runs (d : doc) (b : id) (R : list run) : doc := set_runs (set_images d b []) b R.

Lemma insert_image_full d pre b t post i p name w h :
  let ps := pre ++ (b, t) :: post in
  let ps' := pre ++ (b, ins_text t i [FFFC]) :: post in
  wf d ps -> i <= length t -> clipz (ctotal ps) p = cpre pre + i -> (0 < w)%Z -> (0 < h)%Z ->
  exists d', insert_image d p p name w h = Ok (d', (p + 1)%Z, synth_element_id b (boff t i))
   /\ (forall R, wf_runs (ins_text t i [FFFC]) R -> wf (with_runs d' b R) ps')
   /\ d_runs d' = d_runs d
   /\ (forall q, d_images d' q = if N.eqb q b then [mk_image (boff t i) name w h 100 cfmt_default] else [])
   /\ d_order d' = d_order d /\ d_chars d' = (d_chars d + 1)%Z /\ d_nblocks d' = d_nblocks d /\ d_next d' = d_next d
   /\ same_attr d d'
   /\ (fresh d ps -> fresh (with_runs d' b []) ps').
Proof.
  intros ps ps' W Hi Hp Hw Hh. pose proof (wf_nodup _ _ W) as ND.
  unfold insert_image. rewrite Z.eqb_refl. cbn [negb].
  destruct (Z.leb_spec w 0); [lia|]. destruct (Z.leb_spec h 0); [lia|]. cbn [orb].
  set (bs := sort_blocks (get_multi d (d_fblocks d))).
  assert (Hin : In b (map b_id bs)) by (eapply sorted_in, W).
  destruct (find_in_list _ _ _ _ _ _ _ bs W Hi Hp Hin) as (k & x & K1 & K2 & K3 & ->).
  cbn [bind b_id set_b_pos]. rewrite K3.
  assert (Es : exists ss, block_segments d b = Ok ss /\ stext ss = t /\ Forall no_image ss).
  { destruct (block_segments_wf _ _ _ _ _ W) as (ss & E & H1). exists ss. split; [easy|]. split; [easy|].
    unfold block_segments in E. rewrite (wf_content _ _ _ _ _ W) in E. cbn [bind] in E. rewrite (wf_images _ _ W) in E.
    exact (view_no _ _ _ E). }
  destruct Es as (ss & -> & Ht & Hno). cbn [bind]. rewrite (anchor_byte_ok ss i Hno) by (now rewrite Ht). rewrite Ht.
  cbn [d_rs set_images]. rewrite (wf_images _ _ W). cbn [add_image].
  pose proof (wf_rep _ _ W) as R. unfold ps in R. rewrite segs_mid in R. rewrite <- (firstn_skipn i t) in R.
  destruct (rep_insert_in_block _ _ _ _ _ [FFFC] _ R) as (st' & E & R'). rewrite <- boff_split in E. rewrite E. cbn [bind].
  set (d1 := set_rs _ st'). set (cur := set_b_pos x (Z.of_nat (cpre pre))). set (ups := map _ (skipn (S k) bs)).
  assert (Hbs : forall y, In y bs -> In y (get_multi d (d_fblocks d))).
  { intros y Hy. eapply Permutation_in; [apply sort_perm|exact Hy]. }
  assert (Hx : In x bs) by (now apply nth_error_In in K2).
  assert (Hcur : In (b_id cur) (map b_id (d_blocks d1))).
  { cbn [cur set_b_pos b_id d1 d_blocks set_rs set_images]. rewrite K3. eapply wf_has; [exact W|eapply wf_in_mid, W]. }
  set (d2 := update_block d1 cur).
  assert (M1 : meta d1 d2) by (now apply meta_update).
  assert (A1 : same_attr d d2).
  { eapply same_attr_trans; [apply (same_attr_blocks d d1); reflexivity|]. apply attr_update.
    change (attr d1 (b_id cur)) with (attr d (b_id x)). cbn [cur set_b_pos b_list b_fmt]. eapply get_multi_attr, Hbs, Hx. }
  assert (Hups : forall y, In y ups -> In (b_id y) (map b_id (d_blocks d2)) /\ attr d2 (b_id y) = Some (b_list y, b_fmt y)).
  { intros y Hy. apply in_map_iff in Hy. destruct Hy as (z & <- & Hz). cbn [b_id b_list b_fmt set_b_pos].
    assert (Hz' : In z (get_multi d (d_fblocks d))).
    { apply Hbs. rewrite <- (firstn_skipn (S k) bs), in_app_iff. now right. }
    split; [|rewrite (A1 (b_id z)); eapply get_multi_attr, Hz'].
    rewrite (meta_ids _ _ M1). apply get_multi_in in Hz'. apply in_map. tauto. }
  assert (M2 : meta d2 (update_multi d2 ups)).
  { apply meta_update_multi. intros q Hq. apply in_map_iff in Hq. destruct Hq as (y & <- & Hy). now apply Hups. }
  assert (A2 : same_attr d2 (update_multi d2 ups)) by (apply attr_update_multi; intros y Hy; now apply Hups).
  pose proof (meta_trans _ _ _ M1 M2) as M.
  set (d3 := update_multi d2 ups) in *.
  eexists. split; [reflexivity|]. cbn [d_runs d_images d_order d_chars d_nblocks d_next set_chars].
  assert (HW : forall R0, wf_runs (ins_text t i [FFFC]) R0 -> wf (with_runs (set_chars d3 (d_chars d3 + 1)) b R0) ps').
  { intros R0 HR. eapply (wf_edit d pre b t post (ins_text t i [FFFC]) R0).
    - exact W.
    - cbn [with_runs d_rs set_runs set_images set_chars]. rewrite (meta_rs _ _ M), segs_mid. exact R'.
    - exact HR.
    - cbn [with_runs d_blocks set_runs set_images set_chars]. now rewrite (meta_ids _ _ M).
    - intros q. cbn [with_runs d_runs set_runs set_images set_chars]. rewrite (meta_runs _ _ M). reflexivity.
    - intros q. cbn [with_runs d_images set_runs set_images set_chars]. rewrite (meta_images _ _ M).
      cbn [d1 d_images set_rs set_images]. unfold upd. destruct (N.eqb q b); [easy|apply (wf_images _ _ W)].
    - cbn [with_runs d_fblocks set_runs set_images set_chars]. now rewrite (meta_fblocks _ _ M).
    - cbn [with_runs d_order set_runs set_images set_chars]. now rewrite (meta_order _ _ M).
    - cbn [with_runs d_next set_runs set_images set_chars]. now rewrite (meta_next _ _ M). }
  split; [exact HW|]. split; [now rewrite (meta_runs _ _ M)|]. split.
  { intros q. rewrite (meta_images _ _ M). cbn [d1 d_images set_rs set_images]. unfold upd.
    destruct (N.eqb q b); [easy|apply (wf_images _ _ W)]. }
  split; [now rewrite (meta_order _ _ M)|]. unfold d3. rewrite update_multi_chars, update_multi_nblocks.
  split; [reflexivity|]. split; [reflexivity|]. split; [change (d_next d3 = d_next d); now rewrite (meta_next _ _ M)|].
  split.
  { eapply same_attr_trans; [exact A1|]. eapply same_attr_trans; [exact A2|]. now apply same_attr_blocks. }
  intros F. specialize (HW [] ltac:(repeat constructor)).
  pose proof (fresh_sorted _ _ W F) as Eb. fold bs in Eb. pose proof (wf_multi _ _ W) as Hids.
  assert (Eids : map b_id bs = map fst ps).
  { rewrite Eb. apply get_multi_ids. intros q Hq. eapply wf_has; [exact W|exact Hq]. }
  assert (Ek : k = length pre).
  { rewrite (index_of_paras _ _ _ _ _ Eids ND) in K1. congruence. }
  assert (Hskip : map b_id (skipn (S k) bs) = map fst post).
  { rewrite <- skipn_map, Eids, Ek. unfold ps. rewrite map_app, skipn_app, map_length, skipn_all2 by (rewrite map_length; lia).
    replace (S (length pre) - length pre) with 1 by lia. reflexivity. }
  assert (Hu : map b_id ups = map fst post) by (unfold ups; rewrite map_map; exact Hskip).
  assert (NDp : NoDup (map fst post)).
  { unfold ps in ND. rewrite map_app in ND. apply nodup_app_r in ND. now inversion ND. }
  apply (fresh_pos _ _ HW). rewrite (fresh_pos _ _ W) in F.
  assert (P : forall q, pos_of (with_runs (set_chars d3 (d_chars d3 + 1)) b []) q
     = match find_block ups q with Some y => Some (b_pos y) | None =>
         if N.eqb b q then Some (Z.of_nat (cpre pre)) else pos_of d q end).
  { intros q. change (pos_of (with_runs (set_chars d3 (d_chars d3 + 1)) b []) q) with (pos_of d3 q). unfold d3.
    rewrite pos_update_multi; [|now rewrite Hu|intros y Hy; now apply Hups].
    destruct (find_block ups q); [easy|]. unfold d2. rewrite pos_update by exact Hcur.
    cbn [cur set_b_pos b_id b_pos]. rewrite K3. reflexivity. }
  assert (Pout : forall q, ~ In q (map fst post) -> find_block ups q = None)
    by (intros q Hq; apply find_block_none; now rewrite Hu).
  intros pre' c u post' E0. rewrite P. pose proof (nodup_mid _ _ _ _ ND) as [N1 N2].
  destruct (paras_split_cases _ _ _ _ _ _ _ _ _ eq_refl E0) as [(m & ->)|[(-> & -> & _ & _)|(m & E2 & ->)]].
  - assert (Hc : In c (map fst (pre' ++ (c, u) :: m))) by (rewrite map_app, in_app_iff; right; now left).
    rewrite Pout.
    + destruct (N.eqb_spec b c) as [->|]; [easy|].
      apply (F pre' c u (m ++ (b, t) :: post)). unfold ps. now rewrite <- app_assoc.
    + intros H'. unfold ps in ND. rewrite map_app in ND. apply (nodup_app_disj _ _ c ND Hc). now right.
  - rewrite Pout by easy. now rewrite N.eqb_refl.
  - assert (Hc : In c (map b_id (skipn (S k) bs))).
    { rewrite Hskip, E2, map_app, in_app_iff. right. now left. }
    destruct (find_block_in _ _ Hc) as (y & Ey & Iy & Hy).
    unfold ups. rewrite find_shift by easy. rewrite Ey. cbn [option_map b_pos set_b_pos]. f_equal.
    assert (Hyb : In y bs) by (rewrite <- (firstn_skipn (S k) bs), in_app_iff; now right).
    apply Hbs, get_multi_get in Hyb. rewrite Iy in Hyb.
    assert (Fy : pos_of d c = Some (Z.of_nat (cpre (pre ++ (b, t) :: m)))).
    { apply (F _ c u post'). unfold ps. rewrite E2, <- app_assoc. reflexivity. }
    unfold pos_of in Fy. rewrite Hyb in Fy. cbn in Fy. injection Fy as ->.
    rewrite !cpre_app, !cpre_cons. unfold ins_text. rewrite !app_length, firstn_length, skipn_length. cbn [length]. lia.
Qed.

(** ** Formats after an image *)

Lemma default_beyond t R i : wf_runs t R -> i <= length t ->
  (forall j, i <= j < length t -> eff_at R (boff t j) = cfmt_default) ->
  forall x, boff t i <= x -> eff_at R x = cfmt_default.
Proof.
  intros (Ho & _ & He) Hi H x Hx. unfold eff_at at 1. destruct (fmt_at R x) as [f|] eqn:E; [|easy].
  apply fmt_at_some in E. destruct E as (r & Ir & Hr & <-).
  unfold edges in He. rewrite Forall_forall in He. destruct (He _ Ir) as [(m & Hm & Em) (n & Hn & En)].
  assert (Hin : i < n). { destruct (Nat.le_gt_cases n i) as [L|L]; [|easy]. pose proof (boff_mono t n i L). lia. }
  assert (Hmn : m < n). { destruct (Nat.le_gt_cases n m) as [L|L]; [|easy]. pose proof (boff_mono t n m L). lia. }
  rewrite <- (H (Nat.max i m)) by lia. unfold eff_at. rewrite (fmt_at_in 0 R r _ Ho Ir); [easy|].
  rewrite Em, En. split; [apply boff_mono; lia|]. apply boff_lt; lia.
Qed.
