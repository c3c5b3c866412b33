(** When the stored paragraph positions are right. *)
From Verif Require Import Base BaseFacts FormatRunsModel FormatRunsSpec FormatRunsFacts
  RopeModel RopeSpec RopeFacts DocModel DocSpec BlockFacts DocInv DocFacts DocAttr DocDelete DocBreak DocReplace
  DocImport DocFormat DocQuery.
From Coq Require Import Permutation.

Lemma fresh_pos d ps : wf d ps ->
  (fresh d ps <-> forall pre b t post, ps = pre ++ (b, t) :: post -> pos_of d b = Some (Z.of_nat (cpre pre))).
Proof.
  intros W. split; intros H pre b t post ->.
  - destruct (wf_get_mid _ _ _ _ _ W) as [x Ex]. unfold pos_of. rewrite Ex. cbn. f_equal. eapply H; eauto.
  - intros x Ex. specialize (H _ _ _ _ eq_refl). unfold pos_of in H. rewrite Ex in H. cbn in H. congruence.
Qed.

Lemma cpre_app a b : cpre (a ++ b) = cpre a + cpre b.
Proof. unfold cpre. now rewrite segs_app, jpre_app, app_length. Qed.
Lemma cpre_snoc pre b t : cpre (pre ++ [(b, t)]) = cpre pre + length t + 1.
Proof. rewrite cpre_app, cpre_cons, cpre_nil. lia. Qed.

Lemma fresh_equiv_gen d ps : wf d ps -> forall post pre, ps = pre ++ post ->
  (fresh_from d (cpre pre) (map fst post) <->
   forall p1 b t p2, post = p1 ++ (b, t) :: p2 -> pos_of d b = Some (Z.of_nat (cpre (pre ++ p1)))).
Proof.
  intros W. induction post as [|[c u] post IH]; intros pre E; cbn [map fresh_from fst].
  - split; [|easy]. intros _ p1 b t p2 H. destruct p1; discriminate.
  - assert (E' : ps = (pre ++ [(c, u)]) ++ post) by (rewrite <- app_assoc; exact E).
    specialize (IH _ E'). rewrite cpre_snoc in IH. rewrite E in W.
    destruct (wf_get_mid _ _ _ _ _ W) as [x Ex]. pose proof (wf_content _ _ _ _ _ W) as Ct. split.
    + intros (b' & t' & H1 & H2 & H3 & H4) p1 b t p2 Hp. rewrite Ct in H2. injection H2 as <-.
      destruct p1 as [|q p1]; cbn in Hp.
      * injection Hp as <- <- <-. rewrite app_nil_r. unfold pos_of. rewrite H1. cbn. now f_equal.
      * injection Hp as <- Hp. rewrite (proj1 IH H4 _ _ _ _ Hp), <- app_assoc. reflexivity.
    + intros H. exists x, u. split; [easy|]. split; [easy|]. split.
      * specialize (H [] c u post eq_refl). rewrite app_nil_r in H. unfold pos_of in H. rewrite Ex in H. cbn in H. congruence.
      * apply IH. intros p1 b t p2 Hp. rewrite <- app_assoc. cbn [app]. apply (H ((c, u) :: p1) b t p2). now rewrite Hp.
Qed.

Lemma fresh_equiv d ps : wf d ps -> (fresh_positions d <-> fresh d ps).
Proof.
  intros W. rewrite (fresh_pos _ _ W). unfold fresh_positions. rewrite (wf_order _ _ W).
  apply (fresh_equiv_gen _ _ W ps []). easy.
Qed.

Lemma find_shift f l i : (forall y, b_id (f y) = b_id y) ->
  find_block (map f l) i = option_map f (find_block l i).
Proof.
  intros H. induction l as [|y l IH]; cbn [map find_block]; [easy|]. rewrite H. now destruct (N.eqb (b_id y) i).
Qed.

Lemma paras_split_cases (ps : list para) pre b t post pre' c u post' :
  ps = pre ++ (b, t) :: post -> ps = pre' ++ (c, u) :: post' ->
  (exists m, pre = pre' ++ (c, u) :: m) \/ (pre' = pre /\ c = b /\ u = t /\ post' = post)
  \/ (exists m, post = m ++ (c, u) :: post' /\ pre' = pre ++ (b, t) :: m).
Proof.
  intros -> H. revert pre' H. induction pre as [|q pre IH]; intros [|q' pre'] H; cbn in H.
  - injection H as -> -> ->. right. left. auto.
  - injection H as <- H. right. right. exists pre'. subst. auto.
  - injection H as -> H. left. exists pre. easy.
  - injection H as <- H. destruct (IH _ H) as [(m & ->)|[(-> & -> & -> & ->)|(m & -> & ->)]].
    + left. exists m. easy.
    + right. left. auto.
    + right. right. exists m. auto.
Qed.

(** [insert_block] keeps fresh positions fresh. *)
Lemma insert_block_fresh d pre b t post i p d' np ni :
  let ps := pre ++ (b, t) :: post in
  let ps' := pre ++ (b, firstn i t) :: (d_next d, skipn i t) :: post in
  wf d ps -> i <= length t -> clipz (ctotal ps) p = cpre pre + i -> fresh d ps ->
  insert_block d p = Ok (d', np, ni) -> wf d' ps' -> fresh d' ps'.
Proof.
  intros ps ps' W Hi Hp F E W'. pose proof (wf_multi _ _ W) as Hids. pose proof (wf_nodup _ _ W) as ND.
  apply (fresh_pos _ _ W'). rewrite (fresh_pos _ _ W) in F.
  unfold insert_block in E. set (bs := get_multi d (collect_block_ids d)) in *.
  assert (Hin : In b (map b_id bs)) by (rewrite Hids; eapply wf_in_mid, W).
  destruct (find_in_list _ _ _ _ _ _ _ bs W Hi Hp Hin) as (k & x & K1 & K2 & K3 & K4). rewrite K4 in E. clear K4.
  assert (Ek : k = length pre).
  { rewrite (index_of_paras _ _ _ _ _ Hids ND) in K1. congruence. }
  cbn [bind b_id b_list b_fmt b_pos set_b_pos] in E. rewrite K3, (wf_content _ _ _ _ _ W) in E. cbn [bind] in E.
  rewrite (wf_images _ _ W), Nat2Z.id, lob_nil, slice_0_boff, slice_boff_end in E. cbn [bind] in E.
  destruct (split_images_nil (boff t i)) as [S1 S2]. rewrite S1, S2 in E.
  set (cur := set_b_pos x (Z.of_nat (cpre pre))) in E.
  assert (Hhas : In (b_id cur) (map b_id (d_blocks d))).
  { cbn [cur set_b_pos b_id]. rewrite K3. eapply wf_has; [exact W|eapply wf_in_mid, W]. }
  pose proof (next_fresh _ _ W) as Hfresh.
  unfold create_block in E.
  cbn [d_rs d_blocks d_runs d_images d_fblocks d_order d_chars d_nblocks d_next set_images set_runs update_block set_blocks] in E.
  set (nn := d_next d) in *.
  destruct (rope_split_block _ _ _ _) as [rs| |]; [|easy|easy]. cbn [bind] in E.
  set (d6 := set_order _ _) in E. set (ups := map _ (skipn (S k) bs)) in E. injection E as <- _ _.
  assert (Hids6 : map b_id (d_blocks d6) = map b_id (d_blocks d) ++ [nn]).
  { cbn. rewrite map_app, put_ids by exact Hhas. reflexivity. }
  assert (Hskip : map b_id (skipn (S k) bs) = map fst post).
  { rewrite <- skipn_map, Hids, Ek. unfold ps. rewrite map_app, skipn_app, map_length, skipn_all2 by (rewrite map_length; lia).
    replace (S (length pre) - length pre) with 1 by lia. reflexivity. }
  assert (Hups : map b_id ups = map fst post) by (unfold ups; rewrite map_map; exact Hskip).
  assert (NDp : NoDup (map fst post)).
  { unfold ps in ND. rewrite map_app in ND. apply nodup_app_r in ND. now inversion ND. }
  assert (P : forall q, pos_of (set_nblocks (update_multi d6 ups) (d_nblocks d + 1)) q
     = match find_block ups q with Some y => Some (b_pos y) | None =>
         if N.eqb q nn then Some (Z.of_nat (cpre pre + i + 1)) else if N.eqb q b then Some (Z.of_nat (cpre pre)) else pos_of d q end).
  { intros q. change (pos_of (set_nblocks (update_multi d6 ups) (d_nblocks d + 1)) q) with (pos_of (update_multi d6 ups) q).
    rewrite pos_update_multi.
    - destruct (find_block ups q); [easy|]. unfold pos_of, get_block. cbn [d6 set_order d_blocks set_rs set_images set_runs].
      destruct (N.eqb_spec q nn) as [->|Nq].
      + rewrite find_app_r.
        * cbn [find_block b_id]. rewrite N.eqb_refl. cbn [option_map b_pos set_b_pos length cur].
          rewrite firstn_length, Nat.min_l by easy. f_equal. lia.
        * rewrite put_ids by exact Hhas. intros H. apply Hfresh. eapply Permutation_in; [apply (wf_ids _ _ W)|exact H].
      + assert (Hq : find_block (put_block (d_blocks d) cur ++ [mk_block nn (b_pos cur + Z.of_nat (length (firstn i t)) + Z.of_nat (length (@nil image)) + 1)
                        (b_list cur) (b_fmt cur)]) q = find_block (put_block (d_blocks d) cur) q).
        { destruct (in_dec N.eq_dec q (map b_id (d_blocks d))) as [I|I].
          - apply find_app_l. now rewrite put_ids.
          - rewrite find_app_r by (now rewrite put_ids). cbn [find_block b_id].
            destruct (N.eqb_spec nn q); [congruence|]. symmetry. apply find_block_none. now rewrite put_ids. }
        match goal with |- option_map b_pos ?t = _ => replace t with (find_block (put_block (d_blocks d) cur) q) end.
        pose proof (pos_update d cur q Hhas) as PU. unfold pos_of, get_block in PU. cbn [update_block d_blocks set_blocks] in PU.
        rewrite PU. cbn [cur set_b_pos b_id b_pos]. rewrite K3, N.eqb_sym. reflexivity.
    - now rewrite Hups.
    - intros y Hy. rewrite Hids6, in_app_iff. left. apply (in_map b_id) in Hy. rewrite Hups in Hy.
      eapply wf_has; [exact W|]. unfold ps. rewrite map_app, in_app_iff. right. now right. }
  assert (Pout : forall q, ~ In q (map fst post) -> find_block ups q = None)
    by (intros q Hq; apply find_block_none; now rewrite Hups).
  intros pre' c u post' E. rewrite P. unfold ps' in E.
  pose proof (nodup_mid _ _ _ _ ND) as [N1 N2].
  assert (Npre : forall q, In q (map fst pre) -> ~ In q (map fst post)).
  { intros q H1 H2. unfold ps in ND. rewrite map_app in ND. apply (nodup_app_disj _ _ q ND H1). now right. }
  assert (Nn : forall q, In q (map fst ps) -> q <> nn) by (intros q Hq ->; exact (Hfresh Hq)).
  destruct (paras_split_cases _ _ _ _ _ _ _ _ _ eq_refl E) as [(m & ->)|[(-> & -> & _ & _)|(m & E2 & ->)]].
  - assert (Hc : In c (map fst (pre' ++ (c, u) :: m))) by (rewrite map_app, in_app_iff; right; now left).
    rewrite Pout by auto. rewrite (proj2 (N.eqb_neq _ _)).
    + rewrite (proj2 (N.eqb_neq c b)) by congruence.
      apply (F pre' c u (m ++ (b, t) :: post)). unfold ps. now rewrite <- app_assoc.
    + apply Nn. unfold ps. rewrite map_app, in_app_iff. now left.
  - rewrite Pout by easy. rewrite (proj2 (N.eqb_neq b nn)), N.eqb_refl; [easy|].
    apply Nn. unfold ps. rewrite map_app, in_app_iff. right. now left.
  - destruct m as [|q m]; cbn in E2.
    + injection E2 as -> _ _. rewrite Pout.
      * rewrite N.eqb_refl. f_equal. rewrite cpre_snoc, firstn_length. lia.
      * intros H. apply Hfresh. unfold ps. rewrite map_app, in_app_iff. right. now right.
    + injection E2 as <- E2.
      assert (Hc : In c (map b_id (skipn (S k) bs))).
      { rewrite Hskip, E2, map_app, in_app_iff. right. now left. }
      destruct (find_block_in _ _ Hc) as (y & Ey & Iy & Hy).
      unfold ups. rewrite find_shift by easy. rewrite Ey. cbn [option_map b_pos set_b_pos]. f_equal.
      assert (Hyb : In y bs) by (rewrite <- (firstn_skipn (S k) bs), in_app_iff; now right).
      apply get_multi_get in Hyb. rewrite Iy in Hyb.
      assert (Fy : pos_of d c = Some (Z.of_nat (cpre (pre ++ (b, t) :: m)))).
      { apply (F _ c u post'). unfold ps. rewrite E2, <- app_assoc. reflexivity. }
      unfold pos_of in Fy. rewrite Hyb in Fy. cbn in Fy. injection Fy as ->.
      rewrite !cpre_app, !cpre_cons, firstn_length, skipn_length. lia.
Qed.

Lemma fresh_blocks d d' ps : wf d ps -> wf d' ps -> (forall i, In i (map fst ps) -> pos_of d' i = pos_of d i) -> fresh d ps -> fresh d' ps.
Proof.
  intros W W' H F. apply (fresh_pos _ _ W'). rewrite (fresh_pos _ _ W) in F. intros pre b t post ->.
  rewrite H; [eapply F; reflexivity|]. rewrite map_app, in_app_iff. right. now left.
Qed.

Lemma insert_last_fresh d pre b t t' d' : wf d (pre ++ [(b, t)]) -> wf d' (pre ++ [(b, t')]) ->
  d_blocks d' = d_blocks d -> fresh d (pre ++ [(b, t)]) -> fresh d' (pre ++ [(b, t')]).
Proof.
  intros W W' B F. apply (fresh_pos _ _ W'). rewrite (fresh_pos _ _ W) in F. intros pre' c u post' E.
  unfold pos_of, get_block. rewrite B. fold (get_block d c). fold (pos_of d c).
  destruct (paras_split_cases _ _ _ _ _ _ _ _ _ eq_refl E) as [(m & ->)|[(-> & -> & _ & _)|(m & E2 & ->)]].
  - apply (F pre' c u (m ++ [(b, t)])). now rewrite <- app_assoc.
  - eapply F. reflexivity.
  - destruct m; discriminate.
Qed.
