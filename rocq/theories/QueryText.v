(** Text at a position, and block handles. *)
From Verif Require Import Base BaseFacts FormatRunsModel FormatRunsSpec FormatRunsFacts
  RopeModel RopeSpec RopeFacts DocModel DocSpec BlockFacts DocInv DocFacts DocAttr DocDelete DocBreak DocReplace
  DocImport DocFormat HistModel DocReach DocHist DocQuery QueryModel QuerySpec QueryFacts.
From Coq Require Import Permutation.

Definition no_image (s : segment) : Prop := match s with SegText _ _ => True | SegImage _ => False end.

Lemma emit_text_no t a b f out out' : emit_text t a b f out = Ok out' -> Forall no_image out -> Forall no_image out'.
Proof.
  unfold emit_text. destruct (b <=? a); [intros [= <-]; easy|]. destruct (byte_slice t a b); cbn [bind]; [|discriminate..].
  intros [= <-] H. apply Forall_app. split; [easy|]. repeat constructor.
Qed.

Lemma seg_runs_no t runs : forall cur out imgs' cur' out', seg_runs t runs [] cur out = Ok (imgs', cur', out') ->
  Forall no_image out -> imgs' = [] /\ Forall no_image out'.
Proof.
  induction runs as [|r runs IH]; intros cur out imgs' cur' out' H Ho; cbn [seg_runs seg_images_before bind] in H.
  - injection H as <- <- <-. easy.
  - destruct (emit_text t cur _ _ out) as [o1| |] eqn:E1; cbn [bind] in H; [|discriminate..].
    destruct (emit_text t (rstart r) _ _ o1) as [o2| |] eqn:E2; cbn [bind] in H; [|discriminate..].
    eapply IH; [exact H|]. eapply emit_text_no; [exact E2|]. eapply emit_text_no; [exact E1|exact Ho].
Qed.

Lemma view_no t runs ss : inline_segments_view t runs [] = Ok ss -> Forall no_image ss.
Proof.
  unfold inline_segments_view. destruct (seg_runs t runs [] 0 []) as [[[imgs cur] out]| |] eqn:E; cbn [bind]; [|discriminate..].
  destruct (seg_runs_no _ _ _ _ _ _ _ E ltac:(constructor)) as [-> H]. cbn [seg_tail bind]. intros E2.
  eapply emit_text_no; [exact E2|exact H].
Qed.

Lemma plain_styled t runs : plain (styled t runs) = t.
Proof.
  unfold styled. generalize 0. induction t as [|c t IH]; intros o; [easy|]. cbn [styled_from plain map item_char].
  f_equal. apply IH.
Qed.

Lemma block_segments_wf d pre b t post : wf d (pre ++ (b, t) :: post) ->
  exists ss, block_segments d b = Ok ss /\ flat_map segment_text ss = t.
Proof.
  intros W. unfold block_segments. rewrite (wf_content _ _ _ _ _ W). cbn [bind]. rewrite (wf_images _ _ W).
  destruct (segments_ok t (d_runs d b)) as (ss & E & H).
  { apply (wf_runs_in _ _ W). rewrite in_app_iff. right. now left. }
  exists ss. split; [easy|]. rewrite (segs_text ss eq_refl).
  - rewrite H. apply plain_styled.
  - apply Forall_forall. exact (view_no _ _ _ E).
Qed.

Lemma text_rest_wf d ps : wf d ps -> forall post pre n, ps = pre ++ post ->
  text_rest d (map fst post) n = Ok (firstn n (jpost (segs post))).
Proof.
  intros W. induction post as [|[b t] post IH]; intros pre n E; [now rewrite firstn_nil|].
  cbn [map fst text_rest]. rewrite segs_cons. destruct (Nat.eqb_spec n 0) as [->|Hn]; [easy|].
  change (jpost ((MBlock b, t) :: segs post)) with (NL :: t ++ jpost (segs post)).
  destruct n as [|n]; [easy|]. cbn [firstn]. replace (S n =? 1) with (n =? 0) by easy.
  destruct (Nat.eqb_spec n 0) as [->|Hn']; [easy|].
  rewrite E in W. destruct (block_segments_wf _ _ _ _ _ W) as (ss & -> & Hs). cbn [bind].
  replace (S n - 1) with n by lia. rewrite take_segments_ok by lia. rewrite Hs. cbn [Nat.sub skipn].
  rewrite (IH (pre ++ [(b, t)])) by (rewrite <- app_assoc; exact E). cbn [bind]. rewrite firstn_app.
  now rewrite Nat.sub_0_r.
Qed.

Lemma text_find_at d ps : wf d ps -> forall post pre p n, ps = pre ++ post -> (Z.of_nat (cpre pre) <= p)%Z ->
  (forall pre' b t post' i, ps = (pre ++ pre') ++ (b, t) :: post' -> i <= length t -> p = Z.of_nat (cpre (pre ++ pre') + i) ->
    text_find d (map fst post) (Z.of_nat (cpre pre)) p n = Ok (b, firstn n (skipn i t ++ jpost (segs post'))))
  /\ ((p > Z.of_nat (ctotal ps))%Z -> text_find d (map fst post) (Z.of_nat (cpre pre)) p n = Err).
Proof.
  intros W. induction post as [|[c u] post IH]; intros pre p n E Hp.
  - split; [|easy]. intros pre' b t post' i E' _ _. rewrite E, app_nil_r in E'. rewrite <- app_assoc in E'.
    rewrite <- (app_nil_r pre) in E' at 1. apply app_inv_head in E'. destruct pre'; discriminate.
  - cbn [map fst text_find]. rewrite E in W. rewrite (wf_len_mid _ _ _ _ _ W). cbn [bind].
    destruct (p <=? Z.of_nat (cpre pre) + Z.of_nat (length u))%Z eqn:C.
    + rewrite (proj2 (Z.leb_le _ _) Hp). cbn [andb]. split.
      * intros pre' b t post' i E' Hi Hpi.
        assert (pre' = []).
        { destruct pre' as [|[c' u'] pre']; [easy|]. rewrite E, <- app_assoc in E'. apply app_inv_head in E'.
          cbn in E'. injection E' as <- <- _. rewrite cpre_app, cpre_cons in Hpi. lia. }
        subst pre'. rewrite app_nil_r in *. rewrite E in E'. apply app_inv_head in E'. injection E' as <- <- <-.
        destruct (Nat.eqb_spec n 0) as [->|Hn]; [easy|].
        destruct (block_segments_wf _ _ _ _ _ W) as (ss & -> & Hs). cbn [bind].
        rewrite take_segments_ok by lia. rewrite Hs, Nat.sub_0_r.
        replace (Z.to_nat (p - Z.of_nat (cpre pre))) with i by lia.
        rewrite (text_rest_wf _ _ W post (pre ++ [(c, u)])) by (now rewrite <- app_assoc). cbn [bind].
        now rewrite firstn_app, skipn_length.
      * intros Hgt. rewrite E in Hgt. rewrite ctotal_mid in Hgt. lia.
    + rewrite andb_false_r.
      destruct (IH (pre ++ [(c, u)]) p n) as [A B].
      * rewrite <- app_assoc. exact E.
      * rewrite cpre_app, cpre_one. lia.
      * replace (Z.of_nat (cpre (pre ++ [(c, u)]))) with (Z.of_nat (cpre pre) + Z.of_nat (length u) + 1)%Z in A, B
          by (rewrite cpre_app, cpre_one; lia).
        split; [|exact B]. intros pre' b t post' i E' Hi Hpi.
        destruct pre' as [|[c' u'] pre'].
        -- exfalso. rewrite app_nil_r in *. rewrite E in E'. apply app_inv_head in E'. injection E' as <- <- <-. lia.
        -- assert (E2 := E'). rewrite E, <- app_assoc in E2. apply app_inv_head in E2. cbn in E2. injection E2 as <- <- _.
           assert (Q : (pre ++ [(c, u)]) ++ pre' = pre ++ (c, u) :: pre') by (now rewrite <- app_assoc).
           apply (A pre' b t post' i); [|exact Hi|]; rewrite Q; [exact E'|exact Hpi].
Qed.

Lemma text_at_wf d ps p len : wf d ps -> (0 <= len)%Z ->
  (forall pre b t post i, ps = pre ++ (b, t) :: post -> i <= length t -> p = Z.of_nat (cpre pre + i) ->
     text_at_position d p len = Ok (b, firstn (Z.to_nat len) (skipn (Z.to_nat p) (join (map snd ps)))))
  /\ ((p < 0 \/ p > Z.of_nat (ctotal ps))%Z -> text_at_position d p len = Err).
Proof.
  intros W Hl. unfold text_at_position. destruct (len <? 0)%Z eqn:E; [lia|].
  rewrite (wf_multi _ _ W). split.
  - intros pre b t post i Eps Hi Hp.
    destruct (text_find_at d ps W ps [] p (Z.to_nat len) eq_refl) as [A _]; [cbn; lia|].
    rewrite cpre_nil in A. cbn [Z.of_nat] in A. rewrite (A pre b t post i); [|easy..|].
    + do 2 f_equal. rewrite Eps. rewrite <- segs_snd, segs_mid, join_mid. subst p. rewrite Nat2Z.id.
      unfold cpre. rewrite skipn_app, (skipn_all2 (jpre (segs pre))) by lia. cbn [app]. rewrite skipn_app.
      replace (length (jpre (segs pre)) + i - length (jpre (segs pre))) with i by lia.
      replace (i - length t) with 0 by lia. easy.
    + exact Hp.
  - intros [H|H].
    + clear - H W. revert p H. enough (Q : forall l running p, (0 <= running)%Z -> (p < running)%Z ->
        incl l (map fst ps) -> text_find d l running p (Z.to_nat len) = Err).
      { intros p H. apply Q; [easy|easy|apply incl_refl]. }
      induction l as [|i l IH]; intros running p Hr Hp Hin; [easy|]. cbn [text_find].
      assert (In i (map fst ps)) as Hi by (apply Hin; now left). apply in_map_iff in Hi. destruct Hi as ([i' t] & Ei & Hi).
      cbn in Ei; subst i'. rewrite (wf_length_in _ _ _ _ W Hi). cbn [bind].
      destruct (running <=? p)%Z eqn:C; [lia|]. cbn [andb]. apply IH; [lia|lia|]. intros x Hx. apply Hin. now right.
    + destruct (text_find_at d ps W ps [] p (Z.to_nat len) eq_refl) as [_ B]; [cbn; lia|]. apply B. exact H.
Qed.

(** ** Block handles *)

Lemma refreshed_wf d pre b t post x : wf d (pre ++ (b, t) :: post) -> b_id x = b ->
  refreshed d x = Ok (set_b_pos x (Z.of_nat (cpre pre))).
Proof.
  intros W Hx. unfold refreshed. rewrite (flow_matches _ _ W), Hx.
  pose proof (wf_rep _ _ W) as R. rewrite segs_mid in R. rewrite (rep_range _ _ _ _ _ R). cbn [bind].
  rewrite (rep_b2c_start _ _ _ _ _ R). reflexivity.
Qed.

(** The refreshed position of a block. *)
Fixpoint start_in (ps : list para) (i : id) (n : nat) : nat :=
  match ps with
  | [] => 0
  | (b, t) :: rest => if N.eqb b i then n else start_in rest i (n + length t + 1)
  end.
Lemma start_in_mid (pre post : list para) b t n : ~ In b (map fst pre) -> start_in (pre ++ (b, t) :: post) b n = n + cpre pre.
Proof.
  revert n; induction pre as [|[c u] pre IH]; intros n H; cbn [app start_in].
  - rewrite N.eqb_refl, cpre_nil. lia.
  - destruct (N.eqb_spec c b) as [->|Hc]; [destruct H; now left|]. rewrite IH by (intros Hb; apply H; now right).
    rewrite cpre_cons. lia.
Qed.

Lemma refreshed_all_wf d ps : wf d ps -> forall bs, (forall b, In b bs -> In (b_id b) (map fst ps)) ->
  refreshed_all d bs = Ok (map (fun b => set_b_pos b (Z.of_nat (start_in ps (b_id b) 0))) bs).
Proof.
  intros W. induction bs as [|b bs IH]; intros H; [easy|]. cbn [refreshed_all map].
  pose proof (H b (or_introl eq_refl)) as Hb. apply in_map_iff in Hb. destruct Hb as ([i t] & Ei & Hb). cbn in Ei. subst i.
  apply in_split in Hb. destruct Hb as (pre & post & ->).
  rewrite (refreshed_wf _ _ _ _ _ b W eq_refl). cbn [bind]. rewrite IH by (intros; apply H; now right). cbn [bind].
  rewrite start_in_mid; [easy|]. apply wf_nodup, nodup_mid in W. tauto.
Qed.

Fixpoint strictly (l : list block) : Prop :=
  match l with
  | [] => True
  | b :: rest => Forall (fun c => (b_pos b < b_pos c)%Z) rest /\ strictly rest
  end.
Fixpoint weakly (l : list block) : Prop :=
  match l with
  | [] => True
  | b :: rest => Forall (fun c => (b_pos b <= b_pos c)%Z) rest /\ weakly rest
  end.

Lemma insert_sorted_weakly b l : weakly l -> weakly (insert_sorted b l).
Proof.
  induction l as [|c l IH]; intros H; cbn [insert_sorted].
  - repeat constructor.
  - destruct H as [H1 H2]. destruct (b_pos b <=? b_pos c)%Z eqn:E.
    + cbn [weakly]. split; [|easy]. constructor; [lia|]. eapply Forall_impl; [|exact H1]. cbn. lia.
    + cbn [weakly]. split; [|now apply IH]. eapply Permutation_Forall; [symmetry; apply insert_sorted_perm|].
      constructor; [lia|easy].
Qed.

Lemma sort_weakly l : weakly (sort_blocks l).
Proof.
  unfold sort_blocks. induction l as [|b l IH]; cbn; [easy|]. now apply insert_sorted_weakly.
Qed.

Lemma weak_strict l : strictly l -> forall m, weakly m -> Permutation m l -> m = l.
Proof.
  induction l as [|a l IH]; intros S m H P; [now apply Permutation_sym, Permutation_nil in P|].
  destruct m as [|x m]; [now apply Permutation_nil in P|].
  destruct S as [S1 S2]. destruct H as [H1 H2]. rewrite Forall_forall in S1, H1.
  assert (x = a) as ->.
  { assert (Hx : In x (a :: l)) by (eapply Permutation_in; [exact P|now left]). destruct Hx as [<-|Hx]; [easy|].
    assert (Ha : In a (x :: m)) by (eapply Permutation_in; [symmetry; exact P|now left]). destruct Ha as [->|Ha]; [easy|].
    pose proof (S1 _ Hx). pose proof (H1 _ Ha). lia. }
  f_equal. apply IH; auto. eapply Permutation_cons_inv, P.
Qed.

(** The blocks of [ps], in display order, at their real positions. *)
Lemma blocks_sorted_wf d ps : wf d ps -> exists bs, blocks_sorted d = Ok bs /\ map b_id bs = map fst ps.
Proof.
  intros W. unfold blocks_sorted. rewrite (refreshed_all_wf _ _ W).
  2:{ intros b Hb. eapply Permutation_in; [apply (wf_ids _ _ W)|]. now apply in_map. }
  cbn [bind]. set (f := fun b : block => set_b_pos b (Z.of_nat (start_in ps (b_id b) 0))).
  eexists. split; [reflexivity|].
  set (g := map f (get_multi d (map fst ps))).
  assert (M : map b_id (get_multi d (map fst ps)) = map fst ps).
  { apply get_multi_ids. intros i Hi. eapply wf_has; eauto. }
  assert (ND : NoDup (map fst ps)) by (eapply wf_nodup, W).
  assert (Sg : strictly g).
  { unfold g. assert (Q : forall post (pre : list para) l, ps = pre ++ post -> map b_id l = map fst post -> strictly (map f l)).
    { induction post as [|[b t] post IH]; intros pre l E El; destruct l as [|x l]; try discriminate; [exact I|].
      cbn [map fst] in El. injection El as Ex El. cbn [map strictly]. split.
      - rewrite Forall_forall. intros y Hy. apply in_map_iff in Hy. destruct Hy as (z & <- & Hz).
        unfold f. cbn [set_b_pos b_pos b_id].
        assert (Hz' : In (b_id z) (map fst post)) by (rewrite <- El; now apply in_map).
        apply in_map_iff in Hz'. destruct Hz' as ([c u] & Ec & Hz'). cbn in Ec. apply in_split in Hz'.
        destruct Hz' as (p1 & p2 & ->). rewrite Ex, <- Ec.
        assert (N1 : ~ In b (map fst pre)). { rewrite E in ND. apply nodup_mid in ND. tauto. }
        assert (E2 : ps = (pre ++ (b, t) :: p1) ++ (c, u) :: p2) by (now rewrite <- app_assoc).
        assert (N2 : ~ In c (map fst (pre ++ (b, t) :: p1))). { rewrite E2 in ND. apply nodup_mid in ND. tauto. }
        rewrite E at 1. rewrite E2. rewrite !start_in_mid by easy. rewrite cpre_app, cpre_cons. lia.
      - apply (IH (pre ++ [(b, t)])); [now rewrite <- app_assoc|easy]. }
    apply (Q ps []); easy. }
  assert (P : Permutation (map f (d_blocks d)) g).
  { apply Permutation_map. apply NoDup_Permutation_bis.
    - apply (NoDup_map_inv b_id). eapply Permutation_NoDup; [symmetry; apply (wf_ids _ _ W)|exact ND].
    - rewrite <- (map_length b_id), M. rewrite map_length. rewrite (wf_nblocks _ _ W). lia.
    - intros b Hb.
      assert (Hi : In (b_id b) (map b_id (get_multi d (map fst ps)))).
      { rewrite M. eapply Permutation_in; [apply (wf_ids _ _ W)|]. now apply in_map. }
      apply in_map_iff in Hi. destruct Hi as (x & Ex & Hx). destruct (get_multi_in _ _ _ Hx) as [Hx' _].
      assert (x = b); [|now subst].
      assert (N : NoDup (map b_id (d_blocks d))) by (eapply Permutation_NoDup; [symmetry; apply (wf_ids _ _ W)|exact ND]).
      clear - N Ex Hx' Hb. induction (d_blocks d) as [|y l IH]; [easy|]. inversion N as [|? ? N1 N2]; subst.
      destruct Hb as [->|Hb], Hx' as [->|Hx]; auto.
      + destruct N1. rewrite <- Ex. now apply in_map.
      + destruct N1. rewrite Ex. now apply in_map. }
  rewrite (weak_strict g Sg (sort_blocks (map f (d_blocks d)))).
  - unfold g. rewrite map_map. rewrite <- M at 2. apply map_ext. easy.
  - apply sort_weakly.
  - transitivity (map f (d_blocks d)); [apply sort_perm|exact P].
Qed.

Lemma block_queries_wf d pre b t post : wf d (pre ++ (b, t) :: post) ->
  block_position d b = Ok (cpre pre) /\ block_text d b = Ok t /\ block_number d b = Ok (length pre)
  /\ block_next d b = Ok (match post with (c, _) :: _ => Some c | [] => None end)
  /\ block_previous d b = Ok (match rev pre with (c, _) :: _ => Some c | [] => None end).
Proof.
  intros W. destruct (wf_get_mid _ _ _ _ _ W) as [x Ex]. pose proof (find_block_some _ _ _ Ex) as [Hx _].
  split; [|split].
  - unfold block_position. rewrite Ex, (refreshed_wf _ _ _ _ _ x W Hx). cbn [bind set_b_pos b_pos].
    apply to_usize_nat.
  - unfold block_text. rewrite Ex. eapply wf_content, W.
  - destruct (blocks_sorted_wf _ _ W) as (bs & Eb & M). unfold block_number, block_next, block_previous. rewrite Eb. cbn [bind].
    assert (N1 : ~ In b (map fst pre)). { apply wf_nodup, nodup_mid in W. tauto. }
    assert (I : index_of_block b bs = Some (length pre)).
    { rewrite index_of_ids, M, map_app. cbn [map fst]. rewrite pos_of_id_mid by easy. now rewrite map_length. }
    rewrite I. split; [easy|]. split; cbv beta iota.
    + f_equal. rewrite <- nth_error_map, M. rewrite map_app, nth_error_app2 by (rewrite map_length; lia).
      rewrite map_length. replace (S (length pre) - length pre) with 1 by lia. cbn. destruct post as [|[c u] post]; easy.
    + destruct pre as [|pre1 pre _] using rev_ind; [easy|]. rewrite rev_app_distr. cbn [rev app].
      rewrite app_length, Nat.add_1_r. f_equal. rewrite <- nth_error_map, M, <- app_assoc, map_app.
      rewrite nth_error_app2 by (rewrite map_length; lia). rewrite map_length, Nat.sub_diag. cbn. now destruct pre1.
Qed.
