(** [delete_text] on a well-formed document. *)
From Verif Require Import Base BaseFacts FormatRunsModel FormatRunsSpec FormatRunsFacts
  RopeModel RopeSpec RopeFacts DocModel DocSpec BlockFacts DocInv DocFacts DocAttr.
From Coq Require Import Permutation.

(** Characters, without separators. *)
Definition csum (ps : list para) : nat := fold_right (fun p n => length (snd p) + n) 0 ps.
Lemma csum_app a b : csum (a ++ b) = csum a + csum b.
Proof. induction a as [|p a IH]; cbn [app csum fold_right]; [easy|]. unfold csum in IH. rewrite IH. unfold csum. lia. Qed.
Lemma csum_cons b t l : csum ((b, t) :: l) = length t + csum l.
Proof. reflexivity. Qed.
Lemma cpre_csum l : cpre l = csum l + length l.
Proof.
  induction l as [|[b t] l IH]; [easy|]. rewrite cpre_cons, csum_cons. cbn [length]. lia.
Qed.

Lemma skipn_skipn {A} n m (l : list A) : skipn n (skipn m l) = skipn (m + n) l.
Proof. revert l; induction m as [|m IH]; intros [|x l]; cbn; auto. apply skipn_nil. Qed.

Definition mid_text (t : str) (i j : nat) : str := firstn (j - i) (skipn i t).
Lemma cut3 (t : str) i j : i <= j -> t = firstn i t ++ mid_text t i j ++ skipn j t.
Proof.
  intros H. unfold mid_text. rewrite <- (firstn_skipn i t) at 1. f_equal.
  rewrite <- (firstn_skipn (j - i) (skipn i t)) at 1. f_equal.
  rewrite skipn_skipn. f_equal. lia.
Qed.
Lemma boff_mid (t : str) i j : i <= j -> j <= length t -> boff t j = boff t i + blen (mid_text t i j).
Proof.
  intros H Hj. rewrite !boff_split, <- blen_app. f_equal.
  unfold mid_text. rewrite <- (firstn_skipn i t) at 1.
  rewrite firstn_app, firstn_length.
  rewrite firstn_all2 by (rewrite firstn_length; lia). f_equal. f_equal. lia.
Qed.
Lemma slice_mid (t : str) i j : i <= j -> j <= length t -> byte_slice t (boff t i) (boff t j) = Ok (mid_text t i j).
Proof.
  intros H Hj. rewrite (boff_mid t i j) by easy.
  rewrite (cut3 t i j) at 1 by easy. apply byte_slice_app.
Qed.

Lemma plain_slice_same R pre b t post i j :
  i <= j -> j <= length t ->
  plain (firstn (cpre pre + j - (cpre pre + i)) (skipn (cpre pre + i) (items_of R (pre ++ (b, t) :: post))))
  = mid_text t i j.
Proof.
  intros H Hj. rewrite skipn_items by lia. unfold plain. rewrite <- firstn_map, map_app.
  fold (plain (styled_from (boff t i) (skipn i t) (R b))). rewrite plain_styled.
  rewrite firstn_app. rewrite skipn_length.
  replace (cpre pre + j - (cpre pre + i)) with (j - i) by lia.
  replace (j - i - (length t - i)) with 0 by lia. cbn [firstn]. now rewrite app_nil_r.
Qed.

Lemma remove_absent st l i : rep st l -> ~ In (MBlock i) (map fst l) -> rope_remove_block st i = Ok st.
Proof. intros R H. unfold rope_remove_block. now rewrite (rep_range_none _ _ _ R H). Qed.

Lemma wf_in_mid d pre b t post : wf d (pre ++ (b, t) :: post) -> In b (map fst (pre ++ (b, t) :: post)).
Proof. intros _. rewrite map_app, in_app_iff. right. now left. Qed.

Record deleted (d d' : doc) (ps ps' : list para) (s e : nat) (cut : str) : Prop := {
  del_wf : wf d' ps';
  del_items : items_of (d_runs d') ps' = spec_delete s e (items_of (d_runs d) ps);
  del_cut : cut = plain (firstn (e - s) (skipn s (items_of (d_runs d) ps)));
  del_attrs : para_attrs d' = firstn (S (breaks s (items_of (d_runs d) ps))) (para_attrs d)
                              ++ skipn (S (breaks e (items_of (d_runs d) ps))) (para_attrs d);
  del_nblocks : (d_nblocks d' - Z.of_nat (length ps') = d_nblocks d - Z.of_nat (length ps))%Z;
  del_next : d_next d' = d_next d;
  del_pos : forall pre q t post, ps = pre ++ (q, t) :: post -> In q (map fst ps') -> pos_of d' q = Some (Z.of_nat (cpre pre));
  del_shape : exists pre b t t' gone post, ps = pre ++ (b, t) :: gone ++ post /\ ps' = pre ++ (b, t') :: post
              /\ breaks e (items_of (d_runs d) ps) = length pre + length gone
}.

Lemma delete_same d pre b t post i j p a :
  wf d (pre ++ (b, t) :: post) -> (p <> a)%Z -> i <= j -> j <= length t ->
  clipz (ctotal (pre ++ (b, t) :: post)) (Z.min p a) = cpre pre + i ->
  clipz (ctotal (pre ++ (b, t) :: post)) (Z.max p a) = cpre pre + j ->
  exists d', delete_text d p a = Ok (d', Z.min p a, mid_text t i j)
    /\ deleted d d' (pre ++ (b, t) :: post) (pre ++ (b, firstn i t ++ skipn j t) :: post)
               (cpre pre + i) (cpre pre + j) (mid_text t i j)
    /\ d_chars d' = (d_chars d - (Z.max p a - Z.min p a))%Z.
Proof.
  intros W Hpa Hij Hj Hs He.
  destruct (refresh_full _ _ W) as (bs & todo & E & Hsort & Hids & Hpos & M & A & C1 & C2 & HA & HP).
  unfold delete_text. destruct (p =? a)%Z eqn:Epa; [lia|]. rewrite E. cbn [bind].
  set (d1 := update_multi d todo) in *. rewrite Hsort.
  pose proof (wf_meta _ _ _ W M) as W1. pose proof (wf_nodup _ _ W) as ND.
  assert (Hin : In b (map b_id bs)) by (rewrite Hids; eapply wf_in_mid, W).
  destruct (find_in_list _ _ _ _ _ _ _ bs W1 (Nat.le_trans _ _ _ Hij Hj) Hs Hin) as (k & x & K1 & K2 & K3 & ->).
  destruct (find_in_list _ _ _ _ _ _ _ bs W1 Hj He Hin) as (k' & x' & K1' & K2' & K3' & ->).
  rewrite K1 in K1'. injection K1' as <-. rewrite K2 in K2'. injection K2' as <-. clear K3'.
  cbn [bind b_id set_b_pos]. rewrite Nat.eqb_refl, K3.
  rewrite (wf_content _ _ _ _ _ W1). cbn [bind].
  rewrite (wf_images _ _ W1), !lob_nil, !Nat2Z.id, (slice_mid t i j) by easy. cbn [bind].
  cbn [d_rs set_runs set_images].
  pose proof (wf_rep _ _ W1) as R1. rewrite segs_mid in R1. rewrite (cut3 t i j) in R1 by easy.
  destruct (rep_delete_in_block _ _ _ _ _ _ _ R1) as (st' & E2 & R2).
  rewrite (boff_mid t i j) by easy. rewrite boff_split, E2. cbn [bind].
  assert (Wt : wf_runs t (d_runs d1 b)).
  { apply (wf_runs_in _ _ W1). rewrite in_app_iff. right. now left. }
  assert (Wr : wf_runs (firstn i t ++ mid_text t i j ++ skipn j t) (d_runs d1 b)) by (now rewrite <- cut3).
  set (R' := shift_runs_for_delete _ _ _).
  set (d3 := set_rs _ _).
  assert (HW3 : wf d3 (pre ++ (b, firstn i t ++ skipn j t) :: post) /\
     items_of (d_runs d3) (pre ++ (b, firstn i t ++ skipn j t) :: post)
     = ipre (d_runs d1) pre ++ styled (firstn i t ++ skipn j t) R' ++ ipost (d_runs d1) post).
  { eapply wf_edit; try reflexivity.
    - exact W1.
    - cbn. rewrite segs_mid. exact R2.
    - unfold R'. apply delete_runs_wf, Wr.
    - intros c. cbn. unfold upd. rewrite (wf_images _ _ W1), shift_images_delete_nil.
      destruct (N.eqb c b); [easy|apply (wf_images _ _ W1)]. }
  destruct HW3 as [W3 I3].
  assert (M4 : meta d3 (update_block d3 (set_b_pos x (Z.of_nat (cpre pre))))).
  { apply meta_update. cbn [b_id set_b_pos]. rewrite K3. eapply wf_has; [exact W3|].
    rewrite map_app, in_app_iff. right. now left. }
  pose proof (wf_meta _ _ _ W3 M4) as W4.
  rewrite (flow_matches _ _ W4). cbn [negb].
  assert (A4 : same_attr d (update_block d3 (set_b_pos x (Z.of_nat (cpre pre))))).
  { eapply same_attr_trans; [exact A|]. apply (same_attr_trans _ d3).
    - apply same_attr_blocks. reflexivity.
    - apply attr_update. cbn [b_id set_b_pos b_list b_fmt].
      transitivity (attr d1 (b_id x)); [now apply same_attr_blocks|]. rewrite (A (b_id x)).
      apply HA. now apply nth_error_In in K2. }
  eexists. split; [reflexivity|]. split; [|reflexivity].
  constructor.
  - eapply wf_meta; [exact W4|apply meta_chars].
  - transitivity (items_of (d_runs d3) (pre ++ (b, firstn i t ++ skipn j t) :: post)); [easy|].
    rewrite I3. unfold R'. rewrite (delete_runs_styled _ _ _ _ Wr).
    unfold spec_delete. rewrite <- (meta_items _ _ (pre ++ (b, t) :: post) M).
    rewrite (firstn_items (d_runs d1) pre b t post i) by lia.
    rewrite (skipn_items (d_runs d1) pre b t post j) by lia.
    rewrite <- !app_assoc. rewrite (boff_mid t i j), boff_split by easy. reflexivity.
  - symmetry. now apply plain_slice_same.
  - rewrite !breaks_items by lia.
    rewrite firstn_skipn. apply para_attrs_same; [exact A4|].
    cbn. apply (meta_order _ _ M).
  - change (d_nblocks d1 - Z.of_nat (length (pre ++ (b, firstn i t ++ skipn j t) :: post))
      = d_nblocks d - Z.of_nat (length (pre ++ (b, t) :: post)))%Z.
    rewrite C2, !app_length. reflexivity.
  - apply (meta_next _ _ M).
  - intros pre0 q t0 post0 E0 _. rewrite <- (HP _ _ _ _ E0).
    change (pos_of (update_block d1 (set_b_pos x (Z.of_nat (cpre pre)))) q = pos_of d1 q).
    rewrite pos_update. 2:{ cbn [b_id set_b_pos]. rewrite K3. eapply wf_has; [exact W1|eapply wf_in_mid, W1]. }
    cbn [b_id set_b_pos b_pos]. rewrite K3. destruct (N.eqb_spec b q) as [<-|]; [|easy].
    symmetry. now apply (HP _ _ t post).
  - exists pre, b, t, (firstn i t ++ skipn j t), [], post. split; [easy|]. split; [easy|]. rewrite breaks_items by lia. cbn; lia.
Qed.

Lemma contents_paras rs bs (l : list para) :
  map b_id bs = map fst l -> (forall b t, In (b, t) l -> block_content rs b = Ok t) ->
  contents rs bs = Ok (map snd l).
Proof.
  revert l; induction bs as [|b bs IH]; intros [|[c u] l]; cbn [map fst snd contents]; try easy.
  intros [= -> H] Hc. rewrite (Hc c u) by (now left). cbn [bind].
  rewrite (IH l) by (auto; intros; apply Hc; now right). easy.
Qed.

Lemma sum_lengths_csum l : sum_lengths (map snd l) = Z.of_nat (csum l).
Proof.
  unfold sum_lengths. induction l as [|[b t] l IH]; [easy|]. rewrite csum_cons. cbn [map fold_right snd].
  rewrite IH. lia.
Qed.

Lemma plain_slice_cross R pre b t mid c u post i j :
  i <= length t -> j <= length u ->
  plain (firstn (cpre (pre ++ (b, t) :: mid) + j - (cpre pre + i))
           (skipn (cpre pre + i) (items_of R (pre ++ (b, t) :: mid ++ (c, u) :: post))))
  = skipn i t ++ flat_map (fun x => NL :: x) (map snd mid) ++ NL :: firstn j u.
Proof.
  intros Hi Hj. rewrite skipn_items by lia. rewrite cpre_app, cpre_cons.
  replace (cpre pre + (length t + 1 + cpre mid) + j - (cpre pre + i))
    with ((length t - i) + (cpre mid + 1 + j)) by lia.
  unfold plain. rewrite <- firstn_map, map_app.
  fold (plain (styled_from (boff t i) (skipn i t) (R b))). rewrite plain_styled.
  rewrite <- (skipn_length i t) at 1. rewrite firstn_app_2. f_equal.
  rewrite ipost_app, ipost_cons, map_app.
  assert (Em : map item_char (ipost R mid) = flat_map (fun x => NL :: x) (map snd mid)).
  { clear. induction mid as [|[b t] mid IH]; [easy|]. rewrite ipost_cons. cbn [map item_char flat_map snd].
    rewrite map_app. fold (plain (styled t (R b))). unfold styled. rewrite plain_styled. now rewrite IH. }
  assert (El : length (flat_map (fun x => NL :: x) (map snd mid)) = cpre mid).
  { clear. induction mid as [|[b t] mid IH]; [easy|]. rewrite cpre_cons. cbn [map flat_map snd app length].
    rewrite app_length, IH. lia. }
  rewrite Em. rewrite <- El at 1. rewrite <- Nat.add_assoc, firstn_app_2. f_equal.
  cbn [map item_char]. rewrite map_app. fold (plain (styled u (R c))). unfold styled. rewrite plain_styled.
  cbn [plus firstn]. f_equal. rewrite firstn_app. replace (j - length u) with 0 by lia.
  now rewrite firstn_O, app_nil_r.
Qed.

Lemma delete_cross d pre b t mid c u post i j p a :
  let ps := pre ++ (b, t) :: mid ++ (c, u) :: post in
  wf d ps -> (p <> a)%Z -> i <= length t -> j <= length u ->
  clipz (ctotal ps) (Z.min p a) = cpre pre + i ->
  clipz (ctotal ps) (Z.max p a) = cpre (pre ++ (b, t) :: mid) + j ->
  exists d' cut, delete_text d p a = Ok (d', Z.min p a, cut)
    /\ deleted d d' ps (pre ++ (b, firstn i t ++ skipn j u) :: post)
               (cpre pre + i) (cpre (pre ++ (b, t) :: mid) + j) cut
    /\ (d_chars d' - Z.of_nat (csum (pre ++ (b, firstn i t ++ skipn j u) :: post))
        = d_chars d - Z.of_nat (csum ps))%Z.
Proof.
  intros ps W Hpa Hi Hj Hs He.
  assert (Eps2 : ps = (pre ++ (b, t) :: mid) ++ (c, u) :: post) by (unfold ps; now rewrite <- app_assoc).
  destruct (refresh_full _ _ W) as (bs & todo & E & Hsort & Hids & Hpos & M & A & C1 & C2 & HA & HP).
  unfold delete_text. destruct (p =? a)%Z eqn:Epa; [lia|]. rewrite E. cbn [bind].
  set (d1 := update_multi d todo) in *. rewrite Hsort.
  pose proof (wf_meta _ _ _ W M) as W1. pose proof (wf_nodup _ _ W) as ND.
  assert (W1' : wf d1 ((pre ++ (b, t) :: mid) ++ (c, u) :: post)) by (now rewrite <- Eps2).
  assert (Hin : In b (map b_id bs)) by (rewrite Hids; eapply wf_in_mid, W).
  assert (Hin' : In c (map b_id bs)) by (rewrite Hids, Eps2; eapply wf_in_mid, W1').
  destruct (find_in_list _ _ _ _ _ _ _ bs W1 Hi Hs Hin) as (k & x & K1 & K2 & K3 & ->).
  rewrite Eps2 in He.
  destruct (find_in_list _ _ _ _ _ _ _ bs W1' Hj He Hin') as (k' & x' & K1' & K2' & K3' & ->).
  cbn [bind b_id set_b_pos]. rewrite K3, K3'.
  assert (Ek : k = length pre).
  { rewrite (index_of_paras _ _ _ _ _ Hids ND) in K1. congruence. }
  assert (Ek' : k' = length pre + S (length mid)).
  { rewrite Eps2 in Hids, ND. rewrite (index_of_paras _ _ _ _ _ Hids ND) in K1'.
    rewrite app_length in K1'. cbn [length] in K1'. congruence. }
  destruct (k =? k') eqn:Ekk; [lia|].
  rewrite (wf_content _ _ _ _ _ W1), (wf_content _ _ _ _ _ W1'). cbn [bind].
  (* the middle blocks *)
  assert (Hskip : map b_id (skipn (S k) bs) = map fst (mid ++ (c, u) :: post)).
  { rewrite <- skipn_map, Hids. unfold ps. rewrite map_app. cbn [map fst].
    rewrite Ek, skipn_app, map_length. rewrite skipn_all2 by (rewrite map_length; lia).
    replace (S (length pre) - length pre) with 1 by lia. reflexivity. }
  assert (Hmid : map b_id (firstn (k' - S k) (skipn (S k) bs)) = map fst mid).
  { rewrite <- firstn_map, Hskip, map_app. replace (k' - S k) with (length (map fst mid)) by (rewrite map_length; lia).
    now apply firstn_exact. }
  assert (Hgone : map b_id (firstn (S k' - S k) (skipn (S k) bs)) = map fst (mid ++ [(c, u)])).
  { rewrite <- firstn_map, Hskip.
    replace (mid ++ (c, u) :: post) with ((mid ++ [(c, u)]) ++ post) by (now rewrite <- app_assoc).
    rewrite (map_app _ (mid ++ [(c, u)]) post).
    replace (S k' - S k) with (length (map fst (mid ++ [(c, u)])))
      by (rewrite map_length, app_length; cbn [length]; lia).
    now apply firstn_exact. }
  rewrite (contents_paras _ _ mid Hmid).
  2:{ intros b0 t0 Hin0. eapply wf_content_in; [exact W1|]. unfold ps. rewrite in_app_iff. right. right.
      rewrite in_app_iff. now left. }
  cbn [bind]. rewrite !(wf_images _ _ W1), !lob_nil, !Nat2Z.id.
  rewrite slice_boff_end, slice_0_boff. cbn [bind].
  cbn [d_rs update_block set_blocks set_runs set_images].
  pose proof (wf_rep _ _ W1) as R1. unfold ps in R1. rewrite segs_mid, segs_mid in R1.
  rewrite <- (firstn_skipn i t) in R1. rewrite <- (firstn_skipn j u) in R1.
  destruct (rep_merge_range _ _ _ _ _ _ _ _ _ _ R1) as (st' & E2 & R2).
  rewrite !boff_split, E2. cbn [bind]. rewrite Hgone.
  set (runs := merge_runs _ _ _ _). set (d3 := set_rs _ _).
  assert (NDm : NoDup (map fst pre ++ b :: map fst (mid ++ [(c, u)]) ++ map fst post)).
  { rewrite map_app. cbn [map fst]. rewrite <- app_assoc. cbn [app]. unfold ps in ND.
    rewrite map_app in ND. cbn [map fst] in ND. rewrite map_app in ND. exact ND. }
  assert (NDg : NoDup ((map fst pre ++ [b]) ++ map fst (mid ++ [(c, u)]) ++ map fst post))
    by (rewrite <- app_assoc; exact NDm).
  assert (Hout : forall g, In g (map fst (mid ++ [(c, u)])) -> ~ In g (map fst (pre ++ (b, firstn i t ++ skipn j u) :: post))).
  { intros g Hg. rewrite map_app, in_app_iff. cbn [map fst In]. intros [H|[H|H]].
    - eapply nodup_app_disj; [exact NDg|rewrite in_app_iff; left; exact H|rewrite in_app_iff; now left].
    - eapply nodup_app_disj; [exact NDg|rewrite in_app_iff; right; left; exact H|rewrite in_app_iff; now left].
    - apply nodup_app_r in NDg. eapply nodup_app_disj; [exact NDg|exact Hg|exact H]. }
  destruct (remove_merged_ok (map fst (mid ++ [(c, u)])) d3) as (d4 & E4 & H1 & H2 & H3 & H4 & H5 & H6 & H7 & H8 & H9).
  { intros g Hg. cbn. eapply remove_absent; [exact R2|].
    rewrite <- segs_mid, in_segs_fst. now apply Hout. }
  rewrite E4. cbn [bind].
  fold (among (map fst (mid ++ [(c, u)]))).
  change (filter (fun i0 => negb (existsb (N.eqb i0) (map fst (mid ++ [(c, u)])))) (d_order d4))
    with (keep (map fst (mid ++ [(c, u)])) (d_order d4)).
  rewrite H6.
  set (gone := map fst (mid ++ [(c, u)])) in *.
  set (d5 := set_order d4 _).
  assert (Wt : wf_runs t (d_runs d1 b)).
  { apply (wf_runs_in _ _ W1). unfold ps. rewrite in_app_iff. right. now left. }
  assert (Wu : wf_runs u (d_runs d1 c)).
  { apply (wf_runs_in _ _ W1'). rewrite in_app_iff. right. now left. }
  rewrite <- (firstn_skipn i t) in Wt. rewrite <- (firstn_skipn j u) in Wu.
  assert (Wm : wf_runs (firstn i t ++ skipn j u) runs) by (eapply merge_runs_wf; eassumption).
  assert (Hkeep : keep gone (map fst ps) = map fst (pre ++ (b, firstn i t ++ skipn j u) :: post)).
  { transitivity (keep gone ((map fst pre ++ [b]) ++ gone ++ map fst post)).
    - f_equal. unfold ps, gone. rewrite !map_app. cbn [map fst]. rewrite map_app, <- !app_assoc. reflexivity.
    - rewrite keep_mid by exact NDg. rewrite map_app, <- app_assoc. reflexivity. }
  assert (Hruns5 : forall q, d_runs d5 q = if among gone q then [] else upd (d_runs d1) b runs q).
  { intros q. cbn. rewrite H3. cbn. reflexivity. }
  assert (Hids5 : map b_id (d_blocks d5) = keep gone (map b_id (d_blocks d1))).
  { cbn. rewrite H2, blocks_keep. f_equal. cbn. apply put_ids. cbn [b_id set_b_pos].
    rewrite K3. eapply wf_has; [exact W1|eapply wf_in_mid, W1]. }
  assert (W5 : wf d5 (pre ++ (b, firstn i t ++ skipn j u) :: post)).
  { constructor.
    - now destruct pre.
    - cbn. rewrite H1. cbn. rewrite segs_mid. exact R2.
    - cbn. rewrite <- Hkeep. f_equal. rewrite <- (wf_order _ _ W1). reflexivity.
    - cbn. rewrite H5, <- Hkeep. apply keep_perm. apply (wf_fblocks _ _ W1).
    - rewrite Hids5, <- Hkeep. apply keep_perm. apply (wf_ids _ _ W1).
    - intros b0 t0 Hin0. rewrite Hruns5.
      assert (Eg : among gone b0 = false).
      { apply among_false. intros Hg. apply (Hout _ Hg). now apply (in_map fst) in Hin0. }
      rewrite Eg. unfold upd.
      unfold ps in ND. apply nodup_mid in ND. destruct ND as [N1 N2].
      apply in_app_iff in Hin0. destruct Hin0 as [Hin0|[[= <- <-]|Hin0]].
      + destruct (N.eqb_spec b0 b) as [->|]; [now apply (in_map fst) in Hin0|].
        apply (wf_runs_in _ _ W1). unfold ps. rewrite in_app_iff. now left.
      + now rewrite N.eqb_refl.
      + destruct (N.eqb_spec b0 b) as [->|].
        * exfalso. apply N2. rewrite map_app, in_app_iff. right. right. now apply (in_map fst) in Hin0.
        * apply (wf_runs_in _ _ W1). unfold ps. rewrite in_app_iff. right. right.
          rewrite in_app_iff. right. now right.
    - intros b0 Hb0. rewrite Hruns5. destruct (among gone b0) eqn:Eg; [easy|].
      unfold upd. destruct (N.eqb_spec b0 b) as [->|].
      + exfalso. apply Hb0. rewrite map_app, in_app_iff. right. now left.
      + apply (wf_runs_out _ _ W1). intros Hin0. apply Hb0. rewrite <- Hkeep.
        unfold keep. apply filter_In. split; [exact Hin0|now rewrite Eg].
    - intros b0. cbn. rewrite H4. destruct (among gone b0); [easy|]. cbn. unfold upd.
      destruct (N.eqb b0 b); [easy|apply (wf_images _ _ W1)].
    - intros b0 Hb0. cbn. rewrite H9. cbn. apply (wf_next _ _ W1).
      rewrite <- Hkeep in Hb0. apply filter_In in Hb0. tauto. }
  rewrite (flow_matches _ _ W5). cbn [negb].
  eexists _, _. split; [reflexivity|]. split.
  - constructor.
    + eapply wf_meta; [eapply wf_meta; [exact W5|apply meta_chars]|apply meta_nblocks].
    + transitivity (items_of (d_runs d5) (pre ++ (b, firstn i t ++ skipn j u) :: post)); [easy|].
      rewrite items_mid.
      assert (Eb : d_runs d5 b = runs).
      { rewrite Hruns5. assert (Eg : among gone b = false).
        { apply among_false. intros Hg. apply (Hout _ Hg). rewrite map_app, in_app_iff. right. now left. }
        rewrite Eg. unfold upd. now rewrite N.eqb_refl. }
      rewrite Eb. unfold runs at 1. rewrite (merge_runs_styled _ _ _ _ _ _ Wt Wu).
      unfold spec_delete. rewrite <- (meta_items _ _ ps M). unfold ps.
      rewrite (firstn_items (d_runs d1) pre b t _ i) by lia.
      replace (pre ++ (b, t) :: mid ++ (c, u) :: post) with ((pre ++ (b, t) :: mid) ++ (c, u) :: post)
        by (now rewrite <- app_assoc).
      rewrite (skipn_items (d_runs d1) _ c u post j) by lia.
      unfold ps in ND. pose proof (nodup_mid _ _ _ _ ND) as [N1 N2].
      assert (Ep : forall q, In q (map fst pre) \/ In q (map fst post) -> d_runs d5 q = d_runs d1 q).
      { intros q Hq. rewrite Hruns5.
        assert (Eg : among gone q = false).
        { apply among_false. intros Hg. apply (Hout _ Hg). rewrite map_app, in_app_iff. cbn [map In]. tauto. }
        rewrite Eg. unfold upd. destruct (N.eqb_spec q b) as [->|]; [|easy].
        exfalso. destruct Hq as [Hq|Hq]; [easy|]. apply N2. rewrite map_app, in_app_iff. right. now right. }
      rewrite (ipre_ext (d_runs d1) (d_runs d5) pre) by auto.
      rewrite (ipost_ext (d_runs d1) (d_runs d5) post) by auto.
      rewrite <- !app_assoc. rewrite boff_split. reflexivity.
    + symmetry. now apply plain_slice_cross.
    + unfold ps at 1. rewrite breaks_items by lia.
      rewrite Eps2 at 1. rewrite (breaks_items _ (pre ++ (b, t) :: mid) c u post j) by lia.
      unfold para_attrs.
      transitivity (map (attr d5) (d_order d5)); [easy|].
      rewrite (wf_order _ _ W5), (wf_order _ _ W).
      assert (Ea : forall q, In q (map fst (pre ++ (b, firstn i t ++ skipn j u) :: post)) -> attr d5 q = attr d q).
      { intros q Hq. unfold attr, get_block. cbn [d5 set_order d_blocks]. rewrite H2.
        rewrite find_filter by (intros Hg; apply (Hout _ Hg), Hq).
        change (attr d3 q = attr d q).
        transitivity (attr (update_block d1 (set_b_pos x (Z.of_nat (cpre pre)))) q); [easy|].
        rewrite <- (A q). revert q Hq. enough (same_attr d1 (update_block d1 (set_b_pos x (Z.of_nat (cpre pre))))) by auto.
        apply attr_update. cbn [b_id set_b_pos b_list b_fmt]. rewrite (A (b_id x)).
        apply HA. now apply nth_error_In in K2. }
      rewrite (map_ext_in _ _ _ Ea).
      unfold ps. rewrite app_length. cbn [length].
      rewrite !map_app. cbn [map fst].
      rewrite firstn_app, skipn_app, !map_length.
      rewrite firstn_all2 by (rewrite !map_length; lia).
      rewrite skipn_all2 by (rewrite !map_length; lia).
      replace (S (length pre) - length pre) with 1 by lia. cbn [firstn app].
      rewrite <- app_assoc. cbn [app]. f_equal. f_equal.
      replace (S (length pre + S (length mid)) - length pre) with (S (S (length mid))) by lia.
      rewrite !map_app. cbn [map fst]. rewrite skipn_cons.
      rewrite skipn_app, skipn_all2 by (rewrite !map_length; lia).
      rewrite !map_length. replace (S (length mid) - length mid) with 1 by lia. reflexivity.
    + cbn [d_nblocks set_nblocks]. unfold ps, gone. rewrite map_length, !app_length. cbn [length].
      rewrite !app_length. cbn [length]. lia.
    + cbn. rewrite H9. apply (meta_next _ _ M).
    + intros pre0 q t0 post0 E0 Hq. rewrite <- (HP _ _ _ _ E0).
      change (pos_of d4 q = pos_of d1 q). unfold pos_of at 1, get_block. rewrite H2.
      rewrite find_filter by (intros Hg; apply (Hout _ Hg), Hq).
      change (pos_of (update_block d1 (set_b_pos x (Z.of_nat (cpre pre)))) q = pos_of d1 q).
      rewrite pos_update. 2:{ cbn [b_id set_b_pos]. rewrite K3. eapply wf_has; [exact W1|eapply wf_in_mid, W1]. }
      cbn [b_id set_b_pos b_pos]. rewrite K3. destruct (N.eqb_spec b q) as [<-|]; [|easy].
      symmetry. now apply (HP _ _ t (mid ++ (c, u) :: post)).
    + exists pre, b, t, (firstn i t ++ skipn j u), (mid ++ [(c, u)]), post. split; [unfold ps; now rewrite <- app_assoc|]. split; [easy|].
      rewrite Eps2 at 1. rewrite breaks_items by lia. rewrite !app_length. cbn [length]. lia.
  - cbn [d_chars set_chars set_nblocks]. rewrite sum_lengths_csum. unfold ps.
    rewrite !csum_app, !csum_cons, csum_app, csum_cons, app_length, firstn_length, skipn_length. lia.
Qed.

(** Deleting, for any two positions. *)
Lemma delete_full d ps p a :
  wf d ps -> (p <> a)%Z ->
  let s := clipz (ctotal ps) (Z.min p a) in
  let e := clipz (ctotal ps) (Z.max p a) in
  exists d' cut ps', delete_text d p a = Ok (d', Z.min p a, cut)
    /\ deleted d d' ps ps' s e cut
    /\ ((0 <= Z.min p a)%Z -> (Z.max p a <= Z.of_nat (ctotal ps))%Z ->
        (d_chars d' - Z.of_nat (csum ps') = d_chars d - Z.of_nat (csum ps))%Z).
Proof.
  intros W Hpa s e.
  destruct (locate2 ps s e (wf_ne _ _ W)) as [(pre & b & t & post & i & j & -> & Hij & Hj & Es & Ee)
    |(pre & b & t & mid & c & u & post & i & j & -> & Hi & Hj & Es & Ee)].
  - apply clipz_mono. lia.
  - apply clipz_le.
  - destruct (delete_same _ _ _ _ _ _ _ p a W Hpa Hij Hj Es Ee) as (d' & E & D & C).
    exists d', (mid_text t i j), (pre ++ (b, firstn i t ++ skipn j t) :: post).
    rewrite Es, Ee. repeat (split; [assumption|]). intros H1 H2. rewrite C.
    rewrite !csum_app, !csum_cons, app_length, firstn_length, skipn_length.
    unfold s, e, clipz in Es, Ee. lia.
  - destruct (delete_cross _ _ _ _ _ _ _ _ _ _ p a W Hpa Hi Hj Es Ee) as (d' & cut & E & D & C).
    exists d', cut, (pre ++ (b, firstn i t ++ skipn j u) :: post).
    rewrite Es, Ee. repeat (split; [assumption|]). auto.
Qed.
