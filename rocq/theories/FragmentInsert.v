(** Pasting a fragment of text anywhere in a well-formed document. *)
From Verif Require Import Base BaseFacts FormatRunsModel FormatRunsSpec FormatRunsFacts
  RopeModel RopeSpec RopeFacts DocModel DocSpec BlockFacts DocInv DocFacts DocAttr DocDelete DocBreak DocReplace
  DocImport DocFormat DocQuery ReplaceFacts DocFresh QueryModel QuerySpec ListModel ListDocModel
  FragmentModel FragmentText FragmentSpec FragmentRuns FragmentGrow FragmentFinish FragmentPaste FragmentLists.
From Coq Require Import Permutation.


Lemma ats_formats fbs lids : length lids = length fbs -> map snd (ats_of fbs lids) = map fb_fmt fbs.
Proof.
  unfold ats_of. revert lids; induction fbs as [|f fbs IH]; intros [|l lids]; cbn; try easy. intros [= H]. now rewrite IH.
Qed.
Lemma ats_lists fbs lids : length lids = length fbs -> map fst (ats_of fbs lids) = lids.
Proof.
  unfold ats_of. revert lids; induction fbs as [|f fbs IH]; intros [|l lids]; cbn; try easy. intros [= H]. now rewrite IH.
Qed.
Lemma attr_at d pre b t post x : wf d (pre ++ (b, t) :: post) -> get_block d b = Some x ->
  nth_error (para_attrs d) (length pre) = Some (Some (b_list x, b_fmt x)).
Proof.
  intros W Hx. unfold para_attrs. rewrite (wf_order _ _ W), map_app, map_app. cbn [map fst].
  rewrite nth_error_app2 by (rewrite !map_length; lia). rewrite !map_length, Nat.sub_diag. cbn. unfold attr. now rewrite Hx.
Qed.

Lemma skipn_nth {A} (l : list A) m y : nth_error l m = Some y -> skipn m l = y :: skipn (S m) l.
Proof.
  revert l; induction m as [|m IH]; intros [|z l] H; try easy.
  - now injection H as ->.
  - cbn in H. cbn [skipn]. now rewrite (IH _ H).
Qed.

Lemma nilb_false_cons {A} (l : list A) : nilb l = false -> exists x r, l = x :: r.
Proof. destruct l; [easy|eauto]. Qed.

Lemma insert_fragment_full L ps p fbs :
  let d := l_doc L in
  let its := items_of (d_runs d) ps in
  let n := clipz (ctotal ps) p in
  wf d ps -> fbs <> [] -> Forall text_only fbs -> single_inline fbs \/ in_order d ->
  exists L' ps' np k,
    insert_fragment L p p (Some fbs) = Ok (L', np, k)
    /\ wf (l_doc L') ps'
    /\ items_of (d_runs (l_doc L')) ps' = spec_paste n fbs its
    /\ (exists cur own, nth_error (para_attrs d) (breaks n its) = Some (Some cur)
        /\ para_attrs (l_doc L') = firstn (breaks n its) (para_attrs d) ++ map Some (paste_attrs fbs its n cur own)
                                   ++ skipn (S (breaks n its)) (para_attrs d)
        /\ map snd own = map fb_fmt (own_format fbs)
        /\ (lists_numbered L -> Forall2 (joins L') (map fb_list (own_format fbs)) (map fst own)
                               /\ more_lists L L' /\ lists_numbered L'))
    /\ d_nblocks (l_doc L') = (d_nblocks d + (Z.of_nat (length ps') - Z.of_nat (length ps)))%Z
    /\ (keeps_counts fbs its n = true -> d_chars (l_doc L') = (d_chars d + Z.of_nat (fragment_length fbs))%Z)
    /\ (keeps_positions fbs its n = true -> fresh d ps -> fresh (l_doc L') ps')
    /\ (keeps_positions fbs its n = true -> p = Z.of_nat n ->
        np = Z.of_nat (n + length (sep_before fbs its n) + length (fragment_items fbs) + length (sep_after fbs its n)))
    /\ (d_next d <= d_next (l_doc L'))%N
    /\ ((0 <= p)%Z -> (0 <= np)%Z).
Proof.
  intros d its n W Hne Hall Hord. subst d.
  destruct (wf_loc _ _ p W) as (pre & b & t & post & i & -> & Hi & Hp).
  unfold n. rewrite Hp.
  assert (Br : breaks (cpre pre + i) its = length pre) by (now apply breaks_items).
  assert (As : at_start its (cpre pre + i) = nilb (firstn i t)) by (now apply at_start_items).
  assert (Ae : at_end its (cpre pre + i) = nilb (skipn i t)) by (now apply at_end_items).
  assert (Hx : exists x, get_block (l_doc L) b = Some x).
  { destruct (wf_get _ _ b W ltac:(eapply wf_in_mid, W)) as (x & Ex & _). eauto. }
  rewrite Br.
  destruct fbs as [|first others]; [easy|].
  destruct (Forall_inv Hall) as [HeA HeB]. pose proof (conj HeA HeB : text_only first) as Hf.
  destruct (is_inline_only first && nilb others) eqn:Eone.
  { apply andb_true_iff in Eone. destruct Eone as [Hin Ho]. apply nilb_true in Ho. subst others.
    destruct (paste_inline_full L pre b t post i p first W Hi Hp Hf Hin) as (d' & E & W' & I' & A' & C' & N' & X' & F').
    do 4 eexists. split; [exact E|]. cbn [l_doc]. split; [exact W'|].
    destruct Hx as (x & Hx). repeat split.
    - etransitivity; [exact I'|]. unfold spec_paste, sep_before, sep_after, fragment_items. cbn [rev app map join_paras]. now rewrite Hin.
    - exists (b_list x, b_fmt x), []. pose proof (attr_at _ _ _ _ _ _ W Hx) as Hat. split; [exact Hat|].
      unfold paste_attrs, takes_over, keeps_tail, own_format. cbn [rev app]. rewrite Hin. cbn [negb andb app map].
      split; [|split; [easy|intros Hl; split; [constructor|now split]]].
      transitivity (para_attrs (l_doc L)); [exact A'|].
      etransitivity; [symmetry; apply (firstn_skipn (length pre))|]. f_equal.
      now apply skipn_nth.
    - rewrite N'. rewrite !app_length. cbn [length]. lia.
    - intros _. cbn [fragment_length fold_right]. rewrite C'. lia.
    - intros _. exact F'.
    - intros _ ->. unfold sep_before, sep_after, fragment_items. cbn [rev app map join_paras]. rewrite Hin. cbn [orb length].
      rewrite fb_items_length by easy. lia.
    - rewrite X'. lia.
    - lia. }
  assert (Ho : in_order (l_doc L)).
  { destruct Hord as [(fb & E & Hin)|Ho]; [|exact Ho]. injection E as -> ->. now rewrite Hin in Eone. }
  destruct (find_in_order _ _ _ _ _ _ _ W Hi Hp Ho) as (x & Gx & Ef & Es). clear Hx.
  pose proof (find_block_some _ _ _ Gx) as [Hid _].
  unfold insert_fragment. rewrite Z.eqb_refl. cbn [negb]. rewrite Ef. cbn [bind b_id set_b_pos]. rewrite Hid.
  rewrite (wf_content _ _ _ _ _ W). cbn [bind]. rewrite (wf_images _ _ W), Nat2Z.id, lob_nil, Es.
  pose proof (attr_at _ _ _ _ _ _ W Gx) as Hat.
  assert (Wt : wf (l_doc L) (pre ++ (b, firstn i t ++ skipn i t) :: post)) by (now rewrite firstn_skipn).
  assert (Li : length (firstn i t) = i) by (rewrite firstn_length; lia).
  destruct others as [|g others].
  - rewrite andb_true_r in Eone. rewrite Eone.
    rewrite slice_0_boff, slice_boff_end. cbn [bind].
    destruct (nilb (firstn i t)) eqn:Eb.
    + apply nilb_true in Eb. assert (i = 0) as -> by (rewrite <- Li, Eb; easy).
      cbn [firstn skipn] in *. rewrite boff_0. rewrite Nat.add_0_r in *.
      destruct (paste_one_over_full L pre b t post x first W Gx Hf Eone) as (L' & ps' & E & W' & I' & N' & Lp & F' & A' & X' & C' & Y1 & Y2).
      exists L', ps'. do 2 eexists. split; [exact E|]. split; [exact W'|]. split; [exact I'|]. split; [|repeat split].
      * exists (b_list x, b_fmt x), [(snd (make_list L (fb_list first)), fb_fmt first)]. split; [exact Hat|].
        unfold paste_attrs, takes_over, keeps_tail, own_format. cbn [rev app]. rewrite Eone, As, Ae. cbn [negb andb app map].
        rewrite andb_true_r. split; [etransitivity; [exact A'|]; destruct (nilb t); reflexivity|]. split; [easy|].
        intros Hl. apply (lists_same L (fst (make_list L (fb_list first))) L'); [exact Y1|exact Y2|].
        pose proof (make_list_ok L (fb_list first) Hl) as M. destruct (make_list L (fb_list first)) as [L1 l1].
        cbn [fst snd]. destruct M as (M1 & M2 & M3). repeat split; auto.
      * rewrite N', Lp. lia.
      * unfold keeps_counts. rewrite Eone, As, Ae. cbn [orb negb]. rewrite orb_false_r. intros Hn. apply nilb_true in Hn. subst t.
        rewrite C'. cbn. lia.
      * unfold keeps_positions. rewrite Eone, Ae. cbn [orb]. intros Hn. apply nilb_true in Hn. now apply F'.
      * unfold keeps_positions. rewrite Eone, Ae. cbn [orb]. intros Hn _. unfold sep_before, sep_after, fragment_items.
        cbn [rev app map join_paras length]. rewrite Eone, As, Ae, Hn. cbn. rewrite fb_items_length by easy. lia.
      * rewrite X'. lia.
      * lia.
    + destruct (nilb_false_cons _ Eb) as (c0 & u0 & Ec). rewrite Ec. rewrite <- Ec.
      destruct (paste_one_split_full L pre b (firstn i t) (skipn i t) post x first Wt Gx Hf Eone Eb)
        as (L' & ps' & E & W' & I' & N' & Lp & F' & A' & X' & C' & Y1 & Y2).
      rewrite firstn_skipn in E, I', F', Lp. rewrite boff_split. rewrite Li in I', E.
      exists L', ps'. do 2 eexists. split; [exact E|]. split; [exact W'|]. split; [exact I'|]. split; [|repeat split].
      * exists (b_list x, b_fmt x), [(snd (make_list L (fb_list first)), fb_fmt first)]. split; [exact Hat|].
        unfold paste_attrs, takes_over, keeps_tail, own_format. cbn [rev app]. rewrite Eone, As, Ae. cbn [negb andb app map].
        rewrite andb_false_r. split; [exact A'|]. split; [easy|].
        intros Hl. apply (lists_same L (fst (make_list L (fb_list first))) L'); [exact Y1|exact Y2|].
        pose proof (make_list_ok L (fb_list first) Hl) as M. destruct (make_list L (fb_list first)) as [L1 l1].
        cbn [fst snd]. destruct M as (M1 & M2 & M3). repeat split; auto.
      * rewrite N', Lp. lia.
      * intros _. rewrite C'. cbn. lia.
      * unfold keeps_positions. rewrite Eone, Ae. cbn [orb]. intros Hn. apply nilb_true in Hn. now apply F'.
      * unfold keeps_positions. rewrite Eone, Ae. cbn [orb]. intros Hn _. unfold sep_before, sep_after, fragment_items.
        cbn [rev app map join_paras length]. rewrite Eone, As, Ae, Hn. apply nilb_true in Hn. rewrite Hn. cbn [orb andb negb Nat.eqb length].
        rewrite fb_items_length by easy. lia.
      * rewrite X'. lia.
      * lia.
  - destruct (split_frag first g others) as (mid & Em & _).
    set (last_ := last (g :: others) first) in *.
    destruct (paste_many_full L pre b (firstn i t) (skipn i t) post x (first :: g :: others) first mid last_ Wt Gx Em Hall)
      as (L' & ps' & k & ats & ha & E & W' & I' & N' & Lp & F' & A' & X' & C' & P').
 rewrite firstn_skipn in E, I', F', Lp. rewrite Li in I', E.
    rewrite boff_split. exists L', ps'. do 2 eexists. split; [exact E|]. split; [exact W'|]. split; [exact I'|]. split; [|repeat split].
    + exists (b_list x, b_fmt x).
      cbv zeta in P'. rewrite <- As in P', C'. remember (is_inline_only first) as mf eqn:Dmf. remember (is_inline_only last_) as ml eqn:Dml.
      assert (Egr : g :: others = mid ++ [last_]) by (injection Em as Em; exact Em).
      assert (Eto : takes_over (first :: g :: others) its (cpre pre + i) = negb mf && at_start its (cpre pre + i)).
      { unfold takes_over. now rewrite <- Dmf. }
      assert (Eown : own_format (first :: g :: others) = (if mf then [] else [first]) ++ mid ++ (if ml then [] else [last_])).
      { unfold own_format. rewrite <- Dmf. f_equal. rewrite Egr. rewrite removelast_last, last_last, <- Dml. now destruct mid. }
      assert (Etl : keeps_tail (first :: g :: others) its (cpre pre + i) = ml || negb (at_end its (cpre pre + i))).
      { unfold keeps_tail. rewrite Em. cbn [rev]. rewrite rev_app_distr. cbn [rev app].
        destruct (rev mid ++ [first]) as [|y l] eqn:El; [now destruct (rev mid)|]. now rewrite <- Dml. }
      unfold paste_attrs. rewrite Eto, Eown, Etl.
      remember (negb mf && at_start its (cpre pre + i)) as ov eqn:Dov.
      assert (Eskip : nilb (skipn i t) && negb ml = negb (ml || negb (at_end its (cpre pre + i)))).
      { rewrite Ae. now destruct ml, (nilb (skipn i t)). }
      rewrite Eskip in P'.
      set (mids := (if mf || ov then [] else [first]) ++ mid ++ (if ml then [] else [last_])) in *.
      assert (Eall : (if ov then first :: mids else mids) = (if mf then [] else [first]) ++ mid ++ (if ml then [] else [last_])).
      { unfold mids. destruct mf; cbn [negb andb] in Dov; [subst ov; reflexivity|]. now destruct ov. }
      pose proof (place_lists_length (if ov then first :: mids else mids) L (first_grouper L ov (b_list x))) as Hl.
      pose proof (place_lists_ok (if ov then first :: mids else mids) L (first_grouper L ov (b_list x))) as Hj.
      destruct (place_lists L (first_grouper L ov (b_list x)) (if ov then first :: mids else mids)) as [L1 lids].
      cbn [snd] in Hl. destruct P' as (-> & Y1 & Y2 & ->). rewrite Eall in Hl, Hj.
      exists (ats_of ((if mf then [] else [first]) ++ mid ++ (if ml then [] else [last_])) lids).
      split; [exact Hat|]. rewrite ats_formats, ats_lists by exact Hl. split; [|split; [easy|]].
      * etransitivity; [exact A'|]. rewrite map_app, !map_app, <- !app_assoc. rewrite <- Eall.
        destruct ov.
        -- destruct lids as [|l0 lids]; [rewrite <- Eall in Hl; discriminate|]. cbn [hd tl app map ats_of combine].
           destruct (ml || _); reflexivity.
        -- cbn [app map]. destruct (ml || _); reflexivity.
      * intros Hln. apply (lists_same L L1 L'); [exact Y1|exact Y2|]. apply Hj; [exact Hln|apply first_grouper_ok].
    + rewrite N', Lp. lia.
    + unfold keeps_counts. rewrite As, Ae. intros Hk. rewrite C'.
      destruct (nilb (skipn i t)) eqn:En; [apply nilb_true in En; rewrite En; cbn; destruct (_ || _); lia|].
      cbn [orb] in Hk. destruct (is_inline_only first), (nilb (firstn i t)); cbn in Hk |- *; try discriminate; lia.
    + intros _. exact F'.
    + rewrite X'. lia.
    + lia.
Qed.
