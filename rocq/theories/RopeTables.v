(** Facts about the rope helpers tables use: anchors, blocks put at the end,
    blocks removed. *)
From Verif Require Import Base BaseFacts RopeModel RopeSpec RopeFacts.

Ltac leb := match goal with |- context [?a <=? ?b] => destruct (Nat.leb_spec a b); try lia end.

(** ** Putting in a segment, taking one out *)
Lemma rep_insert_seg st a b m t rp tot es :
  rep st (a ++ b) -> ~ In m (map fst (a ++ b)) -> rp = join (map snd (a ++ (m, t) :: b)) -> tot = blen rp ->
  es = starts 0 a ++ starts (blen (jpre a) + blen t + 1) b ->
  exists ix, insert_at (mk_oindex es tot (midx (index st)) (anchor_count (index st))) (length a) m (blen (jpre a)) = Ok ix
    /\ rep (mk_rstore rp ix) (a ++ (m, t) :: b).
Proof.
  intros R N -> -> ->. unfold insert_at. cbn [entries total midx anchor_count]. rewrite app_length, starts_length.
  leb. rewrite firstn_exact, skipn_exact by apply starts_length.
  eexists. split; [reflexivity|]. split; cbn [rope index entries total midx anchor_count].
  - reflexivity.
  - now rewrite starts_app.
  - reflexivity.
  - intros k. rewrite (rep_midx _ _ R). symmetry. apply seg_pos_insert. now apply seg_pos_none.
  - rewrite (rep_anchors _ _ R), !count_anchors_app, count_anchors_cons. unfold bump_anchor. destruct (is_anchor_marker m); lia.
  - rewrite map_app in *. cbn [map fst]. apply NoDup_Add with (a := m) (l := map fst a ++ map fst b); [apply Add_app|].
    split; [|easy]. assert (X := rep_nodup _ _ R). now rewrite map_app in X.
Qed.
Lemma rep_remove_seg st a m t b :
  rep st (a ++ (m, t) :: b) ->
  exists ix1, remove_at (index st) (length a) = Ok ix1 /\ entries ix1 = starts 0 a ++ starts (blen (jpre a) + blen t + 1) b
    /\ total ix1 = total (index st)
    /\ forall ix, midx ix = midx ix1 -> anchor_count ix = anchor_count ix1 -> entries ix = starts 0 (a ++ b)
         -> total ix = blen (join (map snd (a ++ b))) -> rep (mk_rstore (join (map snd (a ++ b))) ix) (a ++ b).
Proof.
  intros R. assert (ND := rep_nodup _ _ R). unfold remove_at. rewrite (rep_entries _ _ R), starts_nth. cbn [plus].
  eexists. split; [reflexivity|]. cbn [entries total midx anchor_count]. split.
  { rewrite starts_app, firstn_exact by apply starts_length. cbn [starts].
    change (starts 0 a ++ (m, 0 + blen (jpre a)) :: starts (0 + blen (jpre a) + blen t + 1) b)
      with (starts 0 a ++ [(m, 0 + blen (jpre a))] ++ starts (0 + blen (jpre a) + blen t + 1) b).
    rewrite app_assoc, skipn_exact; [reflexivity|]. rewrite app_length, starts_length. cbn. lia. }
  split; [reflexivity|]. intros ix E1 E2 E3 E4. split; cbn [rope index]; try easy.
  - intros k. rewrite E1, (rep_midx _ _ R). symmetry. now apply (seg_pos_remove k m t a b).
  - rewrite E2, (rep_anchors _ _ R), !count_anchors_app, count_anchors_cons. destruct (is_anchor_marker m); lia.
  - rewrite map_app in *. cbn [map fst] in ND. now apply NoDup_remove_1 in ND.
Qed.

(** Joined text of what is left. *)
Lemma join_pre pre l : l <> [] -> join (map snd (pre ++ l)) = jpre pre ++ join (map snd l).
Proof.
  destruct l as [|[m t] l]; [easy|]. intros _. rewrite join_mid. f_equal. symmetry. apply join_cons_post.
Qed.
Lemma join_last pre m t : join (map snd (pre ++ [(m, t)])) = jpre pre ++ t.
Proof. rewrite join_mid. cbn. now rewrite app_nil_r. Qed.
Lemma jpost_join l : l <> [] -> jpost l = NL :: join (map snd l).
Proof. destruct l as [|[m t] l]; [easy|]. intros _. rewrite jpost_cons. f_equal. symmetry. apply join_cons_post. Qed.
Lemma jpre_snoc_str pre m t : jpre (pre ++ [(m, t)]) = jpre pre ++ t ++ [NL].
Proof. rewrite jpre_app, jpre_cons. reflexivity. Qed.
Lemma rep_rope_len st l : rep st l -> total (index st) = blen (join (map snd l)).
Proof. intros R. now rewrite (rep_total _ _ R), (rep_rope _ _ R). Qed.

Lemma shift_down_none l thr n : (forall e, In e l -> snd e < thr) -> shift_down l thr n = Ok l.
Proof.
  intros H. assert (X := shift_down_split l [] thr n H). cbn [map] in X. rewrite !app_nil_r in X. apply X. easy.
Qed.
Lemma shift_up_none l thr n : (forall e, In e l -> snd e < thr) -> shift_up l thr n = l.
Proof.
  intros H. assert (X := shift_up_split l [] thr n H). cbn [map] in X. rewrite !app_nil_r in X. apply X. easy.
Qed.

(** ** Removing a block *)
Lemma rep_remove_block st pre b t post :
  rep st (pre ++ (MBlock b, t) :: post) -> exists st', rope_remove_block st b = Ok st' /\ rep st' (pre ++ post).
Proof.
  intros R. destruct (rep_remove_seg _ _ _ _ _ R) as (ix1 & E1 & E2 & E3 & K).
  unfold rope_remove_block. rewrite (rep_range _ _ _ _ _ R). cbn [bind]. rewrite (rep_entry_pos _ _ _ _ _ R). cbn [unwrap bind].
  rewrite (rep_length _ _ _ _ _ R). unfold range_end. destruct post as [|s post].
  - cbn [length]. replace (S (length pre) =? length pre + 1) with true by lia. cbn [andb].
    destruct (0 <? length pre) eqn:E0.
    + destruct pre as [|s0 pre0] using rev_ind; [discriminate|]. clear IHpre0. destruct s0 as [m u]. clear E0.
      assert (P : blen (jpre (pre0 ++ [(m, u)])) = blen (jpre pre0) + blen u + 1) by apply jpre_snoc.
      leb.
      assert (Er : rope st = (jpre pre0 ++ u) ++ (NL :: t) ++ []).
      { rewrite (rep_rope_mid _ _ _ _ _ R), jpre_snoc_str. cbn. rewrite <- !app_assoc. reflexivity. }
      replace (blen (jpre (pre0 ++ [(m, u)])) - 1) with (blen (jpre pre0 ++ u)) by (rewrite P, blen_app; lia).
      replace (blen (jpre (pre0 ++ [(m, u)])) + blen t) with (blen (jpre pre0 ++ u) + blen (NL :: t)) by (rewrite P, blen_app, blen_NL_cons; lia).
      rewrite Er. rewrite byte_to_char_app. cbn [bind]. rewrite byte_to_char_app2. cbn [bind].
      rewrite rope_remove_app. cbn [bind]. rewrite app_nil_r.
      rewrite E1. cbn [bind]. unfold shift_after_down.
      rewrite E2. cbn [starts]. rewrite app_nil_r, shift_down_none.
      2:{ intros e He. apply starts_lt in He. rewrite P in He. rewrite blen_app, blen_NL_cons. lia. }
      cbn [bind]. rewrite E3, (rep_total _ _ R), Er, !blen_app, blen_NL_cons. cbn [blen].
      leb. cbn [bind]. eexists. split; [reflexivity|].
      rewrite app_nil_r. rewrite <- (join_last pre0 m u). rewrite app_nil_r in K. apply K; cbn; try reflexivity. rewrite join_last, blen_app. lia.
    + destruct pre; [|discriminate]. cbn [app jpre map concat blen] in *. cbn [plus].
      assert (Er : rope st = [] ++ t ++ []) by (rewrite (rep_rope _ _ R); cbn; now rewrite app_nil_r).
      destruct (blen t <=? 0) eqn:E5.
      * rewrite E1. cbn [bind]. assert (Ht : blen t = 0) by lia. apply blen_nil_inv in Ht. subst t.
        eexists. split; [reflexivity|]. rewrite Er. cbn [app]. apply (K _); try easy.
        rewrite E3, (rep_total _ _ R), Er. reflexivity.
      * rewrite Er. assert (X := byte_to_char_app [] (t ++ [])). cbn [blen length app] in X. cbn [app]. rewrite X. cbn [bind].
        assert (Y := byte_to_char_app2 [] t []). cbn [blen length app plus] in Y. rewrite Y. cbn [bind].
        assert (Z := rope_remove_app [] t []). cbn [blen length app plus] in Z. rewrite Z. cbn [bind]. rewrite E1. cbn [bind].
        unfold shift_after_down. rewrite E2. cbn [starts app shift_down bind]. rewrite E3, (rep_total _ _ R), Er. cbn [app]. rewrite app_nil_r, Nat.sub_0_r.
        rewrite Nat.leb_refl. eexists. split; [reflexivity|]. apply (K _); try easy. cbn. lia.
  - cbn [length]. replace (S (length pre) =? length pre + S (S (length post))) with false by lia. cbn [andb].
    leb. assert (Er : rope st = jpre pre ++ (t ++ [NL]) ++ join (map snd (s :: post))).
    { rewrite (rep_rope_mid _ _ _ _ _ R), jpost_join by easy. rewrite <- !app_assoc. reflexivity. }
    replace (blen (jpre pre) + blen t + 1) with (blen (jpre pre) + blen (t ++ [NL])) by (rewrite blen_app; cbn; lia).
    rewrite Er, byte_to_char_app. cbn [bind]. rewrite byte_to_char_app2. cbn [bind]. rewrite rope_remove_app. cbn [bind]. rewrite E1. cbn [bind].
    unfold shift_after_down. rewrite E2.
    replace (blen (jpre pre) + blen (t ++ [NL]) - blen (jpre pre)) with (blen (t ++ [NL])) by lia.
    replace (blen (jpre pre) + blen t + 1) with (blen (jpre pre) + blen (t ++ [NL])) by (rewrite blen_app; cbn; lia).
    rewrite starts_shift, shift_down_split.
    2:{ intros e He. apply starts_lt in He. lia. }
    2:{ intros e He. apply starts_ge in He. lia. }
    cbn [bind]. rewrite E3, (rep_total _ _ R), Er, !blen_app. leb. cbn [bind].
    eexists. split; [reflexivity|]. rewrite <- join_pre by easy. apply K; cbn; try reflexivity.
    + now rewrite starts_app.
    + rewrite join_pre by easy. rewrite blen_app. cbn. lia.
Qed.

(** ** Putting a block at the end *)
Lemma first_past_all l byte : (forall e, In e l -> snd e <= byte) -> first_past l byte = length l.
Proof.
  induction l as [|[m bs] l IH]; intros H; [easy|]. cbn [first_past length]. assert (X := H (m, bs) (or_introl eq_refl)). cbn in X.
  destruct (byte <? bs) eqn:E; [exfalso; apply Nat.ltb_lt in E; lia|]. f_equal. apply IH. intros e He. apply H. now right.
Qed.
Lemma starts_le_total st l : rep st l -> forall e, In e (starts 0 l) -> snd e <= total (index st).
Proof.
  intros R e He. destruct l as [|s l] using rev_ind; [easy|]. clear IHl. destruct s as [m t].
  rewrite (rep_rope_len _ _ R), join_last, blen_app. rewrite starts_app in He. apply in_app_iff in He. destruct He as [He|[<-|[]]].
  - apply starts_lt in He. lia.
  - cbn. lia.
Qed.
Lemma rep_put_last st l b :
  rep st l -> l <> [] -> ~ In (MBlock b) (map fst l) ->
  exists st', rope_insert_block_at st (total (index st)) b [] = Ok st' /\ rep st' (l ++ [(MBlock b, [])])
    /\ total (index st') = S (total (index st)).
Proof.
  intros R NE N. unfold rope_insert_block_at. cbn [blen]. rewrite Nat.add_1_r.
  rewrite (first_past_all (entries (index st))).
  2:{ rewrite (rep_entries _ _ R). now apply starts_le_total. }
  assert (X := byte_to_char_app (rope st) []). rewrite app_nil_r in X. rewrite (rep_total _ _ R), X. cbn [bind].
  assert (Y := rope_insert_app (rope st) [NL] []). rewrite !app_nil_r in Y. rewrite Y. cbn [bind].
  rewrite (rep_entries _ _ R), starts_length. unfold shift_after_up.
  rewrite shift_up_none.
  2:{ intros e He. rewrite (rep_entries _ _ R) in He. apply (starts_le_total _ _ R) in He. rewrite (rep_total _ _ R) in He. lia. }
  destruct l as [|s l0] using rev_ind; [easy|]. clear IHl0. destruct s as [m t]. set (l := l0 ++ [(m, t)]) in *.
  assert (Er : rope st = jpre l0 ++ t) by (rewrite (rep_rope _ _ R); apply join_last).
  assert (Ej : join (map snd (l ++ [(MBlock b, [])])) = rope st ++ [NL]).
  { rewrite join_last, app_nil_r. unfold l. rewrite jpre_snoc_str, Er, <- app_assoc. reflexivity. }
  assert (El : blen (jpre l) = S (blen (rope st))) by (unfold l; rewrite jpre_snoc, Er, blen_app; lia).
  rewrite <- El.
  destruct (rep_insert_seg st l [] (MBlock b) [] (rope st ++ [NL]) (total (index st) + 1) (entries (index st))) as (ix & E & R').
  - now rewrite app_nil_r.
  - now rewrite app_nil_r.
  - now rewrite Ej.
  - rewrite (rep_total _ _ R), blen_app. reflexivity.
  - cbn [starts]. rewrite app_nil_r. apply (rep_entries _ _ R).
  - cbn [plus]. rewrite E. cbn [bind]. eexists. split; [reflexivity|]. split; [easy|]. cbn [index].
    assert (T := rep_total _ _ R'). cbn [rope index] in T. rewrite T, blen_app. cbn. lia.
Qed.

(** ** Table anchors *)
Lemma rep_anchor_before st pre b t post tid :
  rep st (pre ++ (MBlock b, t) :: post) -> ~ In (MAnchor tid) (map fst (pre ++ (MBlock b, t) :: post)) ->
  exists st', rope_insert_table_anchor st tid b false = Ok st' /\ rep st' (pre ++ (MAnchor tid, [FFFC]) :: (MBlock b, t) :: post).
Proof.
  intros R N. unfold rope_insert_table_anchor. rewrite (rep_range _ _ _ _ _ R). cbn [bind]. rewrite (rep_entry_pos _ _ _ _ _ R). cbn [unwrap bind negb].
  assert (Er := rep_rope_mid _ _ _ _ _ R). rewrite ?Er. rewrite byte_to_char_app. cbn [bind]. rewrite rope_insert_app. cbn [bind].
  unfold shift_after_up. rewrite (rep_entries _ _ R), starts_app, shift_up_split.
  2:{ intros e He. apply starts_lt in He. lia. }
  2:{ intros e He. apply starts_ge in He. lia. }
  rewrite <- starts_shift. cbn [plus].
  destruct (rep_insert_seg st pre ((MBlock b, t) :: post) (MAnchor tid) [FFFC] (jpre pre ++ [FFFC; NL] ++ t ++ jpost post) (total (index st) + 4)
    (starts 0 pre ++ starts (blen (jpre pre) + 4) ((MBlock b, t) :: post))) as (ix & E & R').
  - easy.
  - easy.
  - rewrite join_mid, jpost_cons. reflexivity.
  - rewrite (rep_total_mid _ _ _ _ _ R), !blen_app. cbn. lia.
  - cbn [blen plus]. do 2 f_equal. cbn. lia.
  - rewrite E. cbn [bind]. eexists. split; [reflexivity|]. easy.
Qed.
Lemma rep_anchor_after st pre b t post tid :
  rep st (pre ++ (MBlock b, t) :: post) -> ~ In (MAnchor tid) (map fst (pre ++ (MBlock b, t) :: post)) -> t <> [] \/ post <> [] ->
  exists st', rope_insert_table_anchor st tid b true = Ok st' /\ rep st' (pre ++ (MBlock b, t) :: (MAnchor tid, [FFFC]) :: post).
Proof.
  intros R N H. unfold rope_insert_table_anchor. rewrite (rep_range _ _ _ _ _ R). cbn [bind]. rewrite (rep_entry_pos _ _ _ _ _ R). cbn [unwrap bind negb].
  rewrite (rep_length _ _ _ _ _ R). set (a := pre ++ [(MBlock b, t)]).
  assert (El : pre ++ (MBlock b, t) :: post = a ++ post) by (unfold a; now rewrite <- app_assoc).
  assert (El2 : pre ++ (MBlock b, t) :: (MAnchor tid, [FFFC]) :: post = a ++ (MAnchor tid, [FFFC]) :: post) by (unfold a; now rewrite <- app_assoc).
  assert (Pa : blen (jpre a) = blen (jpre pre) + blen t + 1) by apply jpre_snoc.
  assert (La : length a = S (length pre)) by (unfold a; rewrite app_length; cbn; lia).
  rewrite El2. rewrite El in R, N. unfold range_end. destruct post as [|s post].
  - destruct H as [H|H]; [|easy]. assert (Bt : 0 < blen t) by (destruct (blen t) eqn:E; [apply blen_nil_inv in E; easy|lia]).
    rewrite app_nil_r in R, N. cbn [length]. replace (S (length pre) =? length pre + 1) with true by lia. cbn [negb].
    assert (Er : rope st = jpre pre ++ t) by (rewrite (rep_rope _ _ R); apply join_last).
    rewrite <- blen_app, <- Er. assert (X := byte_to_char_app (rope st) []). rewrite app_nil_r in X. rewrite X. cbn [bind].
    assert (Y := rope_insert_app (rope st) [NL; FFFC] []). rewrite !app_nil_r in Y. rewrite Y. cbn [bind].
    unfold shift_after_up. rewrite shift_up_none.
    2:{ intros e He. rewrite (rep_entries _ _ R) in He. unfold a in He. rewrite starts_app in He. apply in_app_iff in He. rewrite Er, blen_app.
        destruct He as [He|[<-|[]]]; [apply starts_lt in He; lia|cbn; lia]. }
    replace (S (blen (rope st))) with (blen (jpre a)) by (rewrite Pa, Er, blen_app; lia). rewrite <- La.
    destruct (rep_insert_seg st a [] (MAnchor tid) [FFFC] (rope st ++ [NL; FFFC]) (total (index st) + 4) (entries (index st))) as (ix & E & R').
    + now rewrite app_nil_r.
    + now rewrite app_nil_r.
    + rewrite join_last. unfold a. rewrite jpre_snoc_str, Er, <- !app_assoc. reflexivity.
    + rewrite (rep_total _ _ R), blen_app. reflexivity.
    + cbn [starts]. rewrite app_nil_r. apply (rep_entries _ _ R).
    + rewrite E. cbn [bind]. eexists. split; [reflexivity|]. easy.
  - cbn [length]. replace (S (length pre) =? length pre + S (S (length post))) with false by lia. cbn [negb].
    assert (Er : rope st = jpre a ++ join (map snd (s :: post))) by (rewrite (rep_rope _ _ R); now apply join_pre).
    rewrite <- Pa, <- La. rewrite ?Er. rewrite byte_to_char_app. cbn [bind]. rewrite rope_insert_app. cbn [bind].
    unfold shift_after_up. rewrite (rep_entries _ _ R), starts_app, shift_up_split.
    2:{ intros e He. apply starts_lt in He. lia. }
    2:{ intros e He. apply starts_ge in He. lia. }
    rewrite <- starts_shift. cbn [plus].
    destruct (rep_insert_seg st a (s :: post) (MAnchor tid) [FFFC] (jpre a ++ [FFFC; NL] ++ join (map snd (s :: post))) (total (index st) + 4)
      (starts 0 a ++ starts (blen (jpre a) + 4) (s :: post))) as (ix & E & R').
    + easy.
    + easy.
    + rewrite join_mid, jpost_join by easy. reflexivity.
    + rewrite (rep_total _ _ R), Er, !blen_app. cbn. lia.
    + do 2 f_equal. cbn. lia.
    + rewrite E. cbn [bind]. eexists. split; [reflexivity|]. easy.
Qed.
Lemma rep_remove_anchor st pre tid post :
  rep st (pre ++ (MAnchor tid, [FFFC]) :: post) ->
  post <> [] \/ (exists p m t, pre = p ++ [(m, t)] /\ t <> []) ->
  exists st', rope_remove_table_anchor st tid = Ok st' /\ rep st' (pre ++ post).
Proof.
  intros R H. destruct (rep_remove_seg _ _ _ _ _ R) as (ix1 & E1 & E2 & E3 & K).
  unfold rope_remove_table_anchor. rewrite (rep_range _ _ _ _ _ R). cbn [bind]. rewrite (rep_entry_pos _ _ _ _ _ R). cbn [unwrap bind].
  rewrite (rep_length _ _ _ _ _ R). destruct post as [|s post].
  - destruct H as [H|(p & m & t & -> & Ht)]; [easy|]. cbn [length].
    assert (Bt : 0 < blen t) by (destruct (blen t) eqn:E; [apply blen_nil_inv in E; easy|lia]).
    replace (S (length (p ++ [(m, t)])) =? length (p ++ [(m, t)]) + 1) with true by lia.
    replace (0 <? length (p ++ [(m, t)])) with true by (rewrite app_length; cbn [length]; symmetry; apply Nat.ltb_lt; lia). cbn [andb].
    assert (P : blen (jpre (p ++ [(m, t)])) = blen (jpre p) + blen t + 1) by apply jpre_snoc.
    leb. cbn [bind].
    assert (Er : rope st = (jpre p ++ t) ++ [NL; FFFC] ++ []).
    { rewrite (rep_rope_mid _ _ _ _ _ R), jpre_snoc_str. cbn. rewrite <- !app_assoc. reflexivity. }
    replace (blen (jpre (p ++ [(m, t)])) - 1) with (blen (jpre p ++ t)) by (rewrite P, blen_app; lia).
    replace (blen (jpre (p ++ [(m, t)])) + 3) with (blen (jpre p ++ t) + blen [NL; FFFC]) by (rewrite P, blen_app; cbn; lia).
    rewrite Er. rewrite byte_to_char_app. cbn [bind]. rewrite byte_to_char_app2. cbn [bind]. rewrite rope_remove_app. cbn [bind]. rewrite app_nil_r.
    rewrite E1. cbn [bind]. unfold shift_after_down. rewrite E2. cbn [starts]. rewrite app_nil_r, shift_down_none.
    2:{ intros e He. rewrite starts_app in He. apply in_app_iff in He. rewrite blen_app. destruct He as [He|[<-|[]]]; [apply starts_lt in He; lia|cbn; lia]. }
    cbn [bind]. rewrite E3, (rep_total _ _ R), Er, !blen_app. change (blen [NL; FFFC]) with 4. cbn [blen].
    leb. cbn [bind]. eexists. split; [reflexivity|].
    rewrite app_nil_r. rewrite <- (join_last p m t). rewrite app_nil_r in K. apply K; cbn [index entries total midx anchor_count]; try reflexivity.
    rewrite join_last, blen_app. lia.
  - cbn [length]. replace (S (length pre) =? length pre + S (S (length post))) with false by lia. cbn [andb bind].
    assert (Er : rope st = jpre pre ++ [FFFC; NL] ++ join (map snd (s :: post))).
    { rewrite (rep_rope_mid _ _ _ _ _ R), jpost_join by easy. reflexivity. }
    change 4 with (blen [FFFC; NL]). rewrite Er, byte_to_char_app. cbn [bind]. rewrite byte_to_char_app2. cbn [bind]. rewrite rope_remove_app. cbn [bind].
    rewrite E1. cbn [bind]. unfold shift_after_down. rewrite E2.
    replace (blen (jpre pre) + blen [FFFC] + 1) with (blen (jpre pre) + blen [FFFC; NL]) by (cbn; lia).
    rewrite starts_shift, shift_down_split.
    2:{ intros e He. apply starts_lt in He. lia. }
    2:{ intros e He. apply starts_ge in He. lia. }
    cbn [bind]. rewrite E3, (rep_total _ _ R), Er, !blen_app. leb. cbn [bind].
    eexists. split; [reflexivity|]. rewrite <- join_pre by easy. apply K; cbn [index entries total midx anchor_count]; try reflexivity.
    + now rewrite starts_app.
    + rewrite join_pre by easy. rewrite blen_app. lia.
Qed.
