(** What inserting HTML does to a document. *)
From Verif Require Import Base BaseFacts FormatRunsModel FormatRunsSpec FormatRunsFacts
  RopeModel RopeSpec RopeFacts DocModel DocSpec BlockFacts DocInv DocFacts DocAttr DocDelete DocBreak DocReplace DocImport DocFormat DocQuery ReplaceFacts DocFresh DocReach DocTheorems QueryModel QuerySpec PropSpec QueryTheorems
  ListModel ListDocModel FragmentModel FragmentText FragmentSpec FragmentFinish FragmentPaste FragmentLists FragmentTheorems
  ImportModel ImportSpec ImportFacts MdInsertModel MdInsertSpec MdInsertRope MdInsertFacts MdInsertTheorems HtmlInsertModel HtmlInsertSpec HtmlInsertFacts.

Lemma start_is R pre b before after post :
  at_start (cpre pre + length before) (items_of R (pre ++ (b, before ++ after) :: post)) = is_nil before.
Proof.
  unfold at_start. rewrite firstn_items by (rewrite app_length; lia). rewrite firstn_before by easy. rewrite rev_app_distr.
  destruct before as [|c u _] using rev_ind.
  - cbn [styled styled_from rev app is_nil]. destruct pre as [|[a v] pre] using rev_ind; [easy|].
    rewrite ipre_app, ipre_cons, !rev_app_distr. cbn. reflexivity.
  - unfold styled. rewrite styled_app, rev_app_distr. cbn [styled_from rev app]. match goal with |- context [is_nil (?u ++ _)] => now destruct u end.
Qed.
Lemma end_is R pre b before after post :
  at_end (cpre pre + length before) (items_of R (pre ++ (b, before ++ after) :: post)) = is_nil after.
Proof.
  unfold at_end. rewrite skipn_items by (rewrite app_length; lia).
  rewrite skipn_app, skipn_all, Nat.sub_diag. cbn [app skipn]. destruct after as [|c u]; [|easy].
  cbn [styled_from app is_nil]. destruct post as [|[a v] post]; [easy|]. rewrite ipost_cons. reflexivity.
Qed.

Lemma break_is R pre b before after post :
  to_break (skipn (cpre pre + length before) (items_of R (pre ++ (b, before ++ after) :: post))) = length after.
Proof.
  rewrite skipn_items by (rewrite app_length; lia).
  rewrite skipn_app, skipn_all, Nat.sub_diag. cbn [app skipn]. generalize (boff (before ++ after) (length before)).
  induction after as [|c u IH]; intros o; cbn [styled_from app to_break length]; [|now rewrite IH].
  destruct post as [|[a v] post]; [easy|]. rewrite ipost_cons. reflexivity.
Qed.
Lemma missed_none n bs its : one_bare bs \/ at_end n its = true \/ stands_alone n bs its -> missed n bs its = 0.
Proof.
  intros [(b & -> & B)|[E|[S B]]].
  - apply inline_bare in B. cbn. now rewrite B.
  - assert (Z : to_break (skipn n its) = 0) by (revert E; unfold at_end; destruct (skipn n its) as [|[] r]; easy).
    unfold missed. rewrite Z. destruct bs as [|b [|c r]]; [easy| |]; now destruct (_ || _)%bool.
  - unfold missed. rewrite S. destruct bs as [|b [|c r]]; [easy|now rewrite orb_true_r|]. rewrite orb_false_r. destruct (is_inline b) eqn:Ei; [|easy].
    destruct B. now apply inline_bare.
Qed.

Lemma html_shape first mid last_ n its :
  let bs := first :: mid ++ [last_] in
  let mf := is_inline first in let ml := is_inline last_ in
  let over := at_start n its && negb mf in
  let mids := skipn (if mf || over then 1 else 0) (if ml then removelast bs else bs) in
  let skip := at_end n its && negb ml in
  takes_place n bs its = over /\ html_own n bs its = mids /\ cut_off n bs its = negb skip /\ single bs = false
  /\ html_items n bs its = (opt_items (opt (mf || over) first) ++ flat_map (cons Brk) (map block_items mids))
       ++ (if skip then [] else Brk :: opt_items (opt ml last_)).
Proof.
  intros bs mf ml over mids skip.
  assert (O : own_paragraphs bs = skipn (if mf then 1 else 0) (if ml then removelast bs else bs)).
  { unfold own_paragraphs, bs. cbn [rev]. rewrite rev_app_distr. reflexivity. }
  assert (Sg : single bs = false) by (unfold bs; now destruct mid).
  assert (Ba : break_after bs = if ml then [] else [Brk]).
  { unfold break_after, bs. cbn [rev]. rewrite rev_app_distr. reflexivity. }
  assert (T : takes_place n bs its = over) by reflexivity.
  split; [exact T|]. split; [|split; [|split; [exact Sg|]]].
  - unfold html_own. rewrite T, O. unfold mids. destruct over eqn:Eo; [|now rewrite orb_false_r].
    unfold over in Eo. apply andb_true_iff in Eo. destruct Eo as [_ Eo]. apply negb_true_iff in Eo. rewrite Eo. cbn [orb skipn].
    now destruct (if ml then removelast bs else bs).
  - unfold cut_off. rewrite Ba, Sg. cbn [negb]. rewrite orb_true_r, andb_true_r. unfold skip. destruct (at_end n its), ml; reflexivity.
  - unfold html_items, html_before, html_after. rewrite Ba, Sg. cbn [negb]. rewrite orb_true_r, andb_true_r.
    assert (Er : removelast bs = first :: mid) by (unfold bs; now rewrite app_comm_cons, removelast_last).
    assert (Ei : items_of_blocks bs = block_items first ++ flat_map (cons Brk) (map block_items mid) ++ Brk :: block_items last_).
    { unfold bs. rewrite items_of_blocks_cons, map_app, flat_map_app. cbn [map flat_map]. now rewrite app_nil_r. }
    assert (Bb : break_before bs = if mf then [] else [Brk]) by reflexivity.
    rewrite Ei, Bb. unfold mids. rewrite Er. unfold bs, over, skip. destruct (at_start n its), (at_end n its), mf, ml; cbn [andb orb negb opt opt_items skipn app map flat_map];
      rewrite ?map_app, ?flat_map_app; cbn [map flat_map];
      repeat (rewrite <- ?app_assoc; cbn [app]); rewrite ?app_nil_r; reflexivity.
Qed.

Lemma html_reads L bs : forall own, map snd own = map html_fmt bs -> Forall2 (joins L) (map list_of bs) (map fst own) -> Forall2 (html_read L) bs own.
Proof.
  induction bs as [|b bs IH]; intros [|a own] H1 H2; try discriminate; constructor.
  - inversion H2; subst. injection H1 as H1 _. split; [now apply joins_read|exact H1].
  - inversion H2; subst. injection H1 as _ H1. now apply IH.
Qed.
Lemma html_overs L b old l : joins L (list_of b) l -> html_over L b old (l, over_fmt (snd old) b).
Proof. intros H. split; [now apply joins_read|]. now repeat split. Qed.

Lemma combine_snd {A B} (l : list A) : forall (m : list B), length m = length l -> map (fun y : A * B => snd y) (combine l m) = m.
Proof. induction l as [|a l IH]; intros [|c m] H; try easy. cbn. f_equal. apply IH. now injection H. Qed.

(** Everything about an insertion. *)
Lemma insert_html_full L ps n es :
  let d := l_doc L in
  let its := items_of (d_runs d) ps in
  let bs := flatten_to_blocks es in
  wf d ps -> fresh d ps -> n <= length its -> one_bare bs \/ ~ before_empty_end n its ->
  exists L' ps' k, insert_html_at L (Z.of_nat n) (Z.of_nat n) es = Ok (L', Z.of_nat (html_end n bs its), Z.of_nat k)
   /\ wf (l_doc L') ps' /\ fresh (l_doc L') ps'
   /\ items_of (d_runs (l_doc L')) ps' = with_html n bs its
   /\ d_nblocks (l_doc L') = (d_nblocks d + Z.of_nat (html_added n bs its))%Z
   /\ d_chars (l_doc L') = (d_chars d + Z.of_nat (count_chars (html_items n bs its)) - Z.of_nat (missed n bs its))%Z
   /\ (length bs <> 1 \/ one_bare bs \/ at_start n its = true -> k = html_added n bs its)
   /\ (one_bare bs -> para_attrs (l_doc L') = para_attrs d /\ l_lists L' = l_lists L /\ l_next L' = l_next L)
   /\ (~ one_bare bs -> exists cur head own,
        nth_error (para_attrs d) (breaks n its) = Some (Some cur)
        /\ para_attrs (l_doc L') = firstn (breaks n its) (para_attrs d)
             ++ map Some (head :: own ++ (if cut_off n bs its then [if takes_place n bs its then (None, bfmt_default) else cur] else []))
             ++ skipn (S (breaks n its)) (para_attrs d)
        /\ (lists_numbered L ->
             (if takes_place n bs its then exists b rest, bs = b :: rest /\ html_over L' b cur head else head = cur)
             /\ Forall2 (html_read L') (html_own n bs its) own /\ more_lists L L' /\ lists_numbered L')).
Proof.
  intros d its bs W F Hn C.
  destruct (wf_loc _ _ (Z.of_nat n) W) as (pre & b & t & post & i & E & Hi & Hp). subst ps.
  assert (Hc : n = cpre pre + i).
  { rewrite <- Hp. unfold its in Hn. rewrite items_length in Hn. unfold clipz. lia. }
  destruct (find_fresh _ _ _ _ _ _ _ W F Hi Hp) as (x & Ex & Px & Ef).
  pose proof (find_block_some _ _ _ Ex) as [Hid _].
  assert (Br : breaks n its = length pre).
  { unfold its. rewrite Hc. apply breaks_items. exact Hi. }
  assert (Ncur : nth_error (para_attrs d) (length pre) = Some (Some (b_list x, b_fmt x))).
  { unfold para_attrs. rewrite (wf_order _ _ W), map_map, map_app. rewrite nth_error_app2 by (rewrite map_length; lia). rewrite map_length, Nat.sub_diag. cbn [map nth_error fst].
    unfold attr. now rewrite Ex. }
  unfold insert_html_at. fold bs. assert (Bne : bs <> []) by apply blocks_ne. clearbody bs.
  unfold insert_parsed_html. fold d. rewrite Z.eqb_refl. cbn [negb]. rewrite (fresh_order _ _ W F), Ef. cbn [bind]. rewrite Hid, (wf_content _ _ _ _ _ W). cbn [bind].
  rewrite (wf_images _ _ W), Nat2Z.id, lob_nil, boff_split.
  destruct (cut_at t i Hi) as (before & after & -> & Lb). rewrite (firstn_before _ _ _ Lb). subst i.
  assert (S1 : byte_slice (before ++ after) 0 (blen before) = Ok before).
  { pose proof (slice_0_boff (before ++ after) (length before)) as H. rewrite boff_split, firstn_before in H by easy. exact H. }
  assert (As : at_start n its = is_nil before) by (unfold its; rewrite Hc; apply start_is).
  assert (Ae : at_end n its = is_nil after) by (unfold its; rewrite Hc; apply end_is).
  assert (Tb : to_break (skipn n its) = length after) by (unfold its; rewrite Hc; apply break_is).
  destruct bs as [|first [|g rest]]; [easy| |].
  - destruct (is_inline first) eqn:Ei.
    + destruct (merge_full d pre b (before ++ after) post (length before) (Z.of_nat n) x first W F Hi Ex Px) as (d' & Em & W' & I' & A' & C' & N' & F').
      rewrite (firstn_before _ _ _ eq_refl) in Em. rewrite Em. cbn [bind].
      assert (Es : html_before n [first] its = [] /\ html_after n [first] its = [] /\ items_of_blocks [first] = block_items first).
      { unfold html_before, html_after, break_after. cbn [rev app break_before]. rewrite Ei. cbn [items_of_blocks].
        destruct (at_start n its), (at_end n its); repeat split; cbn; now rewrite ?app_nil_r. }
      destruct Es as (E1 & E2 & E3).
      assert (Es : html_items n [first] its = block_items first) by (unfold html_items; now rewrite E1, E2, E3, app_nil_r).
      eexists (mk_ldoc d' (l_lists L) (l_next L)), _, 0. cbn [l_doc l_lists l_next]. split.
      { f_equal. f_equal. f_equal. unfold html_end. rewrite E1, E2, E3. cbn [app length]. rewrite block_items_length. destruct (single [first] && at_start n its); lia. }
      split; [exact W'|]. split; [exact F'|]. split; [rewrite I'; unfold with_html; now rewrite Es, <- Hc|].
      assert (A0 : html_added n [first] its = 0) by (unfold html_added; now rewrite Es, no_break_in). rewrite A0.
      split; [rewrite N'; lia|]. split; [rewrite C', Es, chars_in; unfold missed; rewrite Ei; cbn [orb]; lia|]. split; [easy|]. split; [easy|].
      intros X. exfalso. apply X. exists first. split; [easy|]. now apply inline_bare.
    + assert (Nb : ~ one_bare [first]) by (intros (y & Ey & By); injection Ey as <-; apply inline_bare in By; congruence).
      destruct C as [C|Hb]; [easy|].
      rewrite Hc in Hb. pose proof (not_before_end _ _ _ _ _ _ Hi Hb) as Hpost.
      rewrite S1. cbn [bind].
      pose proof (make_list_ok L (list_of first)) as Hm.
      destruct (make_list L (list_of first)) as [L1 l].
      assert (Ba : break_before [first] = [Brk] /\ break_after [first] = [Brk]) by (unfold break_after; cbn [rev app break_before]; now rewrite Ei).
      destruct Ba as [B1 B2].
      destruct (is_nil before) eqn:En.
      * pose proof En as En'. apply is_nil_true in En'.
        destruct (html_full d pre b before after post x (Some (first, l)) None [] None true W F Ex Px Hpost ltac:(intros _; now split)) as (d' & ps' & Em & W' & F' & I' & N' & C' & A').
        rewrite Em. cbn [bind]. cbn [andb is_none orb] in *. rewrite andb_true_r in *. cbn [map flat_map length opt_items fst] in *. rewrite app_nil_r in *.
        assert (Es : html_before n [first] its = [] /\ html_after n [first] its = (if is_nil after then [] else [Brk])).
        { unfold html_before, html_after. rewrite As, Ae, B2. cbn [orb]. rewrite andb_true_r. now split. }
        destruct Es as (E1 & E2).
        assert (Es : html_items n [first] its = block_items first ++ (if is_nil after then [] else [Brk])).
        { unfold html_items. rewrite E1, E2. reflexivity. }
        assert (A0 : html_added n [first] its = if is_nil after then 0 else 1).
        { unfold html_added. rewrite Es, filter_app, no_break_in. now destruct (is_nil after). }
        eexists (mk_ldoc d' (l_lists L1) (l_next L1)), ps', (if is_nil after then 0 else 1). cbn [l_doc l_lists l_next].
        split.
        { f_equal. f_equal. f_equal. unfold html_end. rewrite E1, As. cbn [single andb app items_of_blocks]. rewrite <- Hc. lia. }
        split; [exact W'|]. split; [exact F'|]. split.
        { rewrite I', <- Hc. unfold with_html. rewrite Es. fold its. now rewrite <- !app_assoc. }
        split; [rewrite N', A0; cbn; now destruct (is_nil after)|]. split.
        { rewrite C', Es, count_chars_app, chars_in. unfold missed. rewrite Ei, As, ?En. cbn [orb negb]. rewrite Tb.
          cbn [opt_length text_length fold_right]. destruct (is_nil after); cbn [count_chars filter is_break negb length]; lia. }
        split; [intros _; now rewrite A0|]. split; [easy|].
        intros _. exists (b_list x, b_fmt x), (l, over_fmt (b_fmt x) first), []. rewrite Br. split; [exact Ncur|].
        assert (Tp : takes_place n [first] its = true) by (unfold takes_place; now rewrite As, Ei).
        assert (Co : cut_off n [first] its = negb (is_nil after)) by (unfold cut_off; rewrite As, Ae, B2; cbn; now rewrite andb_true_r, orb_false_r).
        rewrite Tp, Co. split.
        { rewrite A'. cbn [head_attr tail_attr app]. now destruct (is_nil after). }
        intros Hln. specialize (Hm Hln). destruct Hm as (M1 & M2 & M3).
        destruct (lists_same L L1 (mk_ldoc d' (l_lists L1) (l_next L1)) [list_of first] [l] eq_refl eq_refl ltac:(repeat split; [repeat constructor; easy|easy|easy])) as (J & J2 & J3).
        split; [exists first, []; split; [easy|]; apply html_overs; now inversion J|]. split; [|now split].
        unfold html_own. rewrite Tp. unfold own_paragraphs. cbn [rev app]. rewrite Ei. constructor.
      * destruct (html_full d pre b before after post x None None [(first, l)] None false W F Ex Px Hpost ltac:(easy)) as (d' & ps' & Em & W' & F' & I' & N' & C' & A').
        rewrite Em. cbn [bind]. cbn [andb is_none orb] in *. cbn [map flat_map length opt_items fst app] in *. rewrite app_nil_r in *.
        assert (Es : html_before n [first] its = [Brk] /\ html_after n [first] its = [Brk]).
        { unfold html_before, html_after. rewrite As, B1, B2. cbn [orb single negb]. now rewrite andb_false_r. }
        destruct Es as (E1 & E2).
        assert (Es : html_items n [first] its = [Brk] ++ block_items first ++ [Brk]).
        { unfold html_items. rewrite E1, E2. reflexivity. }
        assert (A0 : html_added n [first] its = 2).
        { unfold html_added. rewrite Es, !filter_app, no_break_in. reflexivity. }
        eexists (mk_ldoc d' (l_lists L1) (l_next L1)), ps', 1. cbn [l_doc l_lists l_next].
        split.
        { f_equal. f_equal. f_equal. unfold html_end. rewrite E1, E2, As. cbn [single andb app items_of_blocks length]. rewrite <- Hc. lia. }
        split; [exact W'|]. split; [exact F'|]. split.
        { rewrite I', <- Hc. unfold with_html. rewrite Es. fold its. repeat (rewrite <- ?app_assoc; cbn [app]). reflexivity. }
        split; [rewrite N', A0; reflexivity|]. split.
        { rewrite C', Es, !count_chars_app, chars_in. unfold missed. rewrite As, ?En. cbn [negb]. rewrite orb_true_r. cbn [opt_length text_length fold_right]. change (count_chars [Brk]) with 0. lia. }
        split; [intros [X|[X|X]]; [easy|easy|congruence]|]. split; [easy|].
        intros _. exists (b_list x, b_fmt x), (b_list x, b_fmt x), [(l, html_fmt first)]. rewrite Br. split; [exact Ncur|].
        assert (Tp : takes_place n [first] its = false) by (unfold takes_place; now rewrite As).
        assert (Co : cut_off n [first] its = true) by (unfold cut_off; rewrite As, Ae, B2; cbn; now rewrite andb_false_r).
        rewrite Tp, Co. split; [exact A'|].
        intros Hln. specialize (Hm Hln). destruct Hm as (M1 & M2 & M3).
        destruct (lists_same L L1 (mk_ldoc d' (l_lists L1) (l_next L1)) [list_of first] [l] eq_refl eq_refl ltac:(repeat split; [repeat constructor; easy|easy|easy])) as (J & J2 & J3).
        split; [reflexivity|]. split; [|now split].
        unfold html_own. rewrite Tp. unfold own_paragraphs. cbn [rev app]. rewrite Ei. cbn [skipn]. now apply html_reads.
  - assert (Nb : ~ one_bare (first :: g :: rest)) by (intros (y & Ey & _); discriminate).
    destruct C as [C|Hb]; [easy|].
    rewrite Hc in Hb. pose proof (not_before_end _ _ _ _ _ _ Hi Hb) as Hpost. rewrite S1. cbn [bind].
    set (bs := first :: g :: rest) in *. set (last_ := last (g :: rest) first) in *.
    assert (Eb : bs = first :: removelast (g :: rest) ++ [last_]).
    { unfold bs. f_equal. apply app_removelast_last. easy. }
    destruct (html_shape first (removelast (g :: rest)) last_ n its) as (Tp & Eo & Co & Sg & Es). rewrite <- Eb in Tp, Eo, Co, Sg, Es.
    rewrite As in Tp, Eo, Es. rewrite Ae in Co, Es. rewrite <- Eo in Es. rewrite <- Eo.
    set (mids := html_own n bs its) in *. set (over := is_nil before && negb (is_inline first)) in *.
    pose proof (fun Hln => place_lists_ok (map listed (if over then first :: mids else mids)) L (first_grouper L over (b_list x)) Hln (first_grouper_ok L over (b_list x))) as Hm.
    pose proof (place_lists_length (map listed (if over then first :: mids else mids)) L (first_grouper L over (b_list x))) as Hl. rewrite map_length in Hl.
    destruct (place_lists L (first_grouper L over (b_list x)) (map listed (if over then first :: mids else mids))) as [L1 lids]. cbn [snd] in Hl.
    set (ml := is_inline last_) in *. fold (opt ml last_). fold (opt (is_inline first) first).
    set (ov := if over then Some (first, hd None lids) else None). set (lids' := if over then tl lids else lids).
    assert (Hl' : length lids' = length mids) by (unfold lids'; destruct over; [destruct lids; cbn in *; lia|easy]).
    destruct (html_full d pre b before after post x ov (opt (is_inline first) first) (combine mids lids') (opt ml last_) true W F Ex Px Hpost) as (d' & ps' & Em & W' & F' & I' & N' & C' & A').
    { unfold ov, over. intros X. destruct (is_nil before) eqn:En; [|easy]. apply is_nil_true in En. destruct (is_inline first); [easy|]. now split. }
    rewrite Em. cbn [bind]. cbn [andb] in *.
    assert (Eoe : match ov with Some (pb, _) => Some pb | None => opt (is_inline first) first end = opt (is_inline first || over) first).
    { unfold ov, over. destruct (is_nil before), (is_inline first); reflexivity. }
    rewrite Eoe in *.
    assert (Cf : map (fun y : pblock * option id => block_items (fst y)) (combine mids lids') = map block_items mids)
      by (rewrite <- (map_map fst block_items), combine_fst; easy).
    rewrite Cf in *. assert (Cl : length (combine mids lids') = length mids) by (rewrite combine_length; lia). rewrite Cl in *.
    assert (Esk : is_nil after && is_none (opt ml last_) = is_nil after && negb ml) by (now destruct ml).
    rewrite Esk in *. set (skip := is_nil after && negb ml) in *.
    assert (A0 : html_added n bs its = length mids + (if skip then 0 else 1)).
    { unfold html_added. rewrite Es, !filter_app, !app_length, opt_breaks, mids_breaks. cbn [length].
      destruct skip; [easy|]. cbn [filter is_break]. now rewrite opt_breaks. }
    eexists (mk_ldoc d' (l_lists L1) (l_next L1)), ps', (length mids + (if skip then 0 else 1)). cbn [l_doc l_lists l_next].
    split.
    { f_equal. f_equal. f_equal.
      assert (He : html_end n bs its = n + length (html_items n bs its)).
      { unfold html_end, html_items. rewrite Sg. cbn [andb]. rewrite !app_length. clear. lia. }
      rewrite He, Es, <- Hc. rewrite (app_length (_ ++ _)). clearbody skip ml mids over last_. clear. destruct skip; [cbn [length]; lia|]. destruct ml; cbn [opt opt_items length]; [rewrite block_items_length|]; lia. }
    split; [exact W'|]. split; [exact F'|]. split.
    { rewrite I', <- Hc. unfold with_html. rewrite Es. fold its. now rewrite <- !app_assoc. }
    split; [rewrite N', A0; reflexivity|]. split.
    { rewrite C', Es, !count_chars_app, opt_chars, mids_chars. rewrite combine_fst by easy.
      assert (Lt : count_chars (if skip then [] else Brk :: opt_items (opt ml last_)) = opt_length (opt ml last_)).
      { unfold skip. destruct ml; cbn [negb]; [rewrite andb_false_r; exact (opt_chars (opt true last_))|]. now destruct (is_nil after && true). }
      rewrite Lt.
      assert (Z0 : match opt (is_inline first || over) first with Some _ => Z.of_nat (length after) | None => 0%Z end = Z.of_nat (missed n bs its)).
      { unfold missed, bs, over. rewrite As, Tb. destruct (is_inline first), (is_nil before); reflexivity. }
      rewrite Z0. generalize (missed n bs its). clear. lia. }
    split; [intros _; now rewrite A0|]. split; [easy|].
    intros _. exists (b_list x, b_fmt x), (head_attr x ov), (map (fun y => (snd y, html_fmt (fst y))) (combine mids lids')). rewrite Br.
    split; [exact Ncur|]. rewrite Tp, Co. split.
    { rewrite A'. unfold tail_attr, ov. destruct skip; cbn [negb]; [reflexivity|]. now destruct over. }
    intros Hln. specialize (Hm Hln). rewrite map_map in Hm.
    destruct (lists_same L L1 (mk_ldoc d' (l_lists L1) (l_next L1)) _ _ eq_refl eq_refl Hm) as (J & J2 & J3).
    assert (Jm : Forall2 (joins (mk_ldoc d' (l_lists L1) (l_next L1))) (map list_of mids) lids').
    { unfold lids'. destruct over; [|exact J]. cbn [map] in J. inversion J; subst. easy. }
    split; [|split; [|now split]].
    + unfold ov. destruct over; [|reflexivity]. exists first, (g :: rest). split; [easy|]. cbn [head_attr]. apply (html_overs _ first (b_list x, b_fmt x)).
      cbn [map] in J. inversion J; subst. easy.
    + apply html_reads.
      * rewrite map_map. cbn [snd]. rewrite <- (map_map fst html_fmt), combine_fst; easy.
      * rewrite map_map. cbn [fst]. now rewrite combine_snd.
Qed.

Lemma html_theorem L its n es : tidy (l_doc L) -> doc_items (l_doc L) = Ok its -> n <= length its ->
  let bs := flatten_to_blocks es in one_bare bs \/ ~ before_empty_end n its ->
  exists L' k, insert_html_at L (Z.of_nat n) (Z.of_nat n) es = Ok (L', Z.of_nat (html_end n bs its), k)
   /\ doc_items (l_doc L') = Ok (with_html n bs its)
   /\ fresh_positions (l_doc L')
   /\ d_nblocks (l_doc L') = (d_nblocks (l_doc L) + Z.of_nat (html_added n bs its))%Z
   /\ d_chars (l_doc L') = (d_chars (l_doc L) + Z.of_nat (count_chars (html_items n bs its)) - Z.of_nat (missed n bs its))%Z
   /\ (one_bare bs \/ at_end n its = true \/ stands_alone n bs its -> missed n bs its = 0)
   /\ (length bs <> 1 \/ one_bare bs \/ at_start n its = true -> k = Z.of_nat (html_added n bs its)).
Proof.
  intros T E Hn bs C. destruct (tidy_facts _ T) as (_ & ps & W & F). rewrite (doc_items_wf _ _ W) in E. injection E as <-.
  destruct (insert_html_full L ps n es W F Hn C) as (L' & ps' & k & E' & W' & F' & I' & N' & C' & K' & _).
  exists L', (Z.of_nat k). split; [exact E'|]. split; [now rewrite (doc_items_wf _ _ W'), I'|].
  split; [now apply (fresh_equiv _ _ W')|]. split; [exact N'|]. split; [exact C'|]. split; [apply missed_none|]. intros H. now rewrite K'.
Qed.

Lemma html_attrs_theorem L its n es : tidy (l_doc L) -> lists_numbered L -> doc_items (l_doc L) = Ok its -> n <= length its ->
  let bs := flatten_to_blocks es in let k := breaks n its in let before := para_attrs (l_doc L) in
  one_bare bs \/ ~ before_empty_end n its ->
  exists L' np c, insert_html_at L (Z.of_nat n) (Z.of_nat n) es = Ok (L', np, c)
   /\ (one_bare bs -> para_attrs (l_doc L') = before)
   /\ (~ one_bare bs -> exists cur head own, nth_error before k = Some (Some cur)
        /\ para_attrs (l_doc L') = firstn k before
             ++ map Some (head :: own ++ (if cut_off n bs its then [if takes_place n bs its then (None, bfmt_default) else cur] else []))
             ++ skipn (S k) before
        /\ (if takes_place n bs its then exists b rest, bs = b :: rest /\ html_over L' b cur head else head = cur)
        /\ Forall2 (html_read L') (html_own n bs its) own)
   /\ more_lists L L' /\ lists_numbered L'.
Proof.
  intros T Hln E Hn bs k before C. destruct (tidy_facts _ T) as (_ & ps & W & F). rewrite (doc_items_wf _ _ W) in E. injection E as <-.
  destruct (insert_html_full L ps n es W F Hn C) as (L' & ps' & c & E' & _ & _ & _ & _ & _ & _ & A1 & A2).
  eexists L', _, _. split; [exact E'|]. split; [intros H; now apply A1|]. split.
  - intros H. destruct (A2 H) as (cur & head & own & X1 & X2 & X3). exists cur, head, own. repeat (split; [assumption|]). destruct (X3 Hln) as (Y1 & Y2 & _). now split.
  - assert (D : one_bare bs \/ ~ one_bare bs).
    { unfold bs. destruct (flatten_to_blocks es) as [|y [|z r]]; [right; now intros (? & ? & _)| |right; now intros (? & ? & _)].
      destruct (is_inline y) eqn:Ey; [left; exists y; split; [easy|now apply inline_bare]|right]. intros (w & Ew & Bw). injection Ew as <-. apply inline_bare in Bw. congruence. }
    destruct D as [D|D].
    + destruct (A1 D) as (_ & X & Y). split.
      * intros j e H. now rewrite (get_list_same _ _ j X).
      * intros j Hj. rewrite (get_list_same _ _ j X). apply Hln. now rewrite <- Y.
    + destruct (A2 D) as (cur & head & own & _ & _ & X). destruct (X Hln) as (_ & _ & Y). exact Y.
Qed.

Lemma html_selected L p a es : p <> a -> insert_html_at L p a es = Err.
Proof. intros H. unfold insert_html_at, insert_parsed_html. apply Z.eqb_neq in H. now rewrite H. Qed.
