(** Facts on cursors. *)
From Verif Require Import Base BaseFacts FormatRunsModel FormatRunsSpec FormatRunsFacts
  RopeModel RopeSpec RopeFacts DocModel DocSpec BlockFacts DocInv DocFacts DocAttr DocDelete DocBreak DocReplace
  DocImport DocFormat HistModel HistSpec DocReach DocHist DocQuery QueryModel QuerySpec QueryFacts QueryText PropSpec DocTheorems
  QueryTheorems DiffModel DiffSpec DiffFacts CursorModel CursorSpec.

Lemma marks_ne t g : In g (marks t) -> g <> [].
Proof.
  revert g. induction t as [|c t IH]; cbn; [easy|]. intros g. destruct (marks t) as [|[|m x] rest]; cbn.
  - intros [<-|[]]. easy.
  - intros [<-|[<-|H]]; [easy| |apply IH; now right]. apply (IH []). now left.
  - destruct (_ && _); cbn.
    + intros [<-|H]; [easy|]. apply IH. now right.
    + intros [<-|[<-|H]]; try easy. apply IH. now right.
Qed.
Lemma marks_concat t : concat (marks t) = t.
Proof.
  induction t as [|c t IH]; cbn; [easy|]. destruct (marks t) as [|[|m x] rest]; cbn in *; try (now rewrite IH).
  destruct (_ && _); cbn; now rewrite IH.
Qed.
Lemma marks_split t : forall a b, marks t = a ++ b -> marks (concat a) = a /\ marks (concat b) = b.
Proof.
  assert (Z : forall t a b, marks t = a ++ b -> a = [] -> marks (concat a) = a /\ marks (concat b) = b).
  { intros u a b E ->. cbn in E. split; [easy|]. now rewrite <- E, marks_concat. }
  induction t as [|c t IH]; intros a b E.
  - cbn in E. symmetry in E. apply app_eq_nil in E. now destruct E as [-> ->].
  - destruct a as [|x a]; [now apply (Z (c :: t))|]. cbn [marks] in E. destruct (marks t) as [|[|m y] rest] eqn:Em.
    + cbn in E. injection E as <- E. symmetry in E. apply app_eq_nil in E. now destruct E as [-> ->].
    + exfalso. now apply (marks_ne t []); [rewrite Em; left|].
    + destruct (is_mark m && negb (c =? NL)%N) eqn:Eb.
      * injection E as <- E. destruct (IH ((m :: y) :: a) b) as [H1 H2]; [cbn; now rewrite E|]. split; [|easy].
        change (concat ((c :: m :: y) :: a)) with (c :: concat ((m :: y) :: a)). cbn [marks]. rewrite H1, Eb. easy.
      * injection E as <- E. destruct (IH a b E) as [H1 H2]. split; [|easy].
        change (concat ([c] :: a)) with (c :: concat a). cbn [marks]. rewrite H1. destruct a as [|z a]; [easy|].
        cbn in E. injection E as <- E. now rewrite Eb.
Qed.
Lemma marks_segmentation : segmentation marks.
Proof.
  split; [apply marks_concat|apply marks_ne|apply marks_split|].
  intros t. cbn [marks]. destruct (marks t) as [|[|m x] rest]; try easy. now rewrite andb_false_r.
Qed.

Section Seg.
Variable G : str -> list str.
Hypothesis HG : segmentation G.

(** ** Stops over paragraphs with ids *)
Fixpoint stops_ps (start : nat) (ps : list para) : list nat :=
  match ps with
  | [] => []
  | (b, t) :: rest => stops_of start (G t) ++ stops_ps (start + length t + 1) rest
  end.
Lemma stops_items R ps : ps <> [] -> stops G (items_of R ps) = stops_ps 0 ps.
Proof.
  intros H. unfold stops. rewrite paragraphs_items by easy. clear H. generalize 0 as s.
  induction ps as [|[b t] ps IH]; intros s; cbn [map stops_from stops_ps fst snd]; [easy|].
  unfold styled. rewrite plain_styled, styled_length. f_equal. apply IH.
Qed.

Definition clen (gs : list str) : nat := length (concat gs).
Lemma clen_app a b : clen (a ++ b) = clen a + clen b. Proof. unfold clen. now rewrite concat_app, app_length. Qed.
Lemma clen_cons g b : clen (g :: b) = length g + clen b. Proof. unfold clen. cbn. now rewrite app_length. Qed.
Lemma clen_nil : clen [] = 0. Proof. reflexivity. Qed.
Lemma clen_text t : clen (G t) = length t. Proof. unfold clen. now rewrite (seg_concat _ HG). Qed.

Lemma stops_of_length s gs : length (stops_of s gs) = S (length gs).
Proof. revert s. induction gs as [|g gs IH]; intros s; cbn; [easy|]. now rewrite IH. Qed.
Lemma stops_of_nth gs : forall s i, i <= length gs -> nth_error (stops_of s gs) i = Some (s + clen (firstn i gs)).
Proof.
  induction gs as [|g gs IH]; intros s [|i] H; cbn [stops_of nth_error firstn length] in *;
    try (f_equal; unfold clen; cbn; lia); try lia.
  rewrite IH by lia. rewrite clen_cons. f_equal. lia.
Qed.

(** Where the [i]-th stop is, and its neighbours. *)
Lemma stop_locate ps : forall s i p, nth_error (stops_ps s ps) i = Some p ->
  exists pre b t post g1 g2, ps = pre ++ (b, t) :: post /\ G t = g1 ++ g2
   /\ p = s + cpre pre + clen g1
   /\ nth_error (stops_ps s ps) (S i) = match g2 with
        | g :: _ => Some (p + length g)
        | [] => match post with [] => None | _ => Some (p + 1) end end
   /\ (forall g g', g1 = g' ++ [g] -> 0 < i /\ nth_error (stops_ps s ps) (i - 1) = Some (p - length g))
   /\ (g1 = [] -> pre <> [] -> 0 < i /\ nth_error (stops_ps s ps) (i - 1) = Some (p - 1))
   /\ (i = 0 -> pre = [] /\ g1 = []).
Proof.
  induction ps as [|[b t] ps IH]; intros s i p Hn; cbn [stops_ps] in *; [now destruct i|].
  set (S1 := stops_of s (G t)) in *. set (S2 := stops_ps (s + length t + 1) ps) in *.
  assert (L1 : length S1 = S (length (G t))) by apply stops_of_length.
  assert (H2 : forall q, nth_error S2 0 = Some q -> q = s + length t + 1).
  { unfold S2. destruct ps as [|[c u] ps]; cbn; [easy|]. destruct (G u); cbn; congruence. }
  destruct (Nat.lt_ge_cases i (length S1)) as [Hi|Hi].
  - rewrite nth_error_app1 in Hn by easy. unfold S1 in Hn. rewrite stops_of_nth in Hn by lia. injection Hn as <-.
    exists [], b, t, ps, (firstn i (G t)), (skipn i (G t)). split; [easy|]. split; [now rewrite firstn_skipn|].
    rewrite cpre_nil, Nat.add_0_r. split; [easy|]. split; [|split; [|split]].
    + destruct (skipn i (G t)) as [|g g2] eqn:Eg.
      * assert (i = length (G t)) as ->.
        { apply Nat.le_antisymm; [lia|]. pose proof (f_equal (@length str) Eg) as E. rewrite skipn_length in E. cbn in E. lia. }
        rewrite nth_error_app2 by lia. rewrite L1, Nat.sub_diag, firstn_all, clen_text.
        destruct ps as [|[c u] ps]; [easy|]. cbn. destruct (G u); cbn; easy.
      * assert (i < length (G t)). { pose proof (f_equal (@length str) Eg) as E. rewrite skipn_length in E. cbn in E. lia. }
        rewrite nth_error_app1 by lia. unfold S1. rewrite stops_of_nth by lia.
        assert (E : firstn (S i) (G t) = firstn i (G t) ++ [g]).
        { rewrite <- (firstn_skipn i (G t)) at 1. rewrite Eg. rewrite firstn_app. rewrite firstn_firstn, firstn_length, Nat.min_r by lia.
          replace (S i - Nat.min i (length (G t))) with 1 by lia. easy. }
        rewrite E, clen_app, clen_cons. unfold clen at 2. cbn. f_equal. lia.
    + intros g g' E. assert (0 < i) by (destruct i; [cbn in E; now destruct g'|lia]). split; [easy|].
      rewrite nth_error_app1 by lia. unfold S1. rewrite stops_of_nth by lia.
      assert (E' : firstn (i - 1) (G t) = g').
      { replace (i - 1) with (length g').
        - rewrite <- (firstn_skipn i (G t)), E, <- app_assoc. now rewrite firstn_exact.
        - pose proof (f_equal (@length str) E) as E2. rewrite firstn_length, app_length in E2. cbn in E2. lia. }
      rewrite E', E, clen_app, clen_cons. unfold clen at 3. cbn. f_equal. lia.
    + easy.
    + intros ->. split; easy.
  - rewrite nth_error_app2 in Hn by easy. destruct (IH _ _ _ Hn) as (pre & c & u & post & g1 & g2 & E1 & E2 & Ep & A1 & A2 & A3 & A4).
    exists ((b, t) :: pre), c, u, post, g1, g2. split; [now rewrite E1|]. split; [easy|]. rewrite cpre_cons. split; [lia|].
    rewrite !nth_error_app2 by lia. replace (S i - length S1) with (S (i - length S1)) by lia. split; [exact A1|].
    split; [|split; [|lia]].
    + intros g g' E. destruct (A2 g g' E) as [B1 B2]. split; [lia|]. rewrite nth_error_app2 by lia.
      replace (i - 1 - length S1) with (i - length S1 - 1) by lia. easy.
    + intros E Hp. split; [lia|]. destruct (Nat.eq_dec i (length S1)) as [->|Hne].
      * rewrite nth_error_app1 by lia. rewrite Nat.sub_diag in *. destruct A4 as [-> _]; [easy|].
        rewrite L1. unfold S1. rewrite stops_of_nth by lia. replace (S (length (G t)) - 1) with (length (G t)) by lia. rewrite firstn_all, clen_text.
        subst g1. cbn in Ep. rewrite Ep. f_equal. unfold cpre. cbn. lia.
      * rewrite nth_error_app2 by lia. replace (i - 1 - length S1) with (i - length S1 - 1) by lia.
        destruct g1; [|easy]. apply A3; [easy|].
        intros ->. destruct (i - length S1) as [|j] eqn:Ej; [lia|]. clear A2 A3.
        (* first paragraph, first stop, but index > 0 *)
        exfalso. cbn in E1, Ep. unfold S2 in Hn. rewrite E1 in Hn. cbn [stops_ps] in Hn.
        assert (Q : forall s' ps' j q, nth_error (stops_ps s' ps') (S j) = Some q -> s' < q).
        { clear - HG. intros s' ps'. revert s'. induction ps' as [|[b t] ps' IH]; intros s' j q; cbn [stops_ps]; [easy|].
          intros H. destruct (Nat.lt_ge_cases (S j) (length (stops_of s' (G t)))) as [Hj|Hj].
          - rewrite nth_error_app1 in H by easy. rewrite stops_of_length in Hj. rewrite stops_of_nth in H by lia. injection H as <-.
            destruct (G t) as [|g gs] eqn:Eg; [cbn in Hj; lia|]. cbn [firstn]. rewrite clen_cons.
            assert (g <> []) by (apply (seg_nonempty _ HG t); rewrite Eg; now left). destruct g; [easy|cbn; lia].
          - rewrite nth_error_app2 in H by easy. destruct (S j - length (stops_of s' (G t))) as [|k].
            + destruct ps' as [|[c u] ps']; [easy|]. cbn in H. destruct (G u); cbn in H; injection H as <-; lia.
            + apply IH in H. lia. }
        specialize (Q _ ((c, u) :: post) _ _ Hn). cbn in Q. lia.
Qed.

Lemma first_stop s ps p : nth_error (stops_ps s ps) 0 = Some p -> p = s.
Proof. destruct ps as [|[b t] ps]; cbn; [easy|]. destruct (G t); cbn; congruence. Qed.

(** ** Movement on a well-formed document whose counters are right *)
Section Doc.
Variables (d : doc) (ps : list para).
Hypothesis W : wf d ps.
Hypothesis D : drift d ps = (0, 0)%Z.

Lemma max_wf : max_cursor_position d = Ok (ctotal ps).
Proof.
  unfold drift in D. injection D as D1 D2. unfold max_cursor_position.
  replace (d_chars d) with (Z.of_nat (csum ps)) by lia. replace (d_nblocks d) with (Z.of_nat (length ps)) by lia.
  rewrite !to_usize_nat. cbn [bind]. f_equal.
  pose proof (csum_ctotal ps (wf_ne _ _ W)). assert (0 < length ps) by (pose proof (wf_ne _ _ W); destruct ps; [easy|cbn; lia]).
  destruct (Nat.ltb_spec 1 (length ps)); lia.
Qed.

Lemma block_info_wf pre b t post i : ps = pre ++ (b, t) :: post -> i <= length t ->
  block_info d (cpre pre + i) = match post with
  | (c, u) :: _ => if (0 <? length t) && (i =? length t) then Ok (cpre pre + length t + 1, length u) else Ok (cpre pre, length t)
  | [] => Ok (cpre pre, length t) end.
Proof.
  intros -> Hi. unfold block_info.
  rewrite (block_at_full d pre b t post i (Z.of_nat (cpre pre + i)) W Hi)
    by (unfold clipz; rewrite ctotal_mid; lia).
  destruct post as [|[c u] post]; [|destruct (_ && _)]; cbn [bind]; rewrite !to_usize_nat; reflexivity.
Qed.

Lemma text_info_wf pre b t post i n : ps = pre ++ (b, t) :: post -> i <= length t ->
  text_info d (cpre pre + i) n = Ok (firstn n (skipn (cpre pre + i) (join (map snd ps)))).
Proof.
  intros E Hi. unfold text_info. destruct (text_at_wf d ps (Z.of_nat (cpre pre + i)) (Z.of_nat n) W ltac:(lia)) as [A _].
  rewrite (A _ _ _ _ _ E Hi eq_refl). cbn [bind]. now rewrite !Nat2Z.id.
Qed.

Lemma join_skip pre b t post i : ps = pre ++ (b, t) :: post -> i <= length t ->
  skipn (cpre pre + i) (join (map snd ps)) = skipn i t ++ jpost (segs post).
Proof.
  intros -> Hi. rewrite <- segs_snd, segs_mid, join_mid. unfold cpre.
  rewrite Nat.add_comm, <- skipn_skipn, skipn_exact by easy. rewrite skipn_app.
  replace (i - length t) with 0 by lia. easy.
Qed.

Lemma skip_concat (a b : list str) : skipn (clen a) (concat (a ++ b)) = concat b.
Proof. rewrite concat_app. now rewrite skipn_exact. Qed.
Lemma first_concat (a b : list str) : firstn (clen a) (concat (a ++ b)) = concat a.
Proof. rewrite concat_app. now rewrite firstn_exact. Qed.

Lemma next_wf pre b t post g1 g2 : ps = pre ++ (b, t) :: post -> G t = g1 ++ g2 ->
  next_grapheme G d (cpre pre + clen g1) =
  Ok (match g2 with g :: _ => cpre pre + clen g1 + length g
      | [] => match post with [] => cpre pre + clen g1 | _ => cpre pre + clen g1 + 1 end end).
Proof.
  intros E Eg. pose proof (clen_text t) as Ct. rewrite Eg, clen_app in Ct.
  assert (Tot : ctotal ps = cpre pre + length t + cpre post) by (rewrite E; apply ctotal_mid).
  unfold next_grapheme. rewrite max_wf. cbn [or_default bind].
  assert (Hi : clen g1 <= length t) by lia.
  rewrite (block_info_wf _ _ _ _ _ E Hi).
  destruct g2 as [|g g2].
  - change (clen []) with 0 in Ct. rewrite Nat.add_0_r in Ct.
    destruct post as [|[c u] post].
    + change (cpre []) with 0 in Tot. rewrite (proj2 (Nat.leb_le _ _)) by lia. easy.
    + rewrite cpre_cons in Tot. destruct (Nat.leb_spec (ctotal ps) (cpre pre + clen g1)); [lia|].
      destruct (Nat.ltb_spec 0 (length t)) as [Ht|Ht]; cbn [andb].
      * rewrite Ct, Nat.eqb_refl. replace (cpre pre + length t - (cpre pre + length t + 1)) with 0 by lia.
        destruct u as [|c0 u]; cbn [length Nat.leb]; [f_equal; lia|].
        rewrite Nat.sub_0_r. rewrite (text_info_wf _ _ _ _ _ _ E (Nat.le_refl _)), (join_skip _ _ _ _ _ E (Nat.le_refl _)).
        rewrite skipn_all. rewrite segs_cons, jpost_cons. cbn [app firstn]. rewrite (seg_newline _ HG). f_equal. cbn [length]. lia.
      * replace (cpre pre + clen g1 - cpre pre) with (length t) by lia. rewrite Nat.leb_refl. f_equal. lia.
  - rewrite clen_cons in Ct. assert (Hg : g <> []) by (apply (seg_nonempty _ HG t); rewrite Eg, in_app_iff; right; now left).
    assert (0 < length g) by (destruct g; [easy|cbn; lia]).
    destruct (Nat.leb_spec (ctotal ps) (cpre pre + clen g1)); [lia|].
    replace (match post with [] => Ok (cpre pre, length t) | (c, u) :: _ => if (0 <? length t) && (clen g1 =? length t) then Ok (cpre pre + length t + 1, length u) else Ok (cpre pre, length t) end)
      with (Ok (cpre pre, length t)).
    2:{ destruct post as [|[c u] post]; [easy|]. rewrite (proj2 (Nat.eqb_neq _ _)) by lia. now rewrite andb_false_r. }
    replace (cpre pre + clen g1 - cpre pre) with (clen g1) by lia.
    destruct (Nat.leb_spec (length t) (clen g1)); [lia|].
    rewrite (text_info_wf _ _ _ _ _ _ E Hi), (join_skip _ _ _ _ _ E Hi).
    rewrite firstn_exact by (rewrite skipn_length; lia).
    replace (skipn (clen g1) t) with (concat (g :: g2)) by (rewrite <- (seg_concat _ HG t), Eg; symmetry; apply skip_concat).
    rewrite (proj2 (seg_split _ HG t g1 (g :: g2) Eg)). destruct g as [|x g]; [easy|]. f_equal. lia.
Qed.

Lemma prev_wf pre b t post g1 g2 : ps = pre ++ (b, t) :: post -> G t = g1 ++ g2 ->
  (forall g g', g1 = g' ++ [g] -> prev_grapheme G d (cpre pre + clen g1) = Ok (cpre pre + clen g1 - length g))
  /\ (g1 = [] -> prev_grapheme G d (cpre pre) = Ok (cpre pre - 1)).
Proof.
  intros E Eg. pose proof (clen_text t) as Ct. rewrite Eg, clen_app in Ct. split.
  - intros g g' E1. assert (Hg : g <> []).
    { apply (seg_nonempty _ HG t). rewrite Eg, E1, !in_app_iff. left. right. now left. }
    assert (Lg : 0 < length g) by (destruct g; [easy|cbn; lia]).
    assert (Cg : clen g1 = clen g' + length g) by (rewrite E1, clen_app, clen_cons, clen_nil; lia).
    unfold prev_grapheme. rewrite (proj2 (Nat.eqb_neq _ _)) by lia.
    replace (cpre pre + clen g1 - 1) with (cpre pre + (clen g1 - 1)) by lia.
    rewrite (block_info_wf _ _ _ _ (clen g1 - 1) E) by lia.
    replace (match post with [] => Ok (cpre pre, length t) | (c, u) :: _ => if (0 <? length t) && (clen g1 - 1 =? length t) then Ok (cpre pre + length t + 1, length u) else Ok (cpre pre, length t) end)
      with (Ok (cpre pre, length t)).
    2:{ destruct post as [|[c u] post]; [easy|]. rewrite (proj2 (Nat.eqb_neq _ _)) by lia. now rewrite andb_false_r. }
    destruct (Nat.ltb_spec (cpre pre + length t) (cpre pre + clen g1)); [lia|].
    rewrite (proj2 (Nat.eqb_neq (length t) 0)) by lia. destruct (Nat.leb_spec (cpre pre + clen g1) (cpre pre)); [lia|]. cbn [orb].
    pose proof (text_info_wf _ _ _ _ 0 (clen g1) E ltac:(lia)) as Ht. rewrite Nat.add_0_r in Ht.
    replace (cpre pre + clen g1 - cpre pre) with (clen g1) by lia. rewrite Ht.
    pose proof (join_skip _ _ _ _ 0 E ltac:(lia)) as Hj. rewrite Nat.add_0_r in Hj. rewrite Hj. cbn [skipn].
    replace (firstn (clen g1) (t ++ jpost (segs post))) with (concat g1).
    2:{ rewrite <- (seg_concat _ HG t), Eg, concat_app, <- app_assoc. now rewrite firstn_exact. }
    rewrite (proj1 (seg_split _ HG t g1 g2 Eg)), E1, rev_app_distr. cbn [rev app].
    destruct g as [|x g]; [easy|]. rewrite (proj2 (Nat.leb_le _ _)) by (rewrite <- E1; lia). rewrite <- E1. easy.
  - intros ->. unfold prev_grapheme. destruct (Nat.eqb_spec (cpre pre) 0) as [->|Hp]; [easy|].
    destruct pre as [|q pre] using rev_ind; [easy|]. clear IHpre. destruct q as [c u].
    rewrite <- app_assoc in E. cbn in E.
    assert (Ec : cpre (pre ++ [(c, u)]) = cpre pre + length u + 1) by (rewrite cpre_app, cpre_cons, cpre_nil; lia).
    rewrite Ec. replace (cpre pre + length u + 1 - 1) with (cpre pre + length u) by lia.
    rewrite (block_info_wf _ _ _ _ (length u) E) by lia. rewrite Nat.eqb_refl, andb_true_r.
    destruct (Nat.ltb_spec 0 (length u)).
    + rewrite (proj2 (Nat.ltb_ge _ _)) by lia. rewrite Nat.leb_refl, orb_true_r. easy.
    + rewrite (proj2 (Nat.ltb_lt _ _)) by lia. easy.
Qed.

(** ** Snapping *)
Lemma snap_go_spec gs : forall acc off, acc <= off -> off <= acc + clen gs ->
  exists g1 g2, gs = g1 ++ g2 /\ snap_go gs acc off = acc + clen g1 /\ off <= acc + clen g1
   /\ (forall h1 h2, gs = h1 ++ h2 -> off <= acc + clen h1 -> clen g1 <= clen h1).
Proof.
  induction gs as [|g gs IH]; intros acc off H1 H2; cbn [snap_go].
  - exists [], []. change (clen []) with 0 in *. repeat split; lia.
  - rewrite clen_cons in H2. destruct (Nat.leb_spec off acc).
    + exists [], (g :: gs). change (clen []) with 0. repeat split; try lia.
    + destruct (Nat.le_gt_cases off (acc + length g)) as [Hle|Hgt].
      * exists [g], gs. rewrite clen_cons, clen_nil, Nat.add_0_r. split; [easy|]. split; [|split; [lia|]].
        -- destruct gs as [|g' gs]; cbn [snap_go]; [easy|]. now rewrite (proj2 (Nat.leb_le _ _) Hle).
        -- intros [|x h1] h2 E Hh.
           ++ change (clen []) with 0 in *. lia.
           ++ cbn in E. injection E as <- E. rewrite clen_cons. lia.
      * destruct (IH (acc + length g) off ltac:(lia) ltac:(lia)) as (g1 & g2 & E & Es & Ho & Hm).
        exists (g :: g1), g2. rewrite clen_cons, E. split; [easy|]. split; [rewrite <- E, Es; lia|]. split; [lia|].
        intros [|x h1] h2 E' Hh.
        -- change (clen []) with 0 in *. lia.
        -- cbn in E'. injection E' as <- E'. rewrite clen_cons in *. assert (clen g1 <= clen h1); [|lia].
           apply (Hm h1 h2); [congruence|lia].
Qed.

Lemma stop_in qs : forall s, (exists pre b t post g1 g2, qs = pre ++ (b, t) :: post /\ G t = g1 ++ g2 /\ s = cpre pre + clen g1) <-> In s (stops_ps 0 qs).
Proof.
  assert (Q : forall qs k s, (exists pre b t post g1 g2, qs = pre ++ (b, t) :: post /\ G t = g1 ++ g2 /\ s = k + cpre pre + clen g1) <-> In s (stops_ps k qs)).
  { clear. induction qs as [|[b t] qs IH]; intros k s; cbn [stops_ps].
    - split; [|easy]. intros (pre & ? & ? & ? & ? & ? & E & _). now destruct pre.
    - rewrite in_app_iff. assert (Q1 : In s (stops_of k (G t)) <-> exists g1 g2, G t = g1 ++ g2 /\ s = k + clen g1).
      { generalize (G t). intros gs. clear IH. revert k. induction gs as [|g gs IH]; intros k; cbn.
        - split; [intros [<-|[]]; exists [], []; split; [easy|unfold clen; cbn; lia]|].
          intros (g1 & g2 & E & ->). left. symmetry in E. apply app_eq_nil in E. destruct E as [-> _]. unfold clen. cbn. lia.
        - rewrite IH. split.
          + intros [<-|(g1 & g2 & -> & ->)]; [exists [], (g :: gs); split; [easy|unfold clen; cbn; lia]|].
            exists (g :: g1), g2. rewrite clen_cons. split; [easy|lia].
          + intros ([|x g1] & g2 & E & ->); [left; unfold clen; cbn; lia|]. right. cbn in E. injection E as <- ->.
            exists g1, g2. rewrite clen_cons. split; [easy|lia]. }
      rewrite Q1, <- IH. split.
      + intros ([|q pre] & b' & t' & post & g1 & g2 & E & Eg & Es).
        * left. cbn in E. injection E as <- <- <-. exists g1, g2. rewrite cpre_nil in Es. split; [easy|lia].
        * right. cbn in E. injection E as <- ->. exists pre, b', t', post, g1, g2. rewrite cpre_cons in Es. repeat split; try easy; try lia.
      + intros [(g1 & g2 & Eg & Es)|(pre & b' & t' & post & g1 & g2 & E & Eg & Es)].
        * exists [], b, t, qs, g1, g2. rewrite cpre_nil. repeat split; try easy; lia.
        * exists ((b, t) :: pre), b', t', post, g1, g2. rewrite cpre_cons, E. repeat split; try easy; lia. }
  intros s. rewrite <- Q. cbn. easy.
Qed.

(** The least stop at or after a position. *)
Lemma snap_wf pos : pos <= ctotal ps ->
  exists q, snap G d pos = Ok q /\ In q (stops_ps 0 ps) /\ pos <= q <= ctotal ps
   /\ (forall q', In q' (stops_ps 0 ps) -> pos <= q' -> q <= q').
Proof.
  intros Hp. destruct (wf_loc d ps (Z.of_nat pos) W) as (pre & b & t & post & i & E & Hi & Hc).
  assert (Tot : ctotal ps = cpre pre + length t + cpre post) by (rewrite E; apply ctotal_mid).
  unfold clipz in Hc. assert (pos = cpre pre + i) as -> by lia. clear Hc.
  assert (Edge : forall j, j = 0 \/ j = length t -> In (cpre pre + j) (stops_ps 0 ps)).
  { intros j [->| ->]; apply stop_in.
    - exists pre, b, t, post, [], (G t). split; [easy|]. split; [easy|]. unfold clen. cbn. lia.
    - exists pre, b, t, post, (G t), []. split; [easy|]. rewrite app_nil_r. split; [easy|]. rewrite clen_text. lia. }
  assert (Stay : In (cpre pre + i) (stops_ps 0 ps) -> snap G d (cpre pre + i) = Ok (cpre pre + i) ->
    exists q, snap G d (cpre pre + i) = Ok q /\ In q (stops_ps 0 ps) /\ cpre pre + i <= q <= ctotal ps
     /\ (forall q', In q' (stops_ps 0 ps) -> cpre pre + i <= q' -> q <= q')).
  { intros H1 H2. exists (cpre pre + i). auto. }
  destruct (Nat.eq_dec i 0) as [->|Hi0].
  { apply Stay; [apply Edge; auto|]. unfold snap. rewrite max_wf. cbn [or_default bind]. destruct (Nat.leb_spec (ctotal ps) (cpre pre + 0)); [easy|].
    rewrite (block_info_wf _ _ _ _ _ E) by lia.
    replace (match post with [] => Ok (cpre pre, length t) | (c, u) :: _ => if (0 <? length t) && (0 =? length t) then Ok (cpre pre + length t + 1, length u) else Ok (cpre pre, length t) end)
      with (Ok (cpre pre, length t)).
    2:{ destruct post as [|[c u] post]; [easy|]. destruct (Nat.ltb_spec 0 (length t)); [|easy]. now rewrite (proj2 (Nat.eqb_neq _ _)) by lia. }
    replace (cpre pre + 0 - cpre pre) with 0 by lia. easy. }
  destruct (Nat.eq_dec i (length t)) as [->|Hit].
  { apply Stay; [apply Edge; auto|]. unfold snap. rewrite max_wf. cbn [or_default bind].
    destruct (Nat.leb_spec (ctotal ps) (cpre pre + length t)); [easy|].
    rewrite (block_info_wf _ _ _ _ _ E) by lia. destruct post as [|[c u] post].
    - replace (cpre pre + length t - cpre pre) with (length t) by lia. now rewrite Nat.leb_refl, orb_true_r.
    - rewrite Nat.eqb_refl, (proj2 (Nat.ltb_lt _ _)) by lia. cbn [andb].
      replace (cpre pre + length t - (cpre pre + length t + 1)) with 0 by lia. easy. }
  destruct (snap_go_spec (G t) 0 i ltac:(lia) ltac:(rewrite clen_text; lia)) as (g1 & g2 & Eg & Es & Ho & Hm).
  exists (cpre pre + clen g1). split; [|split; [|split]].
  - unfold snap. rewrite max_wf. cbn [or_default bind]. destruct (Nat.leb_spec (ctotal ps) (cpre pre + i)); [lia|].
    rewrite (block_info_wf _ _ _ _ _ E) by lia.
    replace (match post with [] => Ok (cpre pre, length t) | (c, u) :: _ => if (0 <? length t) && (i =? length t) then Ok (cpre pre + length t + 1, length u) else Ok (cpre pre, length t) end)
      with (Ok (cpre pre, length t)).
    2:{ destruct post as [|[c u] post]; [easy|]. rewrite (proj2 (Nat.eqb_neq i _)) by lia. now rewrite andb_false_r. }
    replace (cpre pre + i - cpre pre) with i by lia. rewrite (proj2 (Nat.eqb_neq i 0)) by lia.
    destruct (Nat.leb_spec (length t) i); [lia|]. cbn [orb].
    pose proof (text_info_wf _ _ _ _ 0 (length t) E ltac:(lia)) as Ht. rewrite Nat.add_0_r in Ht. rewrite Ht.
    pose proof (join_skip _ _ _ _ 0 E ltac:(lia)) as Hj. rewrite Nat.add_0_r in Hj. rewrite Hj. cbn [skipn].
    rewrite firstn_exact by easy. rewrite Es. easy.
  - apply stop_in. exists pre, b, t, post, g1, g2. auto.
  - pose proof (clen_text t) as C. rewrite Eg, clen_app in C. lia.
  - intros q' Hq Hle. apply stop_in in Hq. destruct Hq as (pre' & b' & t' & post' & h1 & h2 & E' & Eg' & ->).
    pose proof (clen_text t') as C'. rewrite Eg', clen_app in C'. pose proof (clen_text t) as C. rewrite Eg, clen_app in C.
    rewrite E in E'. destruct (Nat.lt_trichotomy (length pre) (length pre')) as [Hl|[Hl|Hl]].
    + assert (exists z, pre' = pre ++ (b, t) :: z) as [z ->].
      { apply (f_equal (firstn (length pre'))) in E'. rewrite (firstn_exact _ pre' _ eq_refl) in E'.
        rewrite firstn_app in E'. rewrite firstn_all2 in E' by lia. destruct (length pre' - length pre) as [|k] eqn:Ek; [lia|].
        cbn in E'. eexists. symmetry. exact E'. }
      rewrite cpre_app, cpre_cons. lia.
    + assert (pre = pre' /\ (b, t) :: post = (b', t') :: post') as [<- Eq].
      { split; [|apply (f_equal (skipn (length pre))) in E'; rewrite skipn_exact in E' by easy; rewrite skipn_exact in E' by lia; exact E'].
        apply (f_equal (firstn (length pre))) in E'. rewrite firstn_exact in E' by easy. rewrite firstn_exact in E' by lia. easy. }
      injection Eq as <- <- <-. assert (clen g1 <= clen h1); [|lia]. apply (Hm h1 h2); [congruence|lia].
    + assert (exists z, pre = pre' ++ (b', t') :: z) as [z ->].
      { apply (f_equal (firstn (length pre))) in E'. rewrite (firstn_exact _ pre _ eq_refl) in E'.
        rewrite firstn_app in E'. rewrite firstn_all2 in E' by lia. destruct (length pre - length pre') as [|k] eqn:Ek; [lia|].
        cbn in E'. eexists. exact E'. }
      rewrite cpre_app, cpre_cons in Hle. lia.
Qed.
End Doc.
End Seg.
