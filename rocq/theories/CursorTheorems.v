(** The statements on cursors and change reports, proved. *)
From Verif Require Import Base BaseFacts FormatRunsModel FormatRunsSpec FormatRunsFacts
  RopeModel RopeSpec RopeFacts DocModel DocSpec BlockFacts DocInv DocFacts DocAttr DocDelete DocBreak DocReplace
  DocImport DocFormat HistModel HistSpec DocReach DocHist DocQuery QueryModel QuerySpec QueryFacts QueryText PropSpec DocTheorems
  QueryTheorems DiffModel DiffSpec DiffFacts CursorModel CursorSpec CursorFacts.

Lemma nth_error_Some_lt {A} (l : list A) n x : nth_error l n = Some x -> n < length l.
Proof. intros H. apply nth_error_Some. congruence. Qed.
Lemma In_firstn {A} (l : list A) n x : In x (firstn n l) -> In x l.
Proof. intros H. rewrite <- (firstn_skipn n l), in_app_iff. now left. Qed.
Lemma In_skipn {A} (l : list A) n x : In x (skipn n l) -> In x l.
Proof. intros H. rewrite <- (firstn_skipn n l), in_app_iff. now right. Qed.

(** ** Movement *)

Lemma next_theorem G d its i p : segmentation G -> counted d -> doc_items d = Ok its -> nth_error (stops G its) i = Some p ->
  next_grapheme G d p = Ok (match nth_error (stops G its) (S i) with Some q => q | None => p end).
Proof.
  intros HG C Ei. destruct (counted_facts _ C) as (ps & W & D). rewrite (doc_items_wf _ _ W) in Ei. injection Ei as <-.
  rewrite (stops_items G) by apply (wf_ne _ _ W). intros H.
  destruct (stop_locate G HG _ _ _ _ H) as (pre & b & t & post & g1 & g2 & E & Eg & -> & A1 & _).
  rewrite A1. change (0 + cpre pre) with (cpre pre). rewrite (next_wf G HG d ps W D _ _ _ _ _ _ E Eg).
  destruct g2; [|easy]. now destruct post.
Qed.
Lemma prev_theorem G d its i p : segmentation G -> counted d -> doc_items d = Ok its -> nth_error (stops G its) i = Some p ->
  match i with
  | 0 => p = 0 /\ prev_grapheme G d p = Ok 0
  | S j => exists q, nth_error (stops G its) j = Some q /\ q < p /\ prev_grapheme G d p = Ok q
  end.
Proof.
  intros HG C Ei. destruct (counted_facts _ C) as (ps & W & D). rewrite (doc_items_wf _ _ W) in Ei. injection Ei as <-.
  rewrite (stops_items G) by apply (wf_ne _ _ W). intros H. destruct i as [|j].
  - apply first_stop in H. subst p. easy.
  - destruct (stop_locate G HG _ _ _ _ H) as (pre & b & t & post & g1 & g2 & E & Eg & Ep & _ & A2 & A3 & _).
    change (0 + cpre pre) with (cpre pre) in Ep. destruct (prev_wf G HG d ps W D _ _ _ _ _ _ E Eg) as [P1 P2].
    destruct g1 as [|g g1 _] using rev_ind.
    + destruct pre as [|x pre].
      * exfalso. assert (p = 0) by (rewrite Ep; reflexivity). subst p.
        assert (Q : forall s' ps' j q, nth_error (stops_ps G s' ps') (S j) = Some q -> s' < q).
        { clear - HG. intros s' ps'. revert s'. induction ps' as [|[b t] ps' IH]; intros s' j q; cbn [stops_ps]; [easy|].
          intros H. destruct (Nat.lt_ge_cases (S j) (length (stops_of s' (G t)))) as [Hj|Hj].
          - rewrite nth_error_app1 in H by easy. rewrite stops_of_length in Hj. rewrite stops_of_nth in H by lia. injection H as <-.
            destruct (G t) as [|g gs] eqn:Eg; [cbn in Hj; lia|]. cbn [firstn]. rewrite clen_cons.
            assert (g <> []) by (apply (seg_nonempty _ HG t); rewrite Eg; now left). destruct g; [easy|cbn; lia].
          - rewrite nth_error_app2 in H by easy. destruct (S j - length (stops_of s' (G t))) as [|k].
            + destruct ps' as [|[c u] ps']; [easy|]. cbn in H. destruct (G u); cbn in H; injection H as <-; lia.
            + apply IH in H. lia. }
        apply Q in H. lia.
      * destruct (A3 eq_refl ltac:(easy)) as [_ B]. replace (S j - 1) with j in B by lia.
        exists (p - 1). split; [easy|]. assert (0 < cpre (x :: pre)) by (destruct x; rewrite cpre_cons; lia).
        rewrite clen_nil, Nat.add_0_r in Ep. rewrite Ep. split; [lia|]. now apply P2.
    + destruct (A2 _ _ eq_refl) as [_ B]. replace (S j - 1) with j in B by lia.
      exists (p - length g). split; [easy|].
      assert (g <> []) by (apply (seg_nonempty _ HG t); rewrite Eg, !in_app_iff; left; right; now left).
      assert (0 < length g) by (destruct g; [easy|cbn; lia]). rewrite clen_app, clen_cons, clen_nil in Ep.
      split; [lia|]. specialize (P1 g g1 eq_refl). rewrite clen_app, clen_cons, clen_nil in P1. rewrite Ep. exact P1.
Qed.

Lemma stops_sorted G its : segmentation G -> forall i j p q, nth_error (stops G its) i = Some p -> nth_error (stops G its) j = Some q ->
  i < j -> p < q.
Proof.
  intros HG. unfold stops. generalize 0 as s. induction (paragraphs its) as [|x ps IH]; intros s i j p q Hi Hj Hij; cbn [stops_from] in *; [now destruct i|].
  set (gs := G (plain x)) in *. assert (Lx : clen gs = length x).
  { unfold gs. rewrite (clen_text G HG). unfold plain. now rewrite map_length. }
  assert (N : forall g, In g gs -> g <> []) by (intros g; apply (seg_nonempty _ HG)).
  assert (Low : forall ps' s' k r, nth_error (stops_from G s' ps') k = Some r -> s' <= r).
  { clear - HG. induction ps' as [|x ps IH]; intros s' k r H; cbn [stops_from] in H; [now destruct k|].
    destruct (Nat.lt_ge_cases k (length (stops_of s' (G (plain x))))) as [Hj|Hj].
    - rewrite nth_error_app1 in H by easy. rewrite stops_of_length in Hj. rewrite stops_of_nth in H by lia. injection H as <-. lia.
    - rewrite nth_error_app2 in H by easy. apply IH in H. lia. }
  assert (Mono : forall (l : list str) k1 k2, (forall g, In g l -> g <> []) -> k1 < k2 -> k2 <= length l -> clen (firstn k1 l) < clen (firstn k2 l)).
  { clear. induction l as [|g l IH]; intros k1 k2 Hn H1 H2; [cbn in H2; lia|]. destruct k2 as [|k2]; [lia|].
    assert (0 < length g) by (destruct g; [now elim (Hn []); [now left|]|cbn; lia]).
    destruct k1 as [|k1]; cbn [firstn]; rewrite ?clen_cons, ?clen_nil; [lia|].
    assert (clen (firstn k1 l) < clen (firstn k2 l)); [|lia]. apply IH; [|lia|cbn in H2; lia]. intros y Hy. apply Hn. now right. }
  assert (Le : forall k, clen (firstn k gs) <= clen gs).
  { intros k. rewrite <- (firstn_skipn k gs) at 2. rewrite clen_app. lia. }
  destruct (Nat.lt_ge_cases i (length (stops_of s gs))) as [H1|H1].
  - rewrite nth_error_app1 in Hi by easy. rewrite stops_of_length in H1. rewrite stops_of_nth in Hi by lia. injection Hi as <-.
    destruct (Nat.lt_ge_cases j (length (stops_of s gs))) as [H2|H2].
    + rewrite nth_error_app1 in Hj by easy. rewrite stops_of_length in H2. rewrite stops_of_nth in Hj by lia. injection Hj as <-.
      specialize (Mono gs i j N Hij ltac:(lia)). lia.
    + rewrite nth_error_app2 in Hj by easy. apply Low in Hj. specialize (Le i). lia.
  - rewrite nth_error_app2 in Hi, Hj by lia. eapply IH; [exact Hi|exact Hj|lia].
Qed.

Lemma stops_range G its : segmentation G -> nth_error (stops G its) 0 = Some 0
  /\ nth_error (stops G its) (length (stops G its) - 1) = Some (length its).
Proof.
  intros HG. assert (P : fold_right (fun p n => length p + 1 + n) 0 (paragraphs its) = length its + 1 /\ paragraphs its <> []).
  { induction its as [|[c f|] its [IH1 IH2]]; cbn [paragraphs]; [cbn; split; [lia|easy]| |].
    - destruct (paragraphs its) as [|p ps]; [easy|]. cbn in *. split; [lia|easy].
    - cbn in *. split; [lia|easy]. }
  unfold stops. destruct P as [P N]. split.
  - destruct (paragraphs its) as [|x ps]; [easy|]. cbn [stops_from]. now destruct (G (plain x)).
  - enough (Q : forall s ps, ps <> [] -> nth_error (stops_from G s ps) (length (stops_from G s ps) - 1)
              = Some (s + fold_right (fun p n => length p + 1 + n) 0 ps - 1)).
    { rewrite Q by easy. rewrite P. f_equal. lia. }
    clear P N. intros s ps. revert s. induction ps as [|x ps IH]; intros s H; [easy|]. cbn [stops_from].
    assert (Lx : clen (G (plain x)) = length x). { rewrite (clen_text G HG). unfold plain. now rewrite map_length. }
    destruct ps as [|y ps].
    + cbn [stops_from fold_right]. rewrite app_nil_r, stops_of_length. replace (S (length (G (plain x))) - 1) with (length (G (plain x))) by lia.
      rewrite stops_of_nth, firstn_all by lia. f_equal. lia.
    + assert (L : 0 < length (stops_from G (s + length x + 1) (y :: ps))).
      { cbn [stops_from]. rewrite app_length, stops_of_length. lia. }
      rewrite app_length, nth_error_app2 by lia.
      replace (_ + _ - 1 - _) with (length (stops_from G (s + length x + 1) (y :: ps)) - 1) by lia.
      rewrite IH by easy. cbn [fold_right]. f_equal. lia.
Qed.

(** [n] steps from the [i]-th stop. *)
Lemma move_next_theorem G d its n : forall i p, segmentation G -> counted d -> doc_items d = Ok its -> nth_error (stops G its) i = Some p ->
  exists q, nth_error (stops G its) (Nat.min (i + n) (length (stops G its) - 1)) = Some q /\ resolve_move G d p MNext n = Ok q.
Proof.
  cbn [resolve_move]. induction n as [|n IH]; intros i p HG C E Hi; cbn [repeat_move].
  - exists p. split; [|easy]. rewrite Nat.min_l; [now rewrite Nat.add_0_r|]. apply nth_error_Some_lt in Hi. lia.
  - rewrite (next_theorem G d its i p HG C E Hi). cbn [bind]. assert (Li : i < length (stops G its)) by (now apply nth_error_Some_lt in Hi).
    destruct (nth_error (stops G its) (S i)) as [q|] eqn:Eq.
    + pose proof (stops_sorted G its HG _ _ _ _ Hi Eq ltac:(lia)) as Hlt.
      rewrite (proj2 (Nat.eqb_neq q p)) by lia. destruct (IH (S i) q HG C E Eq) as (q' & H1 & H2). exists q'. split; [|easy].
      rewrite <- H1. f_equal. lia.
    + rewrite Nat.eqb_refl. exists p. split; [|easy]. apply nth_error_None in Eq. rewrite Nat.min_r by lia.
      replace (length (stops G its) - 1) with i by lia. easy.
Qed.
Lemma move_prev_theorem G d its n : forall i p, segmentation G -> counted d -> doc_items d = Ok its -> nth_error (stops G its) i = Some p ->
  exists q, nth_error (stops G its) (i - n) = Some q /\ resolve_move G d p MPrev n = Ok q.
Proof.
  cbn [resolve_move]. induction n as [|n IH]; intros i p HG C E Hi; cbn [repeat_move].
  - exists p. now rewrite Nat.sub_0_r.
  - pose proof (prev_theorem G d its i p HG C E Hi) as H. destruct i as [|j].
    + destruct H as [-> ->]. cbn [bind Nat.eqb]. exists 0. easy.
    + destruct H as (q & Hq & Hlt & ->). cbn [bind]. rewrite (proj2 (Nat.eqb_neq q p)) by lia.
      destruct (IH j q HG C E Hq) as (q' & H1 & H2). exists q'. easy.
Qed.

Lemma counted_wf d its : counted d -> doc_items d = Ok its -> exists ps, wf d ps /\ drift d ps = (0, 0)%Z /\ its = items_of (d_runs d) ps /\ length its = ctotal ps.
Proof.
  intros C Ei. destruct (counted_facts _ C) as (ps & W & D). exists ps. rewrite (doc_items_wf _ _ W) in Ei. injection Ei as <-.
  split; [easy|]. split; [easy|]. split; [easy|]. apply items_length.
Qed.

Lemma round_theorem G d its i p q : segmentation G -> counted d -> doc_items d = Ok its ->
  nth_error (stops G its) i = Some p -> nth_error (stops G its) (S i) = Some q ->
  p < q /\ next_grapheme G d p = Ok q /\ prev_grapheme G d q = Ok p.
Proof.
  intros HG C E H1 H2. pose proof (next_theorem G d its i p HG C E H1) as Hn. rewrite H2 in Hn.
  destruct (prev_theorem G d its (S i) q HG C E H2) as (p' & H3 & H4 & H5). rewrite H1 in H3. injection H3 as <-. easy.
Qed.

(** Placing a cursor. *)
Lemma set_position_theorem G d its c p keep : segmentation G -> counted d -> doc_items d = Ok its ->
  exists q, set_position G d c p keep
            = Ok (mk_cursor q (if keep && negb (c_anchor c =? Nat.min p (length its)) then c_anchor c else q))
   /\ In q (stops G its) /\ Nat.min p (length its) <= q <= length its
   /\ (forall q', In q' (stops G its) -> Nat.min p (length its) <= q' -> q <= q').
Proof.
  intros HG C Ei. destruct (counted_wf _ _ C Ei) as (ps & W & D & -> & L). rewrite L.
  rewrite (stops_items G) by apply (wf_ne _ _ W). unfold set_position. rewrite (max_wf d ps W D). cbn [or_default bind].
  unfold snap_cursor. cbn [c_pos c_anchor].
  destruct (snap_wf G HG d ps W D (Nat.min p (ctotal ps)) ltac:(lia)) as (q & E & Hin & Hr & Hm). rewrite E. cbn [bind].
  exists q. split; [|easy]. destruct (Nat.eqb_spec q (Nat.min p (ctotal ps))) as [Hq|Hq].
  - f_equal. f_equal; [easy|]. destruct keep; cbn [andb]; [|easy].
    destruct (Nat.eqb_spec (c_anchor c) (Nat.min p (ctotal ps))); cbn; congruence.
  - f_equal. f_equal. destruct keep; cbn [andb]; [|now rewrite Nat.eqb_refl].
    destruct (c_anchor c =? Nat.min p (ctotal ps)); easy.
Qed.

(** Paragraph moves. *)
Lemma block_info_theorem d its p : reach d -> doc_items d = Ok its -> p <= length its ->
  exists para, nth_error (paragraphs its) (owner its p) = Some para
   /\ block_info d p = Ok (para_start (owner its p) its, length para).
Proof.
  intros R Ei Hp. destruct (block_at_theorem d (Z.of_nat p) R) as (its' & i & n & para & E & En & _ & Hn & Hb).
  rewrite Ei in E. injection E as <-. rewrite clip_nat, Nat.min_l in En by easy. subst n. exists para. split; [easy|].
  unfold block_info. rewrite Hb. cbn [bind]. now rewrite !to_usize_nat.
Qed.
Lemma block_moves_theorem G d its p n : reach d -> doc_items d = Ok its -> p <= length its ->
  exists para, nth_error (paragraphs its) (owner its p) = Some para
   /\ resolve_move G d p MBlockStart n = Ok (para_start (owner its p) its)
   /\ resolve_move G d p MBlockEnd n = Ok (para_start (owner its p) its + length para).
Proof.
  intros R Ei Hp. destruct (block_info_theorem d its p R Ei Hp) as (para & H1 & H2). exists para. split; [easy|].
  cbn [resolve_move]. rewrite H2. easy.
Qed.

Lemma block_steps_theorem G d its p n : reach d -> doc_items d = Ok its -> p <= length its ->
  (S (owner its p) < length (paragraphs its) -> resolve_move G d p MNextBlock n = Ok (para_start (S (owner its p)) its))
  /\ (S (owner its p) = length (paragraphs its) -> resolve_move G d p MNextBlock n = Ok (length its + 1))
  /\ (owner its p = 0 -> resolve_move G d p MPrevBlock n = Ok 0)
  /\ (forall k, owner its p = S k ->
        (nth_error (paragraphs its) k <> Some [] \/ k = 0 \/ nth_error (paragraphs its) (k - 1) <> Some []) ->
        resolve_move G d p MPrevBlock n = Ok (para_start k its)).
Proof.
  intros R Ei Hp. destruct (reach_items _ R) as (ps & W & Ei'). rewrite Ei in Ei'. injection Ei' as Ei'.
  destruct (block_info_theorem d its p R Ei Hp) as (para & Hn & Hb). cbn [resolve_move]. rewrite Hb. cbn [bind or_default].
  pose proof (wf_ne _ _ W) as Ne. set (k := owner its p) in *. clearbody k.
  assert (Q : exists pre b t post, ps = pre ++ (b, t) :: post /\ length pre = k /\ length para = length t).
  { rewrite Ei', paragraphs_items, nth_error_map in Hn by easy. destruct (nth_error ps k) as [[b t]|] eqn:E; [|easy].
    cbn in Hn. injection Hn as <-. apply nth_error_split in E. destruct E as (pre & post & E1 & E2). exists pre, b, t, post.
    split; [easy|]. split; [easy|]. unfold styled. apply styled_length. }
  destruct Q as (pre & b & t & post & Eps & <- & Hl). clear Hn. rewrite Hl.
  assert (S0 : para_start (length pre) its = cpre pre) by (rewrite Ei', Eps; apply para_start_items). rewrite S0.
  assert (Lp : length (paragraphs its) = length pre + S (length post)).
  { rewrite Ei', paragraphs_items, map_length, Eps, app_length by easy. easy. }
  split; [|split; [|split]].
  - intros H. f_equal. destruct post as [|[c u] post]; [cbn in Lp; lia|].
    replace (S (length pre)) with (length (pre ++ [(b, t)])) by (rewrite app_length; cbn; lia).
    rewrite Ei', Eps. replace (pre ++ (b, t) :: (c, u) :: post) with ((pre ++ [(b, t)]) ++ (c, u) :: post) by now rewrite <- app_assoc.
    rewrite para_start_items, cpre_app, cpre_one. lia.
  - intros H. f_equal. destruct post as [|q post]; [|cbn in Lp; lia]. rewrite Ei', Eps.
    rewrite items_mid, !app_length, ipre_length. unfold styled. rewrite styled_length. cbn. lia.
  - intros H. destruct pre; [|cbn in H; lia]. easy.
  - intros k Hk Hc. destruct pre as [|[b1 t1] pre1 _] using rev_ind; [cbn in Hk; lia|].
    rewrite app_length in Hk. cbn [length] in Hk. assert (k = length pre1) by lia. subst k. clear Hk.
    rewrite <- app_assoc in Eps. cbn [app] in Eps. rewrite cpre_app, cpre_one.
    assert (S1 : para_start (length pre1) its = cpre pre1) by (rewrite Ei', Eps; apply para_start_items).
    assert (P1 : nth_error (paragraphs its) (length pre1) = Some (styled t1 (d_runs d b1))).
    { rewrite Ei', paragraphs_items, Eps, map_app, nth_error_app2 by easy || (rewrite map_length; lia).
      rewrite map_length, Nat.sub_diag. easy. }
    assert (Li : cpre pre1 + length t1 + 1 <= length its).
    { rewrite Ei', Eps, items_mid, !app_length, ipre_length. unfold styled. rewrite styled_length, ipost_cons. cbn [length]. lia. }
    assert (St : forall q, q <= length its -> owner its q = length pre1 ->
      or_default (let! (s', _) := block_info d q in Ok s') 0 = Ok (para_start (length pre1) its)).
    { intros q Hq Ho. destruct (block_info_theorem d its q R Ei Hq) as (para2 & _ & H2). rewrite H2, Ho. easy. }
    destruct t1 as [|c1 t1].
    + cbn [length] in *. destruct Hc as [Hc|[Hc|Hc]]; [now rewrite P1 in Hc| |].
      * destruct pre1; [|easy]. now rewrite S1.
      * destruct pre1 as [|[b2 t2] pre2 _] using rev_ind; [now rewrite S1|].
        rewrite app_length in Hc. cbn [length] in Hc. replace (length pre2 + 1 - 1) with (length pre2) in Hc by lia.
        rewrite <- app_assoc in Eps. cbn [app] in Eps. rewrite cpre_app, cpre_one in *.
        assert (P2 : nth_error (paragraphs its) (length pre2) = Some (styled t2 (d_runs d b2))).
        { rewrite Ei', paragraphs_items, Eps, map_app, nth_error_app2 by easy || (rewrite map_length; lia).
          rewrite map_length, Nat.sub_diag. easy. }
        destruct t2 as [|c2 t2]; [now rewrite P2 in Hc|].
        destruct (2 <=? _) eqn:E2; [|apply Nat.leb_gt in E2; cbn [length] in E2; lia].
        apply St; [lia|]. rewrite Ei', Eps.
        replace (cpre pre2 + (length (c2 :: t2) + 1) + (0 + 1) - 2) with (cpre pre2 + length (c2 :: t2)) by lia.
        rewrite owner_items by easy. rewrite Nat.eqb_refl, app_length. cbn. lia.
    + destruct (2 <=? _) eqn:E2; [|apply Nat.leb_gt in E2; cbn [length] in E2; lia].
      apply St; [lia|]. rewrite Ei', Eps.
      replace (cpre pre1 + (length (c1 :: t1) + 1) - 2) with (cpre pre1 + length t1) by (cbn [length]; lia).
      rewrite owner_items by (cbn; lia). replace (length t1 =? length (c1 :: t1)) with false by (symmetry; apply Nat.eqb_neq; cbn; lia).
      rewrite andb_false_r. cbn. lia.
Qed.

(** ** Totality of moves inside the document *)
Section Total.
Variable G : str -> list str.
Hypothesis HG : segmentation G.
Variables (d : doc) (ps : list para).
Hypothesis W : wf d ps.
Hypothesis D : drift d ps = (0, 0)%Z.

Lemma loc p : p <= ctotal ps -> exists pre b t post i, ps = pre ++ (b, t) :: post /\ i <= length t /\ p = cpre pre + i.
Proof.
  intros Hp. destruct (wf_loc d ps (Z.of_nat p) W) as (pre & b & t & post & i & E & Hi & Hc). unfold clipz in Hc.
  exists pre, b, t, post, i. split; [easy|]. split; [easy|]. lia.
Qed.
(** The block of any position: a paragraph of the document. *)
Lemma info p : exists pre b t post, ps = pre ++ (b, t) :: post /\ block_info d p = Ok (cpre pre, length t).
Proof.
  destruct (wf_loc d ps (Z.of_nat p) W) as (pre & b & t & post & i & E & Hi & Hc). unfold block_info.
  pose proof W as W'. rewrite E in W', Hc. rewrite (block_at_full d pre b t post i (Z.of_nat p) W' Hi Hc).
  destruct post as [|[c u] post]; [|destruct (_ && _)]; cbn [bind]; rewrite !to_usize_nat; cbn [bind].
  - exists pre, b, t, []. easy.
  - exists (pre ++ [(b, t)]), c, u, post. rewrite <- app_assoc. split; [easy|]. rewrite cpre_app, cpre_one. f_equal. f_equal. lia.
  - exists pre, b, t, ((c, u) :: post). easy.
Qed.
Lemma next_total p : p <= ctotal ps -> exists q, next_grapheme G d p = Ok q /\ p <= q <= ctotal ps.
Proof.
  intros Hp. unfold next_grapheme. rewrite (max_wf d ps W D). cbn [or_default bind].
  destruct (Nat.leb_spec (ctotal ps) p); [exists p; split; [easy|lia]|].
  destruct (info p) as (pre & b & t & post & E & ->). destruct (Nat.leb_spec (length t) (p - cpre pre)).
  { eexists. split; [reflexivity|lia]. }
  destruct (loc p Hp) as (pre2 & b2 & t2 & post2 & i2 & E2 & Hi2 & Ep). 
  pose proof (text_info_wf d ps W _ _ _ _ _ (length t - (p - cpre pre)) E2 Hi2) as Ht. rewrite <- Ep in Ht. rewrite Ht.
  destruct (G _) as [|[|x g] gs]; eexists; (split; [reflexivity|]); cbn [length]; lia.
Qed.
Lemma prev_total p : p <= ctotal ps -> exists q, prev_grapheme G d p = Ok q /\ q <= p.
Proof.
  intros Hp. unfold prev_grapheme. destruct (Nat.eqb_spec p 0) as [->|Hp0]; [exists 0; split; [easy|lia]|].
  destruct (info (p - 1)) as (pre & b & t & post & E & ->). destruct (Nat.ltb_spec (cpre pre + length t) p).
  { eexists. split; [reflexivity|lia]. }
  destruct ((length t =? 0) || (p <=? cpre pre)) eqn:Eb.
  { eexists. split; [reflexivity|lia]. }
  apply orb_false_iff in Eb. destruct Eb as [_ Eb]. apply Nat.leb_gt in Eb.
  pose proof (text_info_wf d ps W _ _ _ _ 0 (p - cpre pre) E ltac:(lia)) as Ht. rewrite Nat.add_0_r in Ht. rewrite Ht.
  set (s := firstn _ _). assert (Ls : length s <= p - cpre pre) by (unfold s; rewrite firstn_length; lia).
  pose proof (seg_concat _ HG s) as C. destruct (rev (G s)) as [|[|x g] gs] eqn:Er.
  - eexists. split; [reflexivity|lia].
  - eexists. split; [reflexivity|lia].
  - apply (f_equal (@rev _)) in Er. rewrite rev_involutive in Er. cbn [rev] in Er. rewrite Er, concat_app in C.
    apply (f_equal (@length _)) in C. rewrite app_length in C. cbn [concat] in C. rewrite app_nil_r in C.
    destruct (Nat.leb_spec (length (x :: g)) p); [|lia]. eexists. split; [reflexivity|lia].
Qed.
Lemma repeat_total (f : nat -> res nat) : (forall p, p <= ctotal ps -> exists q, f p = Ok q /\ q <= ctotal ps) ->
  forall n p, p <= ctotal ps -> exists q, repeat_move f n p = Ok q /\ q <= ctotal ps.
Proof.
  intros Hf. induction n as [|n IH]; intros p Hp; cbn [repeat_move]; [exists p; easy|].
  destruct (Hf p Hp) as (q & -> & Hq). cbn [bind]. destruct (Nat.eqb_spec q p); [exists p; easy|]. now apply IH.
Qed.
Lemma resolve_total m n p : p <= ctotal ps -> exists q, resolve_move G d p m n = Ok q.
Proof.
  intros Hp. destruct m; cbn [resolve_move]; try (eexists; reflexivity).
  - rewrite (max_wf d ps W D). eexists. reflexivity.
  - destruct (repeat_total (next_grapheme G d)) with (n := n) (p := p) as (q & E & _); [|easy|eauto].
    intros x Hx. destruct (next_total x Hx) as (q & E & H). exists q. split; [easy|lia].
  - destruct (repeat_total (prev_grapheme G d)) with (n := n) (p := p) as (q & E & _); [|easy|eauto].
    intros x Hx. destruct (prev_total x Hx) as (q & E & H). exists q. split; [easy|lia].
  - destruct (info p) as (pre & b & t & post & E & ->). eexists. reflexivity.
  - destruct (info p) as (pre & b & t & post & E & ->). eexists. reflexivity.
  - destruct (info p) as (pre & b & t & post & E & ->). eexists. reflexivity.
  - destruct (info p) as (pre & b & t & post & E & ->). cbn [bind or_default]. destruct (2 <=? cpre pre); [|eexists; reflexivity].
    destruct (info (cpre pre - 2)) as (pre2 & b2 & t2 & post2 & E2 & ->). eexists. reflexivity.
Qed.
End Total.

(** ** Edits *)

Lemma spec_edit_shape e its : snd (edit_range e) <= length its ->
  exists new, length new = length (edit_text e) /\ plain new = edit_text e
   /\ spec_edit e its = firstn (fst (edit_range e)) its ++ new ++ skipn (snd (edit_range e)) its.
Proof.
  destruct e as [p a text|p a text x|p a|p a]; cbn [edit_range edit_text fst snd spec_edit]; intros H;
    destruct (delete_cut its p a) as [C1 C2]; cbv zeta in C1, C2; unfold spec_insert, spec_insert_fmt, spec_break; rewrite ?C1, ?C2.
  - eexists. split; [apply map_length|]. split; [apply plain_chars|reflexivity].
  - eexists. split; [apply map_length|]. split; [apply plain_chars|reflexivity].
  - exists [Brk]. easy.
  - exists []. split; [easy|]. split; [easy|]. unfold spec_delete, lo, hi.
    rewrite (Nat.min_l (Nat.min p a)), (Nat.min_l (Nat.max p a)) by lia. reflexivity.
Qed.
Lemma spec_edit_describes e its : snd (edit_range e) <= length its -> fst (edit_range e) <= snd (edit_range e) ->
  describes its (spec_edit e its) (fst (edit_range e)) (snd (edit_range e) - fst (edit_range e)) (length (edit_text e)).
Proof.
  intros H Hr. destruct (spec_edit_shape e its H) as (new & Ln & _ & ->). unfold describes.
  assert (Lf : length (firstn (fst (edit_range e)) its) = fst (edit_range e)) by (rewrite firstn_length; lia).
  rewrite !app_length, Lf, skipn_length, Ln. split; [lia|]. split; [lia|]. split.
  - rewrite firstn_exact by easy. easy.
  - replace (fst (edit_range e) + (snd (edit_range e) - fst (edit_range e))) with (snd (edit_range e)) by lia.
    rewrite app_assoc, skipn_exact; [easy|]. rewrite app_length. lia.
Qed.

Lemma set_nth_length {A} (l : list A) : forall k x, length (set_nth l k x) = length l.
Proof. induction l as [|y l IH]; intros [|k] x; cbn; auto. Qed.
Lemma set_nth_same {A} (l : list A) : forall k x, k < length l -> nth_error (set_nth l k x) k = Some x.
Proof. induction l as [|y l IH]; intros [|k] x H; cbn in *; try lia; auto. apply IH. lia. Qed.
Lemma set_nth_other {A} (l : list A) : forall k j x, j <> k -> nth_error (set_nth l k x) j = nth_error l j.
Proof. induction l as [|y l IH]; intros [|k] [|j] x H; cbn; try easy. apply IH. lia. Qed.
Lemma set_nth_Forall {A} (P : A -> Prop) (l : list A) : forall k x, Forall P l -> P x -> Forall P (set_nth l k x).
Proof. induction l as [|y l IH]; intros [|k] x H Hx; cbn; auto; inversion H; subst; constructor; auto. Qed.

Lemma to_edit_range c k : edit_range (to_edit c k) = (sel_start c, sel_start c + sel_len c).
Proof. unfold sel_len, sel_start. destruct k; cbn [edit_range to_edit]; f_equal; lia. Qed.
Lemma to_edit_text c k : length (edit_text (to_edit c k)) = cedit_len k.
Proof. destruct k; reflexivity. Qed.
Lemma to_edit_ok c k : cedit_ok k -> edit_ok (to_edit c k). Proof. destruct k; easy. Qed.
Lemma to_edit_cursor c k its : in_range its c -> edit_cursor (to_edit c k) its = sel_start c + cedit_len k.
Proof. intros [H1 H2]. unfold sel_start. destruct k; cbn [edit_cursor to_edit cedit_len]; unfold lo; lia. Qed.

Lemma carried_adjust its its' e r a x : describes its its' e r a -> carried its its' e r a x (adjust_offset x e r a)
  /\ (x <= length its -> adjust_offset x e r a <= length its').
Proof.
  intros (H1 & H2 & H3 & H4). destruct (adjust_facts its its' e r a x H1 H2 H3 H4) as (A1 & A2 & A3 & A4).
  split; [|exact A4]. split; [exact A1|]. split; [|exact A3]. intros Ha Hb. apply (A2 Ha Hb).
Qed.

Lemma edit_step_wf d ps cs k c ce : wf d ps -> nth_error cs k = Some c -> in_range (items_of (d_runs d) ps) c -> cedit_ok ce ->
  exists d' its' ps' cs' rep, cursor_edit_step d cs k ce = Ok (d', cs', rep) /\ wf d' ps' /\ its' = items_of (d_runs d') ps'
   /\ its' = spec_edit (to_edit c ce) (items_of (d_runs d) ps)
   /\ drift d' ps' = drift d ps
   /\ describes (items_of (d_runs d) ps) its' (sel_start c) (sel_len c) (cedit_len ce)
   /\ (exists q, run_edit d (to_edit c ce) = Ok (d', q))
   /\ (rep = match ce with KRemove => if sel_len c =? 0 then None else Some (sel_start c, sel_len c, 0)
             | _ => Some (sel_start c, sel_len c, cedit_len ce) end)
   /\ cs' = (if match ce with KRemove => sel_len c =? 0 | _ => false end then cs
             else set_nth (adjust_cursors cs (sel_start c) (sel_len c) (cedit_len ce)) k
                    (mk_cursor (sel_start c + cedit_len ce) (sel_start c + cedit_len ce))).
Proof.
  intros W Hk Hr Hok. set (its := items_of (d_runs d) ps) in *.
  destruct (edit_full d ps (to_edit c ce) W (to_edit_ok _ _ Hok)) as (d' & ps' & E & W' & I & Dr & _).
  fold its in E, I, Dr. rewrite (to_edit_cursor _ _ _ Hr) in E.
  assert (Hend : snd (edit_range (to_edit c ce)) <= length its).
  { rewrite to_edit_range. cbn [snd]. destruct Hr. unfold sel_len, sel_start. lia. }
  pose proof (spec_edit_describes (to_edit c ce) its Hend) as De. rewrite to_edit_range, to_edit_text in De. cbn [fst snd] in De.
  specialize (De ltac:(lia)). replace (sel_start c + sel_len c - sel_start c) with (sel_len c) in De by lia.
  exists d', (items_of (d_runs d') ps'), ps'. unfold cursor_edit_step. rewrite Hk.
  rewrite <- I in De. fold (sel_start c).
  assert (Hs : (c_pos c =? c_anchor c) = (sel_len c =? 0)).
  { unfold sel_len, sel_start. destruct (Nat.eqb_spec (c_pos c) (c_anchor c)), (Nat.eqb_spec (Nat.max (c_pos c) (c_anchor c) - Nat.min (c_pos c) (c_anchor c)) 0); try easy; lia. }
  assert (Q : forall x, sel_start c + x - sel_start c = x) by (intros; lia).
  destruct ce as [text|text x| |]; cbn [cedit_len] in *.
  1-3: rewrite E; cbn [bind];
       rewrite Q;
       eexists _, _; split; [reflexivity|]; split; [easy|]; split; [easy|]; split; [easy|];
       split; [now apply Dr|]; split; [easy|]; split; [eauto|]; split; reflexivity.
  rewrite Hs. destruct (Nat.eqb_spec (sel_len c) 0) as [Z|Z].
  - (* nothing selected: the call does nothing *)
    assert (Ep : c_pos c = c_anchor c) by (unfold sel_len, sel_start in Z; lia).
    cbn [to_edit run_edit] in E. unfold cursor_remove_selected in E. rewrite Ep, Nat.eqb_refl in E. cbn [bind] in E.
    injection E as <- _. eexists _, _. split; [reflexivity|]. split; [easy|]. split; [easy|]. split; [easy|].
    split; [now apply Dr|]. split; [easy|]. split; [|easy]. cbn [to_edit run_edit]. unfold cursor_remove_selected.
    rewrite Ep, Nat.eqb_refl. cbn. eauto.
  - rewrite E. cbn [bind]. rewrite Nat.add_0_r in *. eexists _, _. split; [reflexivity|]. split; [easy|]. split; [easy|]. split; [easy|].
    split; [now apply Dr|]. split; [easy|]. split; [eauto|]. split; reflexivity.
Qed.

Lemma follow_theorem d its cs k c ce : reach d -> doc_items d = Ok its -> nth_error cs k = Some c -> in_range its c -> cedit_ok ce ->
  exists d' its' cs' rep, cursor_edit_step d cs k ce = Ok (d', cs', rep) /\ doc_items d' = Ok its'
   /\ describes its its' (sel_start c) (sel_len c) (cedit_len ce)
   /\ (rep = match ce with KRemove => if sel_len c =? 0 then None else Some (sel_start c, sel_len c, 0)
             | _ => Some (sel_start c, sel_len c, cedit_len ce) end)
   /\ length cs' = length cs
   /\ nth_error cs' k = Some (mk_cursor (sel_start c + cedit_len ce) (sel_start c + cedit_len ce))
   /\ (forall j x, j <> k -> nth_error cs j = Some x -> exists x', nth_error cs' j = Some x'
        /\ carried its its' (sel_start c) (sel_len c) (cedit_len ce) (c_pos x) (c_pos x')
        /\ carried its its' (sel_start c) (sel_len c) (cedit_len ce) (c_anchor x) (c_anchor x')
        /\ (in_range its x -> in_range its' x'))
   /\ (forall j1 j2 x1 x2 y1 y2, j1 <> k -> j2 <> k ->
        nth_error cs j1 = Some x1 -> nth_error cs j2 = Some x2 -> nth_error cs' j1 = Some y1 -> nth_error cs' j2 = Some y2 ->
        c_pos x1 <= c_pos x2 -> c_pos y1 <= c_pos y2).
Proof.
  intros R Ei Hk Hr Hok. destruct (reach_its _ _ R Ei) as (ps & W & ->).
  destruct (edit_step_wf d ps cs k c ce W Hk Hr Hok) as (d' & its' & ps' & cs' & rep & E & W' & Ei' & Es & _ & De & _ & Hrep & Hcs).
  exists d', its', cs', rep. split; [easy|]. split; [rewrite Ei'; now apply doc_items_wf|]. split; [easy|]. split; [easy|].
  set (s := sel_start c) in *. set (r := sel_len c) in *. set (a := cedit_len ce) in *.
  destruct (match ce with KRemove => r =? 0 | _ => false end) eqn:Ez.
  - destruct ce; try discriminate. apply Nat.eqb_eq in Ez. subst cs'. split; [easy|].
    assert (Hp : c_pos c = c_anchor c) by (unfold r, sel_len, sel_start in Ez; lia).
    split. { rewrite Hk. unfold s, sel_start, a, cedit_len. destruct c as [p q]. cbn in *. subst q. rewrite Nat.min_id, Nat.add_0_r. easy. }
    assert (Same : its' = items_of (d_runs d) ps).
    { destruct De as (_ & _ & D3 & D4). rewrite Ez in D4. unfold a, cedit_len in D4. rewrite Nat.add_0_r in D4.
      rewrite <- (firstn_skipn s its'), <- D3, <- D4. apply firstn_skipn. }
    split.
    + intros j x _ Hj. exists x. split; [easy|]. rewrite Ez. unfold a, cedit_len. rewrite Same.
      assert (Q : forall y, carried (items_of (d_runs d) ps) (items_of (d_runs d) ps) s 0 0 y y).
      { intros y. split; [easy|]. split; [easy|]. lia. }
      split; [apply Q|]. split; [apply Q|]. easy.
    + intros j1 j2 x1 x2 y1 y2 _ _ H1 H2 H3 H4. congruence.
  - subst cs'. split; [now rewrite set_nth_length; unfold adjust_cursors; rewrite map_length|].
    split. { apply set_nth_same. unfold adjust_cursors. rewrite map_length. now apply nth_error_Some_lt in Hk. }
    split.
    + intros j x Hj Hx. exists (adjust_cursor s r a x). rewrite set_nth_other by easy. unfold adjust_cursors.
      split; [now apply map_nth_error|]. cbn [adjust_cursor c_pos c_anchor].
      split; [now apply carried_adjust|]. split; [now apply carried_adjust|].
      intros [I1 I2]. split; cbn [c_pos c_anchor]; now apply (carried_adjust _ _ _ _ _ _ De).
    + intros j1 j2 x1 x2 y1 y2 N1 N2 H1 H2. rewrite !set_nth_other by easy. unfold adjust_cursors.
      rewrite (map_nth_error _ _ _ H1), (map_nth_error _ _ _ H2). intros [= <-] [= <-]. cbn. apply adjust_mono.
Qed.

(** ** Sessions *)
Definition good (s : session) : Prop :=
  counted (fst s) /\ exists its, doc_items (fst s) = Ok its /\ Forall (in_range its) (snd s).

Lemma in_range_ctotal R ps c : in_range (items_of R ps) c <-> c_pos c <= ctotal ps /\ c_anchor c <= ctotal ps.
Proof. unfold in_range. now rewrite items_length. Qed.

Lemma set_position_range G d its c p keep : segmentation G -> counted d -> doc_items d = Ok its -> in_range its c ->
  exists c', set_position G d c p keep = Ok c' /\ in_range its c'.
Proof.
  intros HG C E [H1 H2]. destruct (set_position_theorem G d its c p keep HG C E) as (q & Eq & _ & Hq & _). rewrite Eq.
  eexists. split; [reflexivity|]. split; cbn; [lia|]. destruct (_ && _); lia.
Qed.

Lemma update_good s k f : good s -> (forall its c, doc_items (fst s) = Ok its -> in_range its c -> exists c', f c = Ok c' /\ in_range its c') ->
  exists s', update_cursor s k f = Ok s' /\ good s'.
Proof.
  intros [C (its & E & F)] Hf. unfold update_cursor. destruct (nth_error (snd s) k) as [c|] eqn:Ek.
  - destruct (Hf its c E) as (c' & -> & Hc). { rewrite Forall_forall in F. apply F. now apply nth_error_In in Ek. }
    cbn [bind]. eexists. split; [reflexivity|]. split; [easy|]. cbn [fst snd]. exists its. split; [easy|]. now apply set_nth_Forall.
  - exists s. split; [easy|]. split; [easy|]. eauto.
Qed.

Lemma step_good G s o : segmentation G -> op_local o -> good s -> exists s', cstep G s o = Ok s' /\ good s'.
Proof.
  intros HG Ho Gs. pose proof Gs as [C (its & E & F)]. destruct (counted_wf _ _ C E) as (ps & W & D & Eits & L).
  destruct o as [p|k|k ce|k p keep|k m keep n|k|k|k|t]; cbn [op_local cstep] in *.
  - subst p. unfold cursor_at, snap_cursor. cbn [c_pos c_anchor].
    destruct (snap_wf G HG (fst s) ps W D 0 ltac:(lia)) as (q & Eq & _ & Hq & _). rewrite Eq. cbn [bind].
    assert (Q : forall c, c_pos c <= ctotal ps -> c_anchor c <= ctotal ps -> good (fst s, snd s ++ [c])).
    { intros c H1 H2. split; [easy|]. cbn [fst snd]. exists its. split; [easy|]. apply Forall_app. split; [easy|]. constructor; [|constructor].
      split; lia. }
    destruct (Nat.eqb_spec q 0); cbn [bind]; eexists; (split; [reflexivity|]); apply Q; cbn; lia.
  - eexists. split; [reflexivity|]. split; [easy|]. cbn [fst snd]. exists its. split; [easy|]. apply Forall_app. split.
    + rewrite Forall_forall in *. intros x Hx. apply F. apply (In_firstn _ _ _ Hx).
    + rewrite Forall_forall in *. intros x Hx. apply F. apply (In_skipn _ _ _ Hx).
  - destruct (nth_error (snd s) k) as [c|] eqn:Ek.
    2:{ unfold cursor_edit_step. rewrite Ek. cbn [bind]. eexists. split; [reflexivity|]. destruct s. exact Gs. }
    assert (Hc : in_range its c). { rewrite Forall_forall in F. apply F. now apply nth_error_In in Ek. }
    rewrite Eits in Hc. destruct (edit_step_wf _ ps _ k c ce W Ek Hc Ho) as (d' & its' & ps' & cs' & rep & Ee & W' & Ei' & Es & Dr & De & (q & Hq) & Hrep & Hcs).
    rewrite Ee. cbn [bind]. eexists. split; [reflexivity|]. split.
    + cbn [fst]. apply (counted_edit (fst s) its (to_edit c ce) d' q C (to_edit_ok _ _ Ho) E); [|easy].
      rewrite to_edit_range. cbn [snd]. rewrite Eits. apply De.
    + cbn [fst snd]. exists its'. split; [rewrite Ei'; now apply doc_items_wf|].
      destruct (match ce with KRemove => sel_len c =? 0 | _ => false end) eqn:Ez; subst cs'.
      * destruct ce; try discriminate. apply Nat.eqb_eq in Ez. cbn [cedit_len] in De. rewrite Ez in De.
        destruct De as (_ & _ & D3 & D4). rewrite Nat.add_0_r in D4.
        assert (its' = its) as ->. { rewrite <- (firstn_skipn (sel_start c) its'), <- D3, <- D4, Eits. apply firstn_skipn. }
        easy.
      * apply set_nth_Forall.
        -- unfold adjust_cursors. rewrite Forall_map. rewrite Forall_forall in *. intros x Hx. destruct (F x Hx) as [I1 I2].
           rewrite Eits in I1, I2. split; cbn [adjust_cursor c_pos c_anchor]; now apply (carried_adjust _ _ _ _ _ _ De).
        -- destruct De as (_ & D2 & _). split; cbn; lia.
  - apply update_good; [easy|]. intros its2 c E2 Hc. now apply set_position_range.
  - apply update_good; [easy|]. intros its2 c E2 Hc. unfold move_position.
    assert (Hp : c_pos c <= ctotal ps). { rewrite E in E2. injection E2 as <-. destruct Hc. lia. }
    destruct (resolve_total G HG _ _ W D m n (c_pos c) Hp) as (q & ->). cbn [bind].
    destruct (set_position_range G (fst s) its2 c q keep HG C E2 Hc) as (c' & -> & H'). cbn [bind]. eauto.
  - apply update_good; [easy|]. intros its2 c E2 Hc. unfold select_document. rewrite (max_wf _ ps W D). cbn [or_default bind].
    eexists. split; [reflexivity|]. rewrite E in E2. injection E2 as <-. split; cbn; lia.
  - apply update_good; [easy|]. intros its2 c E2 Hc. unfold select_block.
    destruct (info (fst s) ps W (c_pos c)) as (pre & b & t & post & Ep & ->). eexists. split; [reflexivity|].
    rewrite E in E2. injection E2 as <-. assert (Tot : ctotal ps = cpre pre + length t + cpre post) by (rewrite Ep; apply ctotal_mid).
    split; cbn; lia.
  - apply update_good; [easy|]. intros its2 c E2 [H1 H2]. eexists. split; [reflexivity|]. split; cbn; easy.
  - easy.
Qed.
Lemma session_theorem G os : forall d cs its, segmentation G -> counted d -> doc_items d = Ok its -> Forall (in_range its) cs -> Forall op_local os ->
  exists d' cs' its', csteps G (d, cs) os = Ok (d', cs') /\ counted d' /\ doc_items d' = Ok its' /\ Forall (in_range its') cs'.
Proof.
  intros d cs its HG C E F Ho. assert (Gd : good (d, cs)) by (split; [easy|eauto]). clear C E F its.
  enough (Q : exists s', csteps G (d, cs) os = Ok s' /\ good s').
  { destruct Q as ([d' cs'] & E & C & its' & E' & F'). eauto 10. }
  revert Gd. generalize (d, cs). induction Ho as [|o os Ho _ IH]; intros s Gs; cbn [csteps]; [eauto|].
  destruct (step_good G s o HG Ho Gs) as (s' & -> & G'). cbn [bind]. now apply IH.
Qed.

(** ** Reports *)
Lemma eqb_ok x y : N.eqb x y = true -> x = y. Proof. apply N.eqb_eq. Qed.
Lemma text_edit_theorem before after :
  let '(p, r, a) := compute_text_edit N.eqb before after in describes before after p r a.
Proof.
  pose proof (text_edit_facts N.eqb eqb_ok before after) as H. exact H.
Qed.

Lemma firstn_mid {A} (old new : list A) p s : p + s <= length old -> p + s <= length new ->
  firstn p old = firstn p new -> skipn (length old - s) old = skipn (length new - s) new ->
  firstn p old ++ firstn (length new - p - s) (skipn p new) ++ skipn (length old - s) old = new.
Proof.
  intros H1 H2 Hf Hs. rewrite Hf, Hs. set (k := length new - p - s).
  transitivity (firstn p new ++ skipn p new); [|apply firstn_skipn]. f_equal.
  transitivity (firstn k (skipn p new) ++ skipn k (skipn p new)); [|apply firstn_skipn]. f_equal.
  rewrite skipn_skipn. f_equal. unfold k. lia.
Qed.
Lemma flow_theorem (old new : list N) :
  fold_left (apply_flow new) (flow_events N.eqb old new) old = new
  /\ (flow_events N.eqb old new = [] <-> old = new).
Proof.
  pose proof (flow_facts N.eqb eqb_ok old new) as H. unfold flow_events. cbv zeta in *.
  set (p := common N.eqb old new) in *. set (s := common N.eqb (rev (skipn p old)) (rev (skipn p new))) in *.
  destruct H as (H1 & H2 & Hf & Hs).
  assert (Q : fold_left (apply_flow new)
    ((if 0 <? length old - p - s then [FlowRemoved p (length old - p - s)] else []) ++
     (if 0 <? length new - p - s then [FlowInserted p (length new - p - s)] else [])) old = new).
  { rewrite fold_left_app.
    replace (fold_left (apply_flow new) (if 0 <? length old - p - s then [FlowRemoved p (length old - p - s)] else []) old)
      with (firstn p old ++ skipn (length old - s) old).
    - pose proof (firstn_mid old new p s H1 H2 Hf Hs) as M. destruct (Nat.ltb_spec 0 (length new - p - s)) as [Hn|Hn]; cbn [fold_left apply_flow].
      + assert (Lp : length (firstn p old) = p) by (rewrite firstn_length; lia).
        rewrite firstn_exact by easy. rewrite skipn_exact by easy. exact M.
      + replace (length new - p - s) with 0 in M by lia. exact M.
    - destruct (Nat.ltb_spec 0 (length old - p - s)) as [Hn|Hn]; cbn [fold_left apply_flow].
      + f_equal. f_equal. lia.
      + replace (length old - s) with p by lia. apply firstn_skipn. }
  split; [exact Q|]. split; [intros E; rewrite E in Q; exact Q|]. intros ->.
  destruct (Nat.ltb_spec 0 (length new - p - s)) as [Hn|Hn]; [|easy]. exfalso.
  assert (Hp : p = length new). { unfold p. clear. induction new as [|x l IH]; cbn; [easy|]. now rewrite N.eqb_refl, IH. }
  lia.
Qed.
Lemma flow_step_theorem d e copy : reach d -> edit_ok e -> checks_flow e = true -> copy = d_order d ->
  exists d' evs, flow_step d copy e = Ok (d', d_order d', evs) /\ fold_left (apply_flow (d_order d')) evs copy = d_order d'.
Proof.
  intros R Hok Hc ->. destruct (edit_theorem d e R Hok) as (its & d' & _ & E & _). unfold flow_step. rewrite E. cbn [bind]. rewrite Hc.
  eexists _, _. split; [reflexivity|]. exact (proj1 (flow_theorem _ _)).
Qed.
