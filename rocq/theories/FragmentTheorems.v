(** Proofs of the theorems on copy and paste. *)
From Verif Require Import Base BaseFacts FormatRunsModel FormatRunsSpec FormatRunsFacts
  RopeModel RopeSpec RopeFacts DocModel DocSpec BlockFacts DocInv DocFacts DocAttr DocDelete DocBreak DocReplace
  DocImport DocFormat DocQuery ReplaceFacts DocFresh HistModel DocReach DocHist QueryModel QuerySpec QueryFacts QueryText
  PropSpec DocTheorems SearchModel SearchSpec ReplaceExact QueryTheorems DocRefuted ListModel ListDocModel
  FragmentModel FragmentText FragmentSpec FragmentRuns FragmentGrow FragmentFinish FragmentPaste FragmentInsert
  FragmentCopySpec FragmentCopy DeletePos.
From Coq Require Import Permutation.

(** ** Copy *)

Lemma copy_full L ps s e : wf (l_doc L) ps -> fresh (l_doc L) ps -> s < e -> s <= ctotal ps ->
  let its := items_of (d_runs (l_doc L)) ps in
  exists fbs, extract_fragment L (Z.of_nat s) (Z.of_nat e) = Ok (fbs, join_lines (map fb_text fbs))
   /\ Forall text_only fbs /\ map fb_items fbs = copied s e its
   /\ keeps L (option_map fst (nth_error ps (length ps - 1))) s e (cpre (firstn (breaks s its) ps)) fbs (skipn (breaks s its) ps).
Proof.
  intros W F Hse Hs its. unfold extract_fragment. rewrite Z.min_l, Z.max_r by lia.
  destruct (Z.eqb_spec (Z.of_nat s) (Z.of_nat e)); [lia|].
  rewrite (in_order_blocks _ _ W (fresh_in_order _ _ W F)).
  set (bs := get_multi (l_doc L) (map fst ps)).
  assert (Hids : map b_id bs = map fst ps) by (apply get_multi_ids; intros q; now apply wf_has).
  assert (Elast : option_map b_id (nth_error bs (length bs - 1)) = option_map fst (nth_error ps (length ps - 1))).
  { assert (Hlen : length bs = length ps) by (rewrite <- (map_length b_id), Hids, map_length; easy).
    rewrite Hlen. rewrite <- (nth_error_map b_id), Hids, nth_error_map. reflexivity. }
  rewrite Elast.
  destruct (extract_blocks_ok L (option_map fst (nth_error ps (length ps - 1))) ps 0 bs s e) as (fbs & -> & A & B & C);
    try easy; [|now apply placed_fresh|apply (wf_ne _ _ W)|lia|].
  { intros i t Hin. split; [now apply (wf_length_in _ _ _ _ W)|].
    apply in_split in Hin. destruct Hin as (pre & post & ->). unfold block_segments.
    rewrite (wf_content _ _ _ _ _ W). cbn [bind]. rewrite (wf_images _ _ W).
    destruct (segments_ok t (d_runs (l_doc L) i)) as (ss & E & H).
    { apply (wf_runs_in _ _ W). rewrite in_app_iff. right. now left. }
    exists ss. split; [easy|]. split; [|exact H]. apply view_no in E. eapply Forall_impl; [|exact E]. now intros [|]. }
  cbn [bind]. rewrite !Nat.sub_0_r in *. eexists. split; [reflexivity|]. auto.
Qed.

Lemma join_paragraphs its : join_paras (paragraphs its) = its.
Proof.
  induction its as [|[c f|] its IH]; [easy| |].
  - cbn [paragraphs]. pose proof (paragraphs_ne its) as Hne. destruct (paragraphs its) as [|p ps]; [easy|].
    destruct ps; cbn [join_paras app] in *; now rewrite IH.
  - cbn [paragraphs]. pose proof (paragraphs_ne its) as Hne. destruct (paragraphs its) as [|p ps] eqn:E; [easy|].
    change (join_paras ([] :: p :: ps)) with (Brk :: join_paras (p :: ps)). now rewrite IH.
Qed.

Lemma paragraphs_snoc its : paragraphs (its ++ [Brk]) = paragraphs its ++ [[]].
Proof.
  induction its as [|[c f|] its IH]; [easy| |]; cbn [app paragraphs].
  - rewrite IH. pose proof (paragraphs_ne its). now destruct (paragraphs its).
  - now rewrite IH.
Qed.

Lemma copied_items n m its : n < m -> join_paras (copied n m its) = between n (copied_end m its) its
  /\ copied n m its = paragraphs (between n (copied_end m its) its).
Proof.
  intros Hn. unfold copied, copied_end. destruct (ends_with_break m its) eqn:E.
  - unfold ends_with_break in E. destruct (nth_error its (m - 1)) as [[c f|]|] eqn:En; try discriminate.
    assert (Hb : between n m its = between n (m - 1) its ++ [Brk]).
    { unfold between. apply nth_error_split in En. destruct En as (a & b & -> & Ha).
      rewrite !skipn_app, !firstn_app, skipn_length, Ha. replace (n - (m - 1)) with 0 by lia. cbn [skipn].
      rewrite (firstn_all2 (n := m - n)) by (rewrite skipn_length; lia).
      rewrite (firstn_all2 (n := m - 1 - n)) by (rewrite skipn_length; lia).
      replace (m - n - (m - 1 - n)) with 1 by lia. replace (m - 1 - n - (m - 1 - n)) with 0 by lia. cbn [firstn]. now rewrite app_nil_r. }
    rewrite Hb, paragraphs_snoc, removelast_last. split; [apply join_paragraphs|easy].
  - split; [apply join_paragraphs|easy].
Qed.

Lemma fb_plain fb : text_only fb -> plain (fb_items fb) = fb_text fb.
Proof.
  intros [H ->]. unfold fb_items. induction H as [|s l Hs _ IH]; [easy|]. cbn [flat_map]. unfold plain in *. rewrite map_app, IH. f_equal.
  destruct s as [t f|]; [|easy]. cbn. rewrite map_map. cbn. apply map_id.
Qed.

Lemma join_plain fbs : Forall text_only fbs -> join_lines (map fb_text fbs) = plain (fragment_items fbs).
Proof.
  unfold fragment_items. destruct fbs as [|fb fbs]; [easy|]. intros H. inversion H as [|? ? Hf Hfs]; subst. cbn [map].
  rewrite join_flat. unfold plain. rewrite map_app. fold (plain (fb_items fb)). rewrite fb_plain by easy. cbn [join_lines]. f_equal.
  clear H. induction Hfs as [|g l Hg _ IH]; [easy|]. cbn [map flat_map]. rewrite map_app. cbn [app map item_char]. f_equal.
  fold (plain (fb_items g)). rewrite fb_plain by easy. f_equal. exact IH.
Qed.

Lemma copy_theorem L its p a : tidy (l_doc L) -> doc_items (l_doc L) = Ok its ->
  let n := Nat.min p a in let m := Nat.max p a in n < m -> n <= length its ->
  exists fbs, selection L p a = Ok (mk_dfrag (Some fbs) (plain (between n (copied_end m its) its)))
   /\ Forall text_only fbs
   /\ map fb_items fbs = paragraphs (between n (copied_end m its) its)
   /\ fragment_items fbs = between n (copied_end m its) its.
Proof.
  intros T E n m Hn Hl. destruct (tidy_facts _ T) as (R & ps & W & F). rewrite (doc_items_wf _ _ W) in E. injection E as <-.
  rewrite items_length in Hl. set (its := items_of (d_runs (l_doc L)) ps).
  destruct (copy_full L ps n m W F Hn Hl) as (fbs & E & A & B & _). fold its in B.
  destruct (copied_items n m its Hn) as [C1 C2]. exists fbs.
  assert (Ef : fragment_items fbs = between n (copied_end m its) its) by (unfold fragment_items; now rewrite B, C1).
  split; [|split; [exact A|split; [now rewrite B, C2|exact Ef]]].
  unfold selection. destruct (Nat.eqb_spec p a); [lia|].
  assert (Ex : extract_fragment L (Z.of_nat p) (Z.of_nat a) = extract_fragment L (Z.of_nat n) (Z.of_nat m)).
  { unfold extract_fragment. replace (Z.min (Z.of_nat n) (Z.of_nat m)) with (Z.min (Z.of_nat p) (Z.of_nat a)) by lia.
    now replace (Z.max (Z.of_nat n) (Z.of_nat m)) with (Z.max (Z.of_nat p) (Z.of_nat a)) by lia. }
  rewrite Ex, E, join_plain, Ef by easy. reflexivity.
Qed.

Lemma nth_error_skip {A} (k : nat) : forall j (l : list A), nth_error (skipn j l) k = nth_error l (j + k).
Proof. induction j as [|j IH]; intros [|x l]; cbn [plus nth_error skipn]; try easy; try (now destruct k); apply IH. Qed.

Lemma firstn_skip {A} (k : nat) : forall j (l : list A), firstn j l ++ firstn k (skipn j l) = firstn (j + k) l.
Proof. induction j as [|j IH]; intros [|x l]; cbn [plus firstn skipn app]; try easy; [now rewrite firstn_nil|]. f_equal; apply IH. Qed.

Lemma keeps_nth L last s e fbs : forall q l k fb, keeps L last s e q fbs l -> nth_error fbs k = Some fb ->
  exists p, nth_error l k = Some p /\ kept L last s e (q + cpre (firstn k l)) fb p.
Proof.
  induction fbs as [|g fbs IH]; intros q l k fb K H; [now destruct k|]. destruct l as [|[i t] l]; [easy|].
  destruct K as [K1 K2]. destruct k as [|k].
  - injection H as <-. exists (i, t). split; [easy|]. cbn [firstn]. now rewrite cpre_nil, Nat.add_0_r.
  - destruct (IH _ _ _ _ K2 H) as (p & P1 & P2). exists p. split; [easy|]. cbn [firstn snd] in *. rewrite cpre_cons.
    now replace (q + (length t + 1 + cpre (firstn k l))) with (q + length t + 1 + cpre (firstn k l)) by lia.
Qed.

Lemma copy_formats_theorem L its p a fbs t k fb : tidy (l_doc L) -> doc_items (l_doc L) = Ok its ->
  let n := Nat.min p a in let m := Nat.max p a in n <= length its ->
  selection L p a = Ok (mk_dfrag (Some fbs) t) -> nth_error fbs k = Some fb ->
  exists li f, nth_error (para_attrs (l_doc L)) (breaks n its + k) = Some (Some (li, f))
   /\ (whole_para n m its (breaks n its + k) ->
       fb_fmt fb = f /\ fb_list fb = match li with Some l => get_list L l | None => None end)
   /\ (~ whole_para n m its (breaks n its + k) -> fb_fmt fb = bfmt_default /\ fb_list fb = None).
Proof.
  intros T E n m Hl Es Hk. destruct (tidy_facts _ T) as (R & ps & W & F). rewrite (doc_items_wf _ _ W) in E. injection E as <-.
  rewrite items_length in Hl. set (its := items_of (d_runs (l_doc L)) ps) in *.
  unfold selection in Es. destruct (Nat.eqb_spec p a); [discriminate|].
  assert (Hn : n < m) by lia.
  destruct (copy_full L ps n m W F Hn Hl) as (fbs' & E & A & B & C). fold its in B, C.
  assert (Ex : extract_fragment L (Z.of_nat p) (Z.of_nat a) = extract_fragment L (Z.of_nat n) (Z.of_nat m)).
  { unfold extract_fragment. replace (Z.min (Z.of_nat n) (Z.of_nat m)) with (Z.min (Z.of_nat p) (Z.of_nat a)) by lia.
    now replace (Z.max (Z.of_nat n) (Z.of_nat m)) with (Z.max (Z.of_nat p) (Z.of_nat a)) by lia. }
  rewrite Ex, E in Es. injection Es as -> _.
  destruct (keeps_nth _ _ _ _ _ _ _ _ _ C Hk) as ([i u] & N1 & (b & Gb & K1 & K2)). cbn [fst snd] in *.
  set (j := breaks n its) in *.
  assert (N2 : nth_error ps (j + k) = Some (i, u)).
  { rewrite <- N1. symmetry. apply nth_error_skip. }
  pose proof (nth_error_split _ _ N2) as (pre & post & Eps & Lp).
  assert (Epre : firstn (j + k) ps = pre) by (rewrite Eps, <- Lp, firstn_app, Nat.sub_diag, firstn_all; cbn; now rewrite app_nil_r).
  assert (Eq : cpre (firstn j ps) + cpre (firstn k (skipn j ps)) = cpre pre).
  { rewrite <- cpre_app, <- Epre. f_equal. apply firstn_skip. }
  rewrite Eq in K1, K2.
  assert (S1 : para_start (j + k) its = cpre pre) by (unfold its; rewrite Eps, <- Lp; apply para_start_items).
  assert (Pn : length (paragraphs its) = length ps) by (unfold its; rewrite paragraphs_items, map_length by apply (wf_ne _ _ W); easy).
  assert (S2 : para_length (j + k) its = length u).
  { unfold para_length, its. rewrite paragraphs_items by apply (wf_ne _ _ W). rewrite nth_error_map, N2. cbn. apply styled_length. }
  assert (Hlast : (match option_map fst (nth_error ps (length ps - 1)) with Some x => N.eqb i x | None => false end = true) <-> S (j + k) = length ps).
  { pose proof (wf_nodup _ _ W) as ND. assert (Hjk : j + k < length ps) by (apply nth_error_Some; now rewrite N2).
    destruct (nth_error ps (length ps - 1)) as [[x v]|] eqn:Ex2; cbn [option_map fst].
    - split.
      + intros He. apply N.eqb_eq in He. subst x.
        assert (nth_error (map fst ps) (j + k) = nth_error (map fst ps) (length ps - 1)) by (now rewrite !nth_error_map, N2, Ex2).
        apply NoDup_nth_error in H; [lia|exact ND|now rewrite map_length].
      + intros He. replace (length ps - 1) with (j + k) in Ex2 by lia. rewrite N2 in Ex2. injection Ex2 as -> ->. apply N.eqb_refl.
    - apply nth_error_None in Ex2. lia. }
  exists (b_list b), (b_fmt b). split.
  - unfold para_attrs. rewrite (wf_order _ _ W), map_map, nth_error_map, N2. cbn. unfold attr. now rewrite Gb.
  - unfold whole_para. rewrite S1, S2, Pn.
    match type of K1 with fb_fmt fb = (if ?c then _ else _) => set (full := c) in * end.
    assert (Hfull : full = true <-> (n <= cpre pre /\ (cpre pre + length u < m \/ cpre pre + length u = m /\ S (j + k) = length ps))).
    { unfold full. rewrite !andb_true_iff, orb_true_iff, Hlast, !Nat.leb_le, Nat.ltb_lt. clear. lia. }
    clearbody full. destruct full.
    + split; [now split|]. intros Hw. exfalso. apply Hw. now apply Hfull.
    + split; [|now split]. intros Hw. apply Hfull in Hw. discriminate.
Qed.

(** ** Paste *)

Lemma tidy_in_order d : tidy d -> in_order d.
Proof. intros T. destruct (tidy_facts _ T) as (_ & ps & W & F). exact (fresh_in_order _ _ W F). Qed.

Lemma paste_theorem L its fbs p : reach (l_doc L) -> doc_items (l_doc L) = Ok its ->
  fbs <> [] -> Forall text_only fbs -> single_inline fbs \/ in_order (l_doc L) ->
  exists L' np k, insert_fragment L p p (Some fbs) = Ok (L', np, k)
   /\ doc_items (l_doc L') = Ok (spec_paste (clip its p) fbs its)
   /\ reach (l_doc L') /\ ((0 <= p)%Z -> (0 <= np)%Z)
   /\ (keeps_positions fbs its (clip its p) = true -> p = Z.of_nat (clip its p) ->
       np = Z.of_nat (length (firstn (clip its p) its ++ sep_before fbs its (clip its p) ++ fragment_items fbs
                              ++ sep_after fbs its (clip its p)))).
Proof.
  intros R E Hne T O. destruct (reach_its _ _ R E) as (ps & W & ->). rewrite clip_items.
  destruct (insert_fragment_full L ps p fbs W Hne T O) as (L' & ps' & np & k & E' & W' & I & _ & _ & _ & _ & P & _ & Q).
  exists L', np, k. split; [easy|]. split; [now rewrite (doc_items_wf _ _ W'), I|]. split; [eapply reach_paste; eauto|]. split; [exact Q|].
  intros K Hp. rewrite (P K Hp), !app_length, firstn_length, items_length.
  pose proof (clipz_le (ctotal ps) p). f_equal. lia.
Qed.

Lemma paste_tidy_theorem L its fbs p L' np k : tidy (l_doc L) -> doc_items (l_doc L) = Ok its ->
  Forall text_only fbs -> keeps_positions fbs its (clip its p) = true -> insert_fragment L p p (Some fbs) = Ok (L', np, k) ->
  fresh_positions (l_doc L').
Proof. intros T E F K H. apply tidy_theorem. eapply tidy_paste; eauto. Qed.

Lemma paste_attrs_theorem L its fbs p : reach (l_doc L) -> lists_numbered L -> doc_items (l_doc L) = Ok its ->
  fbs <> [] -> Forall text_only fbs -> single_inline fbs \/ in_order (l_doc L) ->
  let n := clip its p in let k := breaks n its in let before := para_attrs (l_doc L) in
  exists L' np added cur own, insert_fragment L p p (Some fbs) = Ok (L', np, added)
   /\ nth_error before k = Some (Some cur)
   /\ para_attrs (l_doc L') = firstn k before ++ map Some (paste_attrs fbs its n cur own) ++ skipn (S k) before
   /\ map snd own = map fb_fmt (own_format fbs)
   /\ Forall2 (joins L') (map fb_list (own_format fbs)) (map fst own)
   /\ more_lists L L' /\ lists_numbered L'.
Proof.
  intros R Hln E Hne T O. destruct (reach_its _ _ R E) as (ps & W & ->). rewrite clip_items.
  destruct (insert_fragment_full L ps p fbs W Hne T O) as (L' & ps' & np & k & E' & W' & I & (cur & own & C1 & C2 & C3 & C4) & _).
  exists L', np, k, cur, own. destruct (C4 Hln) as (J1 & J2 & J3). repeat (split; [assumption|]). assumption.
Qed.

(** ** Copy, then paste *)

Lemma partial_inline L its p a fbs t k fb : tidy (l_doc L) -> doc_items (l_doc L) = Ok its ->
  let n := Nat.min p a in let m := Nat.max p a in n <= length its ->
  selection L p a = Ok (mk_dfrag (Some fbs) t) -> nth_error fbs k = Some fb ->
  ~ whole_para n m its (breaks n its + k) -> is_inline_only fb = true.
Proof.
  intros T E n m Hl Es Hk Hw.
  destruct (copy_formats_theorem L its p a fbs t k fb T E Hl Es Hk) as (li & f & _ & _ & H).
  destruct (H Hw) as [H1 H2]. unfold is_inline_only. now rewrite H1, H2.
Qed.

Lemma paragraphs_count its : length (paragraphs its) = count_paras its.
Proof.
  unfold count_paras. induction its as [|[c f|] its IH]; [easy| |]; cbn [paragraphs filter is_break length].
  - pose proof (paragraphs_ne its). destruct (paragraphs its); [easy|exact IH].
  - now rewrite IH.
Qed.

Lemma copy_paste_theorem L its p a L2 its2 q : tidy (l_doc L) -> doc_items (l_doc L) = Ok its ->
  tidy (l_doc L2) -> doc_items (l_doc L2) = Ok its2 ->
  let n := Nat.min p a in let m := Nat.max p a in n < m -> n <= length its ->
  let c := between n (copied_end m its) its in
  exists fbs L' np k sb sa, selection L p a = Ok (mk_dfrag (Some fbs) (plain c))
   /\ insert_fragment L2 q q (Some fbs) = Ok (L', np, k)
   /\ doc_items (l_doc L') = Ok (firstn (clip its2 q) its2 ++ sb ++ c ++ sa ++ skipn (clip its2 q) its2)
   /\ (sb = [] \/ sb = [Brk]) /\ (sa = [] \/ sa = [Brk])
   /\ (~ whole_para n m its (breaks n its) -> sb = [])
   /\ (~ whole_para n m its (breaks (copied_end m its) its) -> sa = []).
Proof.
  intros T E T2 E2 n m Hn Hl c.
  destruct (copy_theorem L its p a T E Hn Hl) as (fbs & Es & A & B & C). fold n m c in Es, B, C.
  assert (Hne : fbs <> []).
  { intros ->. cbn in B. symmetry in B. now apply paragraphs_ne in B. }
  destruct (tidy_theorem _ T2) as [R2 _].
  destruct (paste_theorem L2 its2 fbs q R2 E2 Hne A (or_intror (tidy_in_order _ T2))) as (L' & np & k & P1 & P2 & _).
  exists fbs, L', np, k, (sep_before fbs its2 (clip its2 q)), (sep_after fbs its2 (clip its2 q)).
  split; [easy|]. split; [easy|]. split; [rewrite P2; unfold spec_paste; now rewrite C|].
  split. { unfold sep_before. destruct fbs; [now left|]. destruct (_ || _); auto. }
  split. { unfold sep_after. destruct (rev fbs); [now left|]. destruct (_ || _); auto. }
  split.
  - intros Hw. destruct fbs as [|fb fbs]; [easy|]. unfold sep_before.
    rewrite (partial_inline L its p a (fb :: fbs) _ 0 fb T E Hl Es eq_refl); [easy|]. now rewrite Nat.add_0_r.
  - intros Hw. unfold sep_after. destruct (rev fbs) as [|fb others] eqn:Er; [easy|].
    assert (Ef : fbs = rev others ++ [fb]) by (rewrite <- (rev_involutive fbs), Er; reflexivity).
    rewrite (partial_inline L its p a fbs _ (length others) fb T E Hl Es); [easy| |].
    + rewrite Ef, nth_error_app2; rewrite rev_length; [|easy]. now rewrite Nat.sub_diag.
    + intros H. apply Hw.
      assert (Hb : breaks n its + length others = breaks (copied_end m its) its); [|now rewrite <- Hb].
      assert (Hlen : length (paragraphs c) = S (length others)).
      { rewrite <- B, map_length, Ef, app_length, rev_length. cbn. lia. }
      assert (Hc : n <= copied_end m its) by (unfold copied_end; destruct ends_with_break; lia).
      rewrite paragraphs_count in Hlen. unfold count_paras in Hlen. unfold c, between, breaks in *.
      replace (copied_end m its) with (n + (copied_end m its - n)) at 1 by lia.
      rewrite <- (firstn_skip (copied_end m its - n) n its), filter_app, app_length. lia.
Qed.

(** Cutting part of one paragraph and pasting it back. *)
Lemma cut_paste_theorem L its p a : tidy (l_doc L) -> doc_items (l_doc L) = Ok its ->
  let n := Nat.min p a in let m := Nat.max p a in n < m -> m <= length its ->
  ~ In Brk (between n m its) -> ~ whole_para n m its (breaks n its) ->
  exists fbs d1 L2 np k, selection L p a = Ok (mk_dfrag (Some fbs) (plain (between n m its)))
   /\ delete_text (l_doc L) (Z.of_nat p) (Z.of_nat a) = Ok (d1, Z.of_nat n, plain (between n m its))
   /\ doc_items d1 = Ok (firstn n its ++ skipn m its)
   /\ insert_fragment (mk_ldoc d1 (l_lists L) (l_next L)) (Z.of_nat n) (Z.of_nat n) (Some fbs) = Ok (L2, np, k)
   /\ doc_items (l_doc L2) = Ok its.
Proof.
  intros T E n m Hn Hm Hb Hw.
  destruct (copy_theorem L its p a T E Hn) as (fbs & Es & A & B & C); [fold n; lia|]. fold n m in Es, B, C.
  assert (Hend : copied_end m its = m).
  { unfold copied_end, ends_with_break. destruct (nth_error its (m - 1)) as [[|]|] eqn:En; try easy. exfalso. apply Hb.
    unfold between. apply (nth_error_In _ (m - 1 - n)). rewrite nth_error_firstn_lt by lia. rewrite nth_error_skip.
    now replace (n + (m - 1 - n)) with (m - 1) by lia. }
  rewrite Hend in *.
  assert (Hone : paragraphs (between n m its) = [between n m its]).
  { revert Hb. generalize (between n m its). clear. intros l Hb. induction l as [|[c f|] l IH]; [easy| |].
    - cbn [paragraphs]. rewrite IH; [easy|]. intros H. apply Hb. now right.
    - exfalso. apply Hb. now left. }
  rewrite Hone in B.
  assert (Hf : exists fb, fbs = [fb]).
  { apply (f_equal (@length _)) in B. rewrite map_length in B. destruct fbs as [|fb [|]]; try easy. now exists fb. }
  destruct Hf as [fb ->].
  assert (Hi : is_inline_only fb = true).
  { apply (partial_inline L its p a [fb] (plain (between n m its)) 0 fb T E); [fold n; lia|exact Es|easy|]. fold n m. now rewrite Nat.add_0_r. }
  destruct (tidy_theorem _ T) as [R _].
  destruct (delete_theorem (l_doc L) (Z.of_nat p) (Z.of_nat a) R) as (its' & d1 & E' & D). rewrite E in E'. injection E' as <-.
  cbv zeta in D. replace (Z.min (Z.of_nat p) (Z.of_nat a)) with (Z.of_nat n) in D by lia.
  replace (Z.max (Z.of_nat p) (Z.of_nat a)) with (Z.of_nat m) in D by lia.
  assert (Cn : clip its (Z.of_nat n) = n) by (unfold clip; lia). assert (Cm : clip its (Z.of_nat m) = m) by (unfold clip; lia).
  rewrite Cn, Cm in D. destruct D as (D1 & D2 & _).
  assert (R1 : reach d1) by (eapply reach_delete; eauto).
  destruct (paste_theorem (mk_ldoc d1 (l_lists L) (l_next L)) (spec_delete n m its) [fb] (Z.of_nat n) R1 D2) as (L2 & np & k & P1 & P2 & _);
    [easy|exact A|left; now exists fb|].
  exists [fb], d1, L2, np, k. split; [exact Es|]. split; [exact D1|]. split; [exact D2|]. split; [exact P1|].
  rewrite P2. f_equal. assert (Cd : clip (spec_delete n m its) (Z.of_nat n) = n).
  { unfold clip, spec_delete. rewrite app_length, firstn_length. lia. }
  rewrite Cd. unfold spec_paste, sep_before, sep_after. cbn [rev app]. rewrite Hi. cbn [orb app]. rewrite C.
  unfold spec_delete, between. rewrite firstn_app, firstn_firstn, Nat.min_id, firstn_length, Nat.min_l, Nat.sub_diag by lia. cbn [firstn]. rewrite app_nil_r.
  rewrite skipn_app, firstn_length, Nat.min_l, Nat.sub_diag by lia. cbn [skipn].
  replace (skipn n (firstn n its)) with (@nil item); [|symmetry; apply skipn_all2; rewrite firstn_length; lia]. cbn [app].
  rewrite app_assoc, firstn_skip. replace (n + (m - n)) with m by lia. apply firstn_skipn.
Qed.

(** With a cursor: a selection is replaced. *)
Lemma cursor_paste_theorem L its fbs t p a : reach (l_doc L) -> doc_items (l_doc L) = Ok its ->
  fbs <> [] -> Forall text_only fbs -> p <= length its -> a <= length its ->
  p <> a \/ single_inline fbs \/ in_order (l_doc L) ->
  let n := Nat.min p a in
  let rest := spec_delete n (Nat.max p a) its in
  exists L' r, cursor_insert_fragment L p a (mk_dfrag (Some fbs) t) = Ok (L', Some r)
   /\ doc_items (l_doc L') = Ok (spec_paste n fbs rest)
   /\ (keeps_positions fbs rest n = true ->
       r = length (firstn n its ++ sep_before fbs rest n ++ fragment_items fbs ++ sep_after fbs rest n)).
Proof.
  intros R E Hne T Hp Ha O n rest. unfold cursor_insert_fragment. destruct (Nat.eqb_spec p a) as [<-|Hpa].
  - assert (En : n = p) by lia. assert (Er : rest = its).
    { unfold rest, spec_delete. rewrite En, Nat.max_id. apply firstn_skipn. }
    assert (C : clip its (Z.of_nat p) = p) by (unfold clip; lia).
    destruct (paste_theorem L its fbs (Z.of_nat p) R E Hne T) as (L' & np & k & P1 & P2 & _ & Q & P3); [tauto|].
    rewrite C in *. cbn [df_data]. rewrite P1. unfold to_usize. destruct (Z.leb_spec 0 np); [|lia]. cbn [bind].
    exists L', (Z.to_nat np). split; [easy|]. rewrite En, Er. split; [exact P2|]. intros K. rewrite (P3 K eq_refl). apply Nat2Z.id.
  - destruct (reach_its _ _ R E) as (ps & W & Eits).
    assert (Hpaz : Z.of_nat p <> Z.of_nat a) by lia.
    destruct (delete_theorem (l_doc L) (Z.of_nat p) (Z.of_nat a) R) as (its' & d1 & E' & D). rewrite E in E'. injection E' as <-.
    cbv zeta in D. replace (Z.min (Z.of_nat p) (Z.of_nat a)) with (Z.of_nat n) in D by lia.
    replace (Z.max (Z.of_nat p) (Z.of_nat a)) with (Z.of_nat (Nat.max p a)) in D by lia.
    assert (Cn : clip its (Z.of_nat n) = n) by (unfold clip; lia).
    assert (Cm : clip its (Z.of_nat (Nat.max p a)) = Nat.max p a) by (unfold clip; lia).
    rewrite Cn, Cm in D. destruct D as (D1 & D2 & _). fold rest in D2.
    destruct (delete_pos _ _ _ _ W Hpaz) as (d1' & cut' & ps' & D1' & _ & Io & _). rewrite D1 in D1'. injection D1' as <- _ _.
    rewrite D1. unfold to_usize at 1. destruct (Z.leb_spec 0 (Z.of_nat n)); [|lia]. cbn [bind]. rewrite Nat2Z.id.
    assert (R1 : reach d1) by (eapply reach_delete; eauto).
    destruct (paste_theorem (mk_ldoc d1 (l_lists L) (l_next L)) rest fbs (Z.of_nat n) R1 D2 Hne T (or_intror Io))
      as (L' & np & k & P1 & P2 & _ & Q & P3).
    assert (C : clip rest (Z.of_nat n) = n).
    { unfold clip, rest, spec_delete. rewrite app_length, firstn_length. lia. }
    assert (Ef : firstn n rest = firstn n its).
    { unfold rest, spec_delete. rewrite firstn_app, firstn_firstn, firstn_length.
      replace (n - Nat.min n (length its)) with 0 by lia. rewrite app_nil_r. f_equal. lia. }
    rewrite C in *. cbn [df_data]. rewrite P1. unfold to_usize. destruct (Z.leb_spec 0 np); [|lia]. cbn [bind].
    exists L', (Z.to_nat np). split; [easy|]. split; [exact P2|]. intros K. rewrite (P3 K eq_refl), Ef. apply Nat2Z.id.
Qed.

(** Errors of a paste: no data, or a selection; and nothing else. *)
Lemma paste_error_theorem L p a fbs : reach (l_doc L) -> Forall text_only fbs -> single_inline fbs \/ in_order (l_doc L) \/ fbs = [] ->
  (insert_fragment L p a (Some fbs) = Err <-> p <> a \/ fbs = []) /\ insert_fragment L p a (Some fbs) <> Panic.
Proof.
  intros R T O. destruct fbs as [|fb fbs]; [split; [tauto|easy]|].
  destruct (Z.eq_dec p a) as [<-|Hpa].
  - destruct (reach_items _ R) as (ps & W & E).
    destruct (paste_theorem L _ (fb :: fbs) p R E) as (L' & np & k & P & _); [easy|exact T| |].
    { destruct O as [|[|]]; auto. discriminate. }
    rewrite P. split; [|easy]. split; [easy|]. intros [|]; easy.
  - cbn [insert_fragment]. destruct (Z.eqb_spec p a); [easy|]. cbn [negb]. split; [tauto|easy].
Qed.

(** ** Fragments made from a text, from a whole document *)

Lemma split_items s : join_paras (map (fun l => map (fun c => Chr c cfmt_default) l) (split_lines s)) = text_items s.
Proof.
  induction s as [|c s IH]; [easy|]. cbn [split_lines text_items map]. fold (text_items s). pose proof (split_lines_ne s) as Hne.
  destruct (N.eqb c NL).
  - destruct (split_lines s) as [|l ls]; [easy|]. cbn [map] in *.
    change (join_paras ([] :: ?a :: ?b)) with (Brk :: join_paras (a :: b)). now rewrite IH.
  - destruct (split_lines s) as [|l ls]; [easy|]. destruct ls; cbn [map join_paras app] in *; now rewrite IH.
Qed.

Lemma plain_fragment_theorem L its s p : tidy (l_doc L) -> doc_items (l_doc L) = Ok its -> p <= length its ->
  exists fbs L' k, fragment_from_plain_text s = mk_dfrag (Some fbs) s
   /\ insert_fragment L (Z.of_nat p) (Z.of_nat p) (Some fbs) = Ok (L', Z.of_nat (p + length s), k)
   /\ doc_items (l_doc L') = Ok (firstn p its ++ text_items s ++ skipn p its)
   /\ fresh_positions (l_doc L').
Proof.
  intros T E Hp. destruct (tidy_theorem _ T) as [R _].
  set (fbs := map plain_fblock (split_lines s)).
  assert (A : Forall text_only fbs).
  { unfold fbs. rewrite Forall_map. apply Forall_forall. intros l _. split; [repeat constructor|]. cbn. now rewrite app_nil_r. }
  assert (I : Forall (fun fb => is_inline_only fb = true) fbs).
  { unfold fbs. rewrite Forall_map. apply Forall_forall. now intros l _. }
  assert (Hne : fbs <> []).
  { unfold fbs. pose proof (split_lines_ne s). now destruct (split_lines s). }
  assert (Ef : fragment_items fbs = text_items s).
  { unfold fragment_items, fbs. rewrite map_map, <- split_items. f_equal. apply map_ext. intros l. unfold fb_items. cbn. now rewrite app_nil_r. }
  assert (C : clip its (Z.of_nat p) = p) by (unfold clip; lia).
  destruct (paste_theorem L its fbs (Z.of_nat p) R E Hne A (or_intror (tidy_in_order _ T))) as (L' & np & k & P1 & P2 & _ & _ & P3).
  rewrite C in *.
  assert (S1 : sep_before fbs its p = []).
  { unfold sep_before. destruct I as [|fb l H]; [easy|]. now rewrite H. }
  assert (S2 : sep_after fbs its p = []).
  { unfold sep_after. destruct (rev fbs) as [|fb l] eqn:Er; [easy|]. rewrite Forall_forall in I. rewrite (I fb); [easy|].
    apply in_rev. rewrite Er. now left. }
  assert (K : keeps_positions fbs its p = true).
  { unfold keeps_positions. destruct I as [|fb l H HI]; [easy|]. destruct l; [|easy]. now rewrite H. }
  exists fbs, L', k. split; [reflexivity|]. split; [|split].
  - rewrite P1. do 3 f_equal. rewrite (P3 K eq_refl), S1, S2, Ef, !app_length, firstn_length. cbn [length]. unfold text_items. rewrite map_length. change (@length char s) with (@length N s). lia.
  - rewrite P2. unfold spec_paste. now rewrite S1, S2, Ef.
  - eapply paste_tidy_theorem; [exact T|exact E|exact A| |exact P1]. now rewrite C.
Qed.

Lemma whole_document_theorem L its : tidy (l_doc L) -> doc_items (l_doc L) = Ok its -> (Z.of_nat (length its) < 2 ^ 63 - 1)%Z ->
  exists fbs, fragment_from_document L = Ok (mk_dfrag (Some fbs) (plain its))
   /\ Forall text_only fbs /\ map fb_items fbs = paragraphs its /\ fragment_items fbs = its.
Proof.
  intros T E Hb. destruct (tidy_facts _ T) as (R & ps & W & F). rewrite (doc_items_wf _ _ W) in E. injection E as <-.
  set (its := items_of (d_runs (l_doc L)) ps) in *. rewrite <- (Z2Nat.id (2 ^ 63 - 1)) in Hb by (clear; lia).
  remember (Z.to_nat (2 ^ 63 - 1)) as m eqn:Em. assert (Hz : (2 ^ 63 - 1)%Z = Z.of_nat m) by (clear - Em; lia).
  assert (Hm : length its < m) by (clear - Hb; lia).
  assert (Hend : ends_with_break m its = false).
  { unfold ends_with_break. now rewrite (proj2 (nth_error_None its (m - 1))) by lia. }
  destruct (copy_full L ps 0 m W F) as (fbs & E & A & B & _); [lia|lia|]. fold its in B.
  assert (Bt : between 0 m its = its) by (unfold between; cbn [skipn]; apply firstn_all2; lia).
  unfold copied in B. rewrite Hend, Bt in B.
  assert (Ef : fragment_items fbs = its) by (unfold fragment_items; rewrite B; apply join_paragraphs).
  exists fbs. split; [|repeat split; try assumption].
  unfold fragment_from_document. rewrite Hz. change 0%Z with (Z.of_nat 0). rewrite E. cbn [bind].
  now rewrite join_plain, Ef by easy.
Qed.

Lemma inline_theorem fb : is_inline_only fb = true <-> without_format fb.
Proof.
  destruct fb as [t es f l]. unfold without_format. cbn [fb_list fb_fmt]. split.
  - unfold is_inline_only. cbn [fb_list fb_fmt]. destruct f; cbn. intros H.
    repeat match goal with H : _ && _ = true |- _ => apply andb_prop in H; destruct H end.
    repeat match goal with H : is_none ?x = true |- _ => destruct x; [discriminate|clear H] end.
    split; [easy|]. do 3 eexists. repeat split.
    + destruct f_indent as [z|]; [right; cbn in *; f_equal; lia|now left].
    + destruct f_text_indent as [z|]; [right; cbn in *; f_equal; lia|now left].
  - intros (-> & tabs & i & ti & Hi & Ht & ->). unfold is_inline_only. cbn. destruct Hi as [-> | ->], Ht as [-> | ->]; easy.
Qed.
