(** Formatting, statistics and queries, in the form the properties state them. *)
From Verif Require Import Base BaseFacts FormatRunsModel FormatRunsSpec FormatRunsFacts
  RopeModel RopeSpec RopeFacts DocModel DocSpec BlockFacts DocInv DocFacts DocAttr DocDelete DocBreak DocReplace
  DocImport DocFormat HistModel HistSpec DocReach DocHist DocQuery DocFresh QueryModel QuerySpec QueryFacts QueryText
  PropSpec DocTheorems SearchModel SearchSpec ReplaceExact
  ListModel ListDocModel FragmentModel FragmentText FragmentSpec FragmentFinish FragmentInsert DeletePos ImportModel ImportFacts.
From Coq Require Import Permutation.

Lemma same_document_eq a b : doc_eq a b -> same_document a b.
Proof. intros []. now constructor. Qed.

(** ** Formatting *)

Lemma format_theorem m d p a : reach d ->
  exists its d' ivs its', doc_items d = Ok its /\ format_text m d p a = Ok (d', ivs)
   /\ doc_items d' = Ok its' /\ plain its' = plain its /\ map is_break its' = map is_break its
   /\ para_attrs d' = para_attrs d
   /\ same_document (apply_inverse d' ivs) d
   /\ (fresh_positions d -> its' = spec_format m (clip its (Z.min p a)) (clip its (Z.max p a)) its).
Proof.
  intros R. destruct (reach_items _ R) as (ps & W & E). destruct (format_text_full m _ _ p a W) as (d' & ivs & E' & W' & S & U & _ & I).
  exists (items_of (d_runs d) ps), d', ivs, (items_of (d_runs d') ps). split; [easy|]. split; [easy|].
  split; [now apply doc_items_wf|]. split; [now rewrite !plain_items|]. split; [|split; [|split]].
  - clear. generalize (d_runs d') as R', (d_runs d) as R. intros R' R. induction ps as [|[b t] l IH]; [easy|].
    assert (St : forall S, map is_break (styled t S) = repeat false (length t)).
    { intros S. unfold styled. generalize 0. induction t as [|c t IHt]; intros o; [easy|]. cbn. now rewrite IHt. }
    destruct l as [|q l]; [cbn [items_of]; now rewrite !St|].
    change (items_of R' ((b, t) :: q :: l)) with (styled t (R' b) ++ Brk :: items_of R' (q :: l)).
    change (items_of R ((b, t) :: q :: l)) with (styled t (R b) ++ Brk :: items_of R (q :: l)).
    rewrite !map_app, !St. cbn [map]. now rewrite IH.
  - apply para_attrs_same; [apply same_attr_blocks, S|apply S].
  - now apply same_document_eq.
  - intros F. apply I. now apply (fresh_equiv _ _ W).
Qed.

Lemma paragraphs_styled t R rest : paragraphs (styled t R ++ Brk :: rest) = styled t R :: paragraphs rest.
Proof. unfold styled. generalize 0. induction t as [|c t IH]; intros o; [easy|]. cbn [styled_from app paragraphs]. now rewrite IH. Qed.
Lemma paragraphs_styled_end t R : paragraphs (styled t R) = [styled t R].
Proof. unfold styled. generalize 0. induction t as [|c t IH]; intros o; [easy|]. cbn [styled_from paragraphs]. now rewrite IH. Qed.
Lemma paragraphs_items R ps : ps <> [] -> paragraphs (items_of R ps) = map (fun p => styled (snd p) (R (fst p))) ps.
Proof.
  induction ps as [|[b t] l IH]; [easy|]. intros _. destruct l as [|q l]; [cbn [items_of]; apply paragraphs_styled_end|].
  change (items_of R ((b, t) :: q :: l)) with (styled t (R b) ++ Brk :: items_of R (q :: l)).
  rewrite paragraphs_styled, IH by easy. reflexivity.
Qed.

Lemma para_start_items R pre b t post : para_start (length pre) (items_of R (pre ++ (b, t) :: post)) = cpre pre.
Proof.
  unfold para_start. rewrite paragraphs_items by (now destruct pre). rewrite map_app, firstn_exact by apply map_length.
  induction pre as [|[c u] pre IH]; [easy|]. cbn [map fold_right fst snd]. rewrite IH. unfold styled.
  rewrite styled_length. rewrite DocInv.cpre_cons. lia.
Qed.

(** Number [k] of a paragraph, in every reading. *)
Lemma nth_para d ps k i : wf d ps -> nth_error (d_order d) k = Some i ->
  exists pre t post, ps = pre ++ (i, t) :: post /\ length pre = k.
Proof.
  intros W H. rewrite (wf_order _ _ W), nth_error_map in H. destruct (nth_error ps k) as [[b t]|] eqn:E; [|easy].
  cbn in H. injection H as ->. apply nth_error_split in E. destruct E as (pre & post & E1 & E2). eauto.
Qed.

Lemma selected_spec s n rs re : (rs <= re)%Z ->
  overlaps (Z.of_nat s) (Z.of_nat n) rs re = true <-> selected_para s n rs re.
Proof.
  intros L. unfold overlaps, selected_para. split.
  - intros H. destruct (0 <? Z.of_nat n)%Z eqn:En.
    + exists (Z.to_nat (Z.max (Z.of_nat s) rs)). lia.
    + exists s. lia.
  - intros (x & H1 & H2). destruct (0 <? Z.of_nat n)%Z eqn:En; lia.
Qed.

Lemma block_format_theorem q d p a : reach d ->
  exists its d', doc_items d = Ok its /\ set_block_format q d p a = Ok d' /\ doc_items d' = Ok its
   /\ d_order d' = d_order d
   /\ (fresh_positions d -> forall k i l f para,
        nth_error (d_order d) k = Some i -> attr d i = Some (l, f) -> nth_error (paragraphs its) k = Some para ->
        (selected_para (para_start k its) (length para) (Z.min p a) (Z.max p a) -> attr d' i = Some (l, apply_bfmt q f))
        /\ (~ selected_para (para_start k its) (length para) (Z.min p a) (Z.max p a) -> attr d' i = Some (l, f))).
Proof.
  intros R. destruct (reach_items _ R) as (ps & W & E).
  destruct (set_block_format_full q _ _ p a W) as (d' & E' & W' & Rr & Ro & _ & _ & _ & H).
  exists (items_of (d_runs d) ps), d'. split; [easy|]. split; [easy|]. split; [rewrite (doc_items_wf _ _ W'), Rr; easy|].
  split; [easy|]. intros F k i l f para Hk Ha Hp. destruct (nth_para _ _ _ _ W Hk) as (pre & t & post & -> & <-).
  rewrite para_start_items. rewrite paragraphs_items in Hp by (now destruct pre).
  rewrite nth_error_map, nth_error_app2, Nat.sub_diag in Hp by lia. cbn in Hp. injection Hp as <-.
  unfold styled. rewrite styled_length. unfold attr in *. destruct (get_block d i) as [x|] eqn:Ex; [|easy].
  cbn in Ha. injection Ha as <- <-.
  rewrite (H i t x); [|rewrite in_app_iff; right; now left|easy].
  apply (fresh_equiv _ _ W) in F. rewrite (F pre i t post eq_refl x Ex).
  destruct (selected_spec (cpre pre) (length t) (Z.min p a) (Z.max p a) ltac:(lia)) as [H1 H2]. clear - H1 H2.
  destruct (overlaps _ _ _ _).
  - split; intros Hs; [reflexivity|]. exfalso. tauto.
  - split; intros Hs; [|reflexivity]. apply H2 in Hs. discriminate.
Qed.

(** ** Stored positions *)

Lemma tidy_facts d : tidy d -> reach d /\ exists ps, wf d ps /\ fresh d ps.
Proof.
  induction 1 as [d s R|d p d' np i _ (R & ps & W & F) E|d m p a d' ivs _ (R & ps & W & F) E|d q p a d' _ (R & ps & W & F) E
    |d its p text d' np u _ (R & ps & W & F) Ei Hb E|d its p a d' np cut R Ei Hpa Hb E|d its ms all r d' n s _ (R & ps & W & F) Ei [Ha Hr] E|d i l _ (R & ps & W & F)
    |L its fbs p L' np k _ (R & ps & W & F) Ht Ei Hk E|html L bs R Hbs].
  - split; [now constructor|]. destruct (reach_wf _ R) as [ps0 W0]. destruct (import_full _ _ s W0) as (W & F & _). eauto.
  - split; [eapply reach_break; eauto|]. destruct (wf_loc _ _ p W) as (pre & b & t & post & j & -> & Hi & Hp).
    destruct (insert_block_full _ _ _ _ _ _ _ W Hi Hp) as (d1 & E1 & W' & _). rewrite E1 in E. injection E as <- <- <-.
    eexists. split; [exact W'|]. exact (insert_block_fresh _ _ _ _ _ _ _ _ _ _ W Hi Hp F E1 W').
  - split; [eapply reach_format; eauto|]. destruct (format_text_full m _ _ p a W) as (d1 & iv & E1 & W' & S & _).
    rewrite E1 in E. injection E as <- <-. exists ps. split; [easy|]. eapply fresh_blocks; [exact W|exact W'| |exact F].
    intros i _. unfold pos_of, get_block. destruct S as [S1 S2]. now rewrite S2.
  - split; [eapply reach_block_format; eauto|]. destruct (set_block_format_full q _ _ p a W) as (d1 & E1 & W' & _ & _ & _ & _ & _ & H).
    rewrite E1 in E. injection E as <-. exists ps. split; [easy|]. eapply fresh_blocks; [exact W|exact W'| |exact F].
    intros i Hi. apply in_map_iff in Hi. destruct Hi as ([b t] & <- & Hi). cbn [fst]. unfold pos_of.
    assert (Hb : In b (map fst ps)) by (apply in_map_iff; now exists (b, t)).
    destruct (wf_get _ _ _ W Hb) as (x & Ex & _). rewrite (H _ _ _ Hi Ex), Ex. now destruct (overlaps _ _ _ _).
  - split; [eapply reach_insert; eauto|]. rewrite (doc_items_wf _ _ W) in Ei. injection Ei as <-.
    destruct (wf_loc _ _ p W) as (pre & b & t & post & j & -> & Hi & Hp).
    destruct (insert_simple_full _ _ _ _ _ _ _ text W Hi Hp) as (d1 & x & _ & E1 & W' & _ & B & _).
    rewrite E1 in E. injection E as <- <- <-. rewrite clip_items, Hp, items_length in Hb.
    assert (post = []) as ->.
    { rewrite breaks_items in Hb by easy. destruct post as [|q post]; [easy|]. exfalso.
      unfold breaks in Hb. rewrite firstn_all2 in Hb by (rewrite items_length; lia).
      destruct (count_items (d_runs d) (pre ++ (b, t) :: q :: post) (wf_ne _ _ W)) as [_ K]. unfold count_paras in K.
      rewrite <- Hb, app_length in K. cbn in K. lia. }
    eexists. split; [exact W'|]. exact (insert_last_fresh _ _ _ _ _ _ W W' B F).
  - split; [eapply reach_delete; eauto|]. destruct (reach_wf _ R) as [ps W]. rewrite (doc_items_wf _ _ W) in Ei. injection Ei as <-.
    destruct (delete_pos _ _ p a W Hpa) as (d1 & c1 & ps1 & E1 & W1 & _ & F1). rewrite E1 in E. injection E as <- _ _.
    exists ps1. split; [easy|]. apply F1. rewrite <- clip_items with (R := d_runs d), Hb.
    destruct (count_items (d_runs d) ps (wf_ne _ _ W)) as [_ K]. unfold count_paras in K. unfold breaks. now rewrite firstn_all.
  - split; [eapply reach_matches; eauto|]. rewrite (doc_items_wf _ _ W) in Ei. injection Ei as <-.
    rewrite items_length in Hr. destruct (matches_exact _ _ ms all r W F Ha Hr) as (d1 & ps1 & E1 & W1 & F1 & _).
    rewrite E1 in E. injection E as <- _ _. eauto.
  - split; [now constructor|]. exists ps. pose proof (wf_meta _ _ _ W (meta_set_list d i l)) as W'. split; [easy|].
    eapply fresh_blocks; [exact W|exact W'| |exact F]. intros j _. unfold pos_of. rewrite get_set_list.
    destruct (get_block d j); [|easy]. cbn. now destruct (N.eqb j i).
  - assert (Ho : in_order (l_doc L)) by (eapply fresh_in_order; eassumption).
    split; [eapply reach_paste; eauto|]. rewrite (doc_items_wf _ _ W) in Ei. injection Ei as <-.
    assert (Hne : fbs <> []) by (now intros ->).
    destruct (insert_fragment_full _ _ p _ W Hne Ht (or_intror Ho)) as (L1 & ps1 & n1 & k1 & E1 & W1 & _ & _ & _ & _ & F1 & _).
    rewrite E1 in E. injection E as <- _ _. rewrite clip_items in Hk. eauto.
  - split; [now apply reach_import_parsed|]. destruct (reach_wf _ R) as [ps0 W0].
    destruct (import_parsed_full html _ _ _ W0 Hbs) as (W & F & _). eauto.
Qed.

Lemma tidy_theorem d : tidy d -> reach d /\ fresh_positions d.
Proof. intros H. destruct (tidy_facts _ H) as (R & ps & W & F). split; [easy|]. now apply (fresh_equiv _ _ W). Qed.

(** ** Statistics *)

Lemma count_fb fb : text_only fb -> count_chars (fb_items fb) = length (fb_text fb).
Proof.
  intros [H E]. unfold fb_items. rewrite E. clear E. induction H as [|s l Hs _ IH]; [easy|]. cbn [flat_map].
  rewrite count_app, app_length, IH. f_equal. destruct s as [t f|i]; [|easy]. cbn [seg_items segment_text].
  induction t as [|c t IHt]; [easy|]. cbn [map length]. rewrite <- (IHt Hs). reflexivity.
Qed.
Lemma count_fragment fbs : Forall text_only fbs -> count_chars (fragment_items fbs) = fragment_length fbs.
Proof.
  unfold fragment_items. induction 1 as [|fb fbs Hf Hs IH]; [easy|]. destruct fbs as [|g fbs].
  - cbn [map join_paras fragment_length fold_right]. rewrite count_fb by easy. lia.
  - change (join_paras (map fb_items (fb :: g :: fbs))) with (fb_items fb ++ [Brk] ++ join_paras (map fb_items (g :: fbs))).
    rewrite !count_app, IH, count_fb by easy. reflexivity.
Qed.
Lemma count_paste n fbs its : Forall text_only fbs ->
  count_chars (spec_paste n fbs its) = count_chars its + fragment_length fbs.
Proof.
  intros H. unfold spec_paste. rewrite !count_app, count_fragment by easy.
  assert (count_chars (sep_before fbs its n) = 0) as -> by (unfold sep_before; destruct fbs; [easy|]; now destruct (_ || _)).
  assert (count_chars (sep_after fbs its n) = 0) as -> by (unfold sep_after; destruct (rev fbs); [easy|]; now destruct (_ || _)).
  rewrite <- (firstn_skipn n its) at 3. rewrite count_app. lia.
Qed.

Lemma counted_facts d : counted d -> exists ps, wf d ps /\ drift d ps = (0, 0)%Z.
Proof.
  induction 1 as [d s R|d its e d' q _ (ps & W & D) Hok Ei Hr E|d m p a d' ivs _ (ps & W & D) E|d q p a d' _ (ps & W & D) E
    |d its ms all r d' n s _ (ps & W & D) F Ei [Ha Hr] E|d i l _ (ps & W & D)
    |L its fbs p L' np k _ (ps & W & D) Ht Ho Ei Hk E|html L bs R Hbs].
  - destruct (reach_wf _ R) as [ps0 W0]. destruct (import_full _ _ s W0) as (W & F & Hr & A & C1 & C2 & C3).
    eexists. split; [exact W|]. unfold drift. rewrite C1, C2. rewrite (sum_csum _ _ (ids_from_length (d_next d) _)).
    rewrite combine_length, ids_from_length. f_equal; lia.
  - rewrite (doc_items_wf _ _ W) in Ei. injection Ei as <-.
    destruct (edit_full _ _ e W Hok) as (d1 & ps1 & E1 & W1 & _ & D1 & _). rewrite E1 in E. injection E as <- <-.
    exists ps1. split; [easy|]. rewrite D1; easy.
  - destruct (format_text_full m _ _ p a W) as (d1 & iv & E1 & W' & S & _). rewrite E1 in E. injection E as <- <-.
    exists ps. split; [easy|]. unfold drift in *. destruct S as [S1 S2 S3 S4 S5 S6 S7 S8]. rewrite <- D. f_equal; congruence.
  - destruct (set_block_format_full q _ _ p a W) as (d1 & E1 & W' & _ & _ & C1 & C2 & _). rewrite E1 in E. injection E as <-.
    exists ps. split; [easy|]. unfold drift in *. now rewrite C1, C2.
  - rewrite (doc_items_wf _ _ W) in Ei. injection Ei as <-. rewrite items_length in Hr. apply (fresh_equiv _ _ W) in F.
    destruct (matches_exact _ _ ms all r W F Ha Hr) as (d1 & ps1 & E1 & W1 & _ & _ & _ & N1 & _ & C1 & L1).
    rewrite E1 in E. injection E as <- _ _. exists ps1. split; [easy|]. unfold drift in *. rewrite C1, N1, L1. exact D.
  - exists ps. split; [eapply wf_meta; [exact W|apply meta_set_list]|exact D].
  - rewrite (doc_items_wf _ _ W) in Ei. injection Ei as <-. assert (Hne : fbs <> []) by (now intros ->).
    destruct (insert_fragment_full _ _ p _ W Hne Ht Ho) as (L1 & ps1 & n1 & k1 & E1 & W1 & I1 & _ & N1 & C1 & _).
    rewrite E1 in E. injection E as <- _ _. rewrite clip_items in Hk. specialize (C1 Hk).
    exists ps1. split; [easy|].
    destruct (count_items (d_runs (l_doc L)) ps (wf_ne _ _ W)) as [K1 _].
    destruct (count_items (d_runs (l_doc L1)) ps1 (wf_ne _ _ W1)) as [K2 _].
    rewrite I1, count_paste, K1 in K2 by easy. unfold drift in *. rewrite C1, N1. injection D as D1 D2. f_equal; lia.
  - destruct (reach_wf _ R) as [ps0 W0]. destruct (import_parsed_full html _ _ _ W0 Hbs) as (W & F & _ & A & C1 & C2 & C3).
    eexists. split; [exact W|]. unfold drift. rewrite C1, C2.
    assert (Lt : length (ids_from (d_next (l_doc L)) (length bs)) = length (texts bs)) by (unfold texts; now rewrite ids_from_length, map_length).
    rewrite (sum_csum _ _ Lt), combine_length, ids_from_length. unfold texts. rewrite map_length. f_equal; lia.
Qed.

Lemma csum_ctotal ps : ps <> [] -> ctotal ps + 1 = csum ps + length ps.
Proof.
  induction ps as [|[b t] l IH]; [easy|]. intros _. rewrite ctotal_cons, csum_cons. cbn [length].
  clear IH. induction l as [|[c u] l IH]; [cbn; lia|]. rewrite DocInv.cpre_cons, csum_cons. cbn [length]. lia.
Qed.

Lemma stats_theorem d : counted d ->
  exists its, doc_items d = Ok its /\ character_count d = Ok (count_chars its) /\ block_count d = Ok (count_paras its)
   /\ max_cursor_position d = Ok (length its).
Proof.
  intros H. destruct (counted_facts _ H) as (ps & W & D). exists (items_of (d_runs d) ps). split; [now apply doc_items_wf|].
  destruct (count_items (d_runs d) ps (wf_ne _ _ W)) as [K1 K2]. rewrite K1, K2. unfold drift in D. injection D as D1 D2.
  unfold character_count, block_count, max_cursor_position.
  replace (d_chars d) with (Z.of_nat (csum ps)) by lia. replace (d_nblocks d) with (Z.of_nat (length ps)) by lia.
  rewrite !to_usize_nat. cbn [bind]. split; [easy|]. split; [easy|]. f_equal. rewrite items_length.
  pose proof (csum_ctotal ps (wf_ne _ _ W)). assert (0 < length ps) by (pose proof (wf_ne _ _ W); destruct ps; [easy|cbn; lia]).
  destruct (Nat.ltb_spec 1 (length ps)); lia.
Qed.

Lemma words_theorem d : reach d ->
  exists its, doc_items d = Ok its /\ word_count d = Ok (Z.of_nat (count_words (plain its))).
Proof.
  intros R. destruct (reach_items _ R) as (ps & W & E). exists (items_of (d_runs d) ps). split; [easy|].
  rewrite plain_items. now apply word_count_wf.
Qed.

(** ** Queries *)

Lemma breaks_at R pre b t post i : i <= length t -> breaks (cpre pre + i) (items_of R (pre ++ (b, t) :: post)) = length pre.
Proof. apply breaks_items. Qed.

Lemma items_nth_mid R pre b t post i : i < length t ->
  exists c f, nth_error (items_of R (pre ++ (b, t) :: post)) (cpre pre + i) = Some (Chr c f).
Proof.
  intros Hi. rewrite items_mid, nth_error_app2 by (rewrite ipre_length; lia). rewrite ipre_length.
  rewrite nth_error_app1 by (unfold styled; rewrite styled_length; lia). replace (cpre pre + i - cpre pre) with i by lia.
  unfold styled. generalize 0. revert i Hi. induction t as [|c t IH]; intros i Hi o; [cbn in Hi; lia|]. destruct i as [|i]; cbn.
  - eauto.
  - apply IH. cbn in Hi. lia.
Qed.

Lemma items_nth_end R pre b t post :
  nth_error (items_of R (pre ++ (b, t) :: post)) (cpre pre + length t) = match post with [] => None | _ => Some Brk end.
Proof.
  rewrite items_mid, nth_error_app2 by (rewrite ipre_length; lia). rewrite ipre_length.
  rewrite nth_error_app2 by (unfold styled; rewrite styled_length; lia). unfold styled. rewrite styled_length.
  replace (cpre pre + length t - cpre pre - length t) with 0 by lia. destruct post as [|[c u] post]; [easy|].
  rewrite ipost_cons. easy.
Qed.

Lemma rev_firstn_last {A} (l : list A) q x : nth_error l q = Some x -> exists r, rev (firstn (S q) l) = x :: r.
Proof.
  revert l; induction q as [|q IH]; intros [|y l] H; try easy; cbn in H.
  - injection H as ->. now exists [].
  - destruct (IH _ H) as [r E]. change (firstn (S (S q)) (y :: l)) with (y :: firstn (S q) l). cbn [rev]. rewrite E. cbn. eauto.
Qed.

Lemma owner_items R pre b t post i : i <= length t ->
  owner (items_of R (pre ++ (b, t) :: post)) (cpre pre + i) =
  length pre + (if (0 <? length t) && (i =? length t) && negb (match post with [] => true | _ => false end) then 1 else 0).
Proof.
  intros Hi. unfold owner. rewrite breaks_at by easy. f_equal.
  destruct (Nat.eqb_spec i (length t)) as [->|Hn].
  - rewrite items_nth_end. destruct post as [|q post]; [rewrite andb_false_r; easy|]. cbn [negb]. rewrite !andb_true_r.
    destruct (0 <? length t) eqn:E.
    + destruct (items_nth_mid R pre b t (q :: post) (length t - 1)) as (c & f & Hc); [lia|].
      apply rev_firstn_last in Hc. destruct Hc as [r Hr]. replace (S (cpre pre + (length t - 1))) with (cpre pre + length t) in Hr by lia.
      now rewrite Hr.
    + destruct t; [|easy]. cbn [length]. rewrite Nat.add_0_r.
      rewrite items_mid, firstn_exact by apply ipre_length. destruct pre as [|pre1 pre _] using rev_ind; [easy|].
      rewrite ipre_app, rev_app_distr. destruct pre1 as [c u]. rewrite ipre_cons. cbn [ipre map concat]. rewrite rev_app_distr. easy.
  - rewrite andb_false_r. cbn [andb]. destruct (items_nth_mid R pre b t post i) as (c & f & ->); [lia|]. easy.
Qed.

Lemma block_at_theorem d p : reach d ->
  exists its i n para, doc_items d = Ok its /\ n = owner its (clip its p)
   /\ nth_error (d_order d) n = Some i /\ nth_error (paragraphs its) n = Some para
   /\ block_at_position d p = Ok (i, Z.of_nat (para_start n its), Z.of_nat (length para), Z.of_nat n).
Proof.
  intros R. destruct (reach_items _ R) as (ps & W & E). destruct (wf_loc _ _ p W) as (pre & b & t & post & i & -> & Hi & Hp).
  set (its := items_of _ _) in *.
  assert (Q : forall pre1 b1 t1 post1, pre ++ (b, t) :: post = pre1 ++ (b1, t1) :: post1 ->
    nth_error (d_order d) (length pre1) = Some b1 /\ nth_error (paragraphs its) (length pre1) = Some (styled t1 (d_runs d b1))
    /\ para_start (length pre1) its = cpre pre1).
  { intros pre1 b1 t1 post1 E1. unfold its. rewrite E1. split; [|split].
    - rewrite (wf_order _ _ W), E1, map_app, nth_error_app2 by (rewrite map_length; lia). rewrite map_length, Nat.sub_diag. easy.
    - rewrite paragraphs_items by (now destruct pre1). rewrite map_app, nth_error_app2 by (rewrite map_length; lia).
      rewrite map_length, Nat.sub_diag. easy.
    - apply para_start_items. }
  assert (O : owner its (clip its p) = length pre + (if (0 <? length t) && (i =? length t) && negb (match post with [] => true | _ => false end) then 1 else 0)).
  { unfold its. rewrite clip_items, Hp. now apply owner_items. }
  rewrite (block_at_full _ _ _ _ _ _ _ W Hi Hp).
  assert (L : forall t R, length (styled t R) = length t) by (intros; apply styled_length).
  destruct post as [|[c u] post].
  - cbn [negb] in O. rewrite andb_false_r, Nat.add_0_r in O. destruct (Q pre b t [] eq_refl) as (Q1 & Q2 & Q3).
    exists its, b, (length pre), (styled t (d_runs d b)). rewrite L, Q3, O. auto 10.
  - cbn [negb] in O. rewrite andb_true_r in O. destruct ((0 <? length t) && (i =? length t)).
    + destruct (Q (pre ++ [(b, t)]) c u post) as (Q1 & Q2 & Q3); [now rewrite <- app_assoc|].
      exists its, c, (S (length pre)), (styled u (d_runs d c)). rewrite L. rewrite app_length in Q1, Q2, Q3. cbn [length] in Q1, Q2, Q3.
      rewrite Nat.add_1_r in Q1, Q2, Q3. rewrite Q3, O, cpre_snoc, Nat.add_1_r. auto 10.
    + rewrite Nat.add_0_r in O. destruct (Q pre b t _ eq_refl) as (Q1 & Q2 & Q3).
      exists its, b, (length pre), (styled t (d_runs d b)). rewrite L, Q3, O. auto 10.
Qed.

Lemma paragraph_theorem d its k i para : reach d -> doc_items d = Ok its ->
  nth_error (d_order d) k = Some i -> nth_error (paragraphs its) k = Some para ->
  block_text d i = Ok (plain para)
  /\ block_position d i = Ok (para_start k its) /\ block_number d i = Ok k
  /\ block_next d i = Ok (nth_error (d_order d) (S k))
  /\ block_previous d i = Ok (match k with 0 => None | S j => nth_error (d_order d) j end)
  /\ (exists fs, block_fragments d i = Ok fs /\ flat_map frag_items fs = para
        /\ flat_map frag_images_of fs = [] /\ layout i 0 0 fs (length para) (blen (plain para)))
  /\ (forall o, char_format_at d i o = Ok (match nth_error para o with Some (Chr _ f) => Some f | _ => None end)).
Proof.
  intros R E Hk Hp. destruct (reach_its _ _ R E) as (ps & W & ->). destruct (nth_para _ _ _ _ W Hk) as (pre & t & post & -> & <-).
  rewrite paragraphs_items in Hp by (now destruct pre). rewrite nth_error_map, nth_error_app2, Nat.sub_diag in Hp by lia.
  cbn in Hp. injection Hp as <-. rewrite para_start_items, plain_styled.
  destruct (block_queries_wf _ _ _ _ _ W) as (A1 & A2 & A3 & A4 & A5).
  destruct (block_fragments_wf _ _ _ _ _ W) as (fs & F1 & F2 & F3 & F4).
  split; [easy|]. split; [easy|]. split; [easy|]. split; [|split; [|split]].
  - rewrite A4, (wf_order _ _ W), map_app, nth_error_app2 by (rewrite map_length; lia). rewrite map_length.
    replace (S (length pre) - length pre) with 1 by lia. cbn. now destruct post as [|[c u] post].
  - rewrite A5, (wf_order _ _ W). destruct pre as [|[c u] pre _] using rev_ind; [easy|].
    rewrite rev_app_distr, app_length, Nat.add_1_r. cbn [rev app]. rewrite <- app_assoc, map_app.
    rewrite nth_error_app2 by (rewrite map_length; lia). rewrite map_length, Nat.sub_diag. easy.
  - exists fs. unfold styled in *. rewrite styled_length. auto.
  - intros o. unfold char_format_at. rewrite F1. cbn [bind]. f_equal. change (styled_from 0 t (d_runs d i)) with (styled t (d_runs d i)).
    destruct (nth_error (styled t (d_runs d i)) o) as [[c f|]|] eqn:N.
    + eapply format_in_text; [exact F4|exact F3|lia|]. rewrite Nat.sub_0_r, F2. exact N.
    + exfalso. clear - N. unfold styled in N. revert N. generalize 0. revert o. induction t as [|c t IH]; intros [|o] z; cbn; try easy. apply IH.
    + eapply format_in_out; [exact F4|exact F3|]. apply nth_error_None in N. unfold styled in N. now rewrite styled_length in N.
Qed.

Lemma paragraphs_number d its : reach d -> doc_items d = Ok its -> length (d_order d) = length (paragraphs its).
Proof.
  intros R E. destruct (reach_its _ _ R E) as (ps & W & ->). rewrite (wf_order _ _ W), paragraphs_items by apply (wf_ne _ _ W).
  now rewrite !map_length.
Qed.

Lemma text_at_theorem d its p len : reach d -> doc_items d = Ok its -> (0 <= len)%Z ->
  if ((0 <=? p) && (p <=? Z.of_nat (length its)))%Z
  then exists i, nth_error (d_order d) (breaks (Z.to_nat p) its) = Some i
       /\ text_at_position d p len = Ok (i, firstn (Z.to_nat len) (skipn (Z.to_nat p) (plain its)))
  else text_at_position d p len = Err.
Proof.
  intros R E Hl. destruct (reach_its _ _ R E) as (ps & W & ->). rewrite items_length, plain_items.
  destruct (text_at_wf _ _ p len W Hl) as [A B].
  destruct ((0 <=? p) && (p <=? Z.of_nat (ctotal ps)))%Z eqn:C; [|apply B; lia].
  destruct (wf_loc _ _ p W) as (pre & b & t & post & i & -> & Hi & Hp).
  exists b. assert (Hpi : p = Z.of_nat (cpre pre + i)) by (unfold clipz in Hp; lia). split.
  - rewrite Hpi, Nat2Z.id, breaks_items by easy. rewrite (wf_order _ _ W), map_app, nth_error_app2 by (rewrite map_length; lia).
    rewrite map_length, Nat.sub_diag. easy.
  - now apply (A pre b t post i).
Qed.

Lemma runs_theorem d i : reach d -> In i (d_order d) ->
  exists t, block_content (d_rs d) i = Ok t /\ wf_runs t (d_runs d i).
Proof.
  intros R H. destruct (reach_wf _ R) as [ps W]. rewrite (wf_order _ _ W) in H. apply in_map_iff in H.
  destruct H as ([b t] & <- & H). exists t. split; [now apply (wf_content_in _ _ _ _ W)|now apply (wf_runs_in _ _ W)].
Qed.

(** ** Element ids *)

Lemma synth_value b k : (b < 2 ^ 30)%N -> (N.of_nat k < 2 ^ 32)%N ->
  synth_element_id b k = (2 ^ 62 + b * 2 ^ 32 + N.of_nat k)%N.
Proof.
  intros Hb Hk. unfold synth_element_id.
  assert (E1 : N.land b (2 ^ 30 - 1) = b).
  { change (2 ^ 30 - 1)%N with (N.ones 30). rewrite N.land_ones. now apply N.mod_small. }
  rewrite E1, N.shiftl_mul_pow2. set (x := (b * 2 ^ 32)%N). set (y := N.of_nat k) in *.
  assert (Hx : (x < 2 ^ 62)%N) by (unfold x; change (2 ^ 62)%N with (2 ^ 30 * 2 ^ 32)%N; nia).
  assert (L : forall m n z, (z < 2 ^ n)%N -> N.land (m * 2 ^ n) z = 0%N).
  { intros m n z Hz. apply N.bits_inj. intros j. rewrite N.land_spec, N.bits_0.
    destruct (N.lt_ge_cases j n) as [H|H].
    - now rewrite N.mul_pow2_bits_low.
    - rewrite andb_comm. replace (N.testbit z j) with false; [easy|]. symmetry. destruct (N.eq_dec z 0) as [->|Hz0]; [apply N.bits_0|].
      apply N.bits_above_log2. apply N.log2_lt_pow2; [lia|]. eapply N.lt_le_trans; [exact Hz|]. apply N.pow_le_mono_r; lia. }

  assert (A1 : N.lor (2 ^ 62) x = (2 ^ 62 + x)%N).
  { pose proof (L 1%N 62%N x Hx) as Z. rewrite N.mul_1_l in Z. rewrite <- N.lxor_lor by exact Z. symmetry. now apply N.add_nocarry_lxor. }
  rewrite A1. replace (2 ^ 62 + x)%N with ((2 ^ 30 + b) * 2 ^ 32)%N by (unfold x; now rewrite N.mul_add_distr_r).
  pose proof (L (2 ^ 30 + b)%N 32%N y Hk) as Z. rewrite <- N.lxor_lor by exact Z. rewrite <- N.add_nocarry_lxor by exact Z. easy.
Qed.

Lemma synth_inj b k b' k' : (b < 2 ^ 30)%N -> (b' < 2 ^ 30)%N -> (N.of_nat k < 2 ^ 32)%N -> (N.of_nat k' < 2 ^ 32)%N ->
  synth_element_id b k = synth_element_id b' k' -> b = b' /\ k = k'.
Proof.
  intros H1 H2 H3 H4 E. rewrite !synth_value in E by easy. set (p := (2 ^ 32)%N) in *. set (q := (2 ^ 62)%N) in E. clearbody p q.
  assert (b = b') as ->; [|lia].
  assert (M : forall x y, (x < y)%N -> (x * p + p <= y * p)%N).
  { intros x y Hxy. rewrite <- N.mul_succ_l. apply N.mul_le_mono_r. lia. }
  destruct (N.lt_trichotomy b b') as [H|[H|H]]; [|exact H|]; apply M in H; lia.
Qed.

Lemma synth_not_entity b k : (2 ^ 62 <= synth_element_id b k)%N.
Proof.
  unfold synth_element_id. rewrite <- N.lor_assoc. apply N.ldiff_le. apply N.bits_inj. intros j.
  rewrite N.ldiff_spec, N.lor_spec, N.bits_0. destruct (N.testbit (2 ^ 62) j); easy.
Qed.

(** Text fragments have different element ids. *)
Definition frag_id (f : fragment) : N := match f with FText _ _ _ _ e => e | FImage _ _ e => e end.
Lemma layout_ids b fs : forall off byte off' byte', (b < 2 ^ 30)%N -> (N.of_nat byte' < 2 ^ 32)%N ->
  layout b off byte fs off' byte' -> flat_map frag_images_of fs = [] ->
  byte <= byte' /\ NoDup (map frag_id fs) /\ Forall (fun f => exists k, byte <= k < byte' /\ frag_id f = synth_element_id b k) fs.
Proof.
  induction fs as [|[t f o n e|i o e] fs IH]; intros off byte off' byte' Hb Hy L Im; cbn [layout flat_map frag_images_of] in *.
  - destruct L. split; [lia|]. split; constructor.
  - destruct L as (Ht & -> & -> & -> & L). destruct (IH _ _ _ _ Hb Hy L Im) as (I1 & I2 & I3).
    assert (0 < blen t) by (destruct t as [|c t]; [easy|]; cbn; pose proof (utf8_len_pos c); lia).
    split; [lia|]. split.
    + cbn [map frag_id]. constructor; [|easy]. intros Hin. apply in_map_iff in Hin. destruct Hin as (g & Eg & Hg).
      rewrite Forall_forall in I3. destruct (I3 _ Hg) as (k & Hk & Ek). rewrite Ek in Eg. apply synth_inj in Eg; lia.
    + constructor; [exists byte; split; [lia|easy]|]. eapply Forall_impl; [|exact I3]. cbn. intros g (k & Hk & Ek). exists k. split; [lia|easy].
  - discriminate.
Qed.

(** Attributes of a paragraph after a request. *)
Lemma apply_bfmt_attrs q f :
  let g := apply_bfmt q f in
  let takes := fun A (new old now : option A) => (forall v, new = Some v -> now = Some v) /\ (new = None -> now = old) in
  takes _ (q_alignment q) (f_alignment f) (f_alignment g)
  /\ takes _ (q_top_margin q) (f_top_margin f) (f_top_margin g)
  /\ takes _ (q_bottom_margin q) (f_bottom_margin f) (f_bottom_margin g)
  /\ takes _ (q_left_margin q) (f_left_margin f) (f_left_margin g)
  /\ takes _ (q_right_margin q) (f_right_margin f) (f_right_margin g)
  /\ (forall v, q_heading_level q = Some v -> (0 <= v <= 6)%Z -> f_heading_level g = Some v)
  /\ (forall v, q_heading_level q = Some v -> exists w, f_heading_level g = Some w /\ (0 <= w <= 6)%Z)
  /\ (q_heading_level q = None -> f_heading_level g = f_heading_level f)
  /\ takes _ (q_indent q) (f_indent f) (f_indent g)
  /\ takes _ (q_text_indent q) (f_text_indent f) (f_text_indent g)
  /\ takes _ (q_marker q) (f_marker f) (f_marker g)
  /\ f_tab_positions g = f_tab_positions f
  /\ takes _ (q_line_height q) (f_line_height f) (f_line_height g)
  /\ takes _ (q_non_breakable_lines q) (f_non_breakable_lines f) (f_non_breakable_lines g)
  /\ takes _ (q_direction q) (f_direction f) (f_direction g)
  /\ takes _ (q_background_color q) (f_background_color f) (f_background_color g)
  /\ takes _ (q_is_code_block q) (f_is_code_block f) (f_is_code_block g)
  /\ takes _ (q_code_language q) (f_code_language f) (f_code_language g).
Proof.
  cbv zeta. destruct q as [? ? ? ? ? ? ? ? ? ? ? ? ? ? ?], f as [? ? ? ? ? ? ? ? ? ? ? ? ? ? ? ?]; cbn.
  repeat (match goal with |- _ /\ _ => split end);
    try (intros v ->; reflexivity); try (intros ->; reflexivity); try reflexivity.
  - intros v -> Hv. cbn. f_equal. unfold clamp. lia.
  - intros v ->. cbn. exists (clamp 0 6 v). split; [reflexivity|]. unfold clamp. lia.
Qed.
