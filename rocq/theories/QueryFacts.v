(** Facts about the queries. *)
From Verif Require Import Base BaseFacts FormatRunsModel FormatRunsSpec FormatRunsFacts
  RopeModel RopeSpec RopeFacts DocModel DocSpec BlockFacts DocInv DocFacts DocAttr DocDelete DocBreak DocReplace
  DocImport DocFormat HistModel DocReach DocQuery QueryModel QuerySpec.
From Coq Require Import Permutation.

(** ** Words *)

Lemma words_go_count s : forall cur, length (words_go s cur) =
  match cur with [] => word_starts true s | _ => S (word_starts false s) end.
Proof.
  induction s as [|c s IH]; intros cur; cbn [words_go word_starts].
  - now destruct cur.
  - destruct (is_whitespace c).
    + destruct cur; cbn [length]; now rewrite IH.
    + rewrite IH. destruct cur; cbn; lia.
Qed.

Lemma split_whitespace_count s : length (split_whitespace s) = count_words s.
Proof. apply words_go_count. Qed.

Lemma word_starts_app b s t : word_starts b (s ++ NL :: t) = word_starts b s + count_words t.
Proof.
  revert b; induction s as [|c s IH]; intros b; cbn [app word_starts]; [easy|].
  destruct (is_whitespace c); rewrite IH; [easy|lia].
Qed.

Lemma count_words_join ts : count_words (join ts) = fold_right (fun t n => count_words t + n) 0 ts.
Proof.
  induction ts as [|t ts IH]; [easy|]. destruct ts as [|u ts].
  - cbn [join fold_right]. lia.
  - change (join (t :: u :: ts)) with (t ++ NL :: join (u :: ts)). unfold count_words at 1.
    rewrite word_starts_app, IH. reflexivity.
Qed.

Lemma contents_wf d ps l : wf d ps -> (forall b, In b l -> In (b_id b) (map fst ps)) ->
  exists ts, contents (d_rs d) l = Ok ts /\ Forall2 (fun b t => In (b_id b, t) ps) l ts.
Proof.
  intros W. induction l as [|b l IH]; intros H; [exists []; split; [easy|constructor]|].
  destruct IH as (ts & E & F); [intros; apply H; now right|].
  pose proof (H b (or_introl eq_refl)) as Hb. apply in_map_iff in Hb. destruct Hb as ((i & t) & Ei & Hb). cbn in Ei. subst i.
  exists (t :: ts). cbn [contents]. rewrite (wf_content_in _ _ _ _ W Hb). cbn [bind]. rewrite E. cbn [bind].
  split; [easy|]. now constructor.
Qed.

Lemma sum_perm (f : str -> nat) l l' : Permutation l l' ->
  fold_right (fun t n => f t + n) 0 l = fold_right (fun t n => f t + n) 0 l'.
Proof. induction 1; cbn; lia. Qed.

Lemma forall2_ids (ps : list para) l ts : NoDup (map fst ps) -> Forall2 (fun b t => In (b_id b, t) ps) l ts ->
  Permutation (map b_id l) (map fst ps) -> Permutation ts (map snd ps).
Proof.
  intros ND F P.
  assert (L : length l = length ts) by (clear - F; induction F; cbn; congruence).
  assert (Hin : incl (combine (map b_id l) ts) ps).
  { clear - F. induction F as [|b t l ts H F IH]; [easy|]. cbn. intros x [<-|Hx]; auto. }
  assert (Es : ts = map snd (combine (map b_id l) ts)).
  { clear - L. revert ts L; induction l as [|b l IH]; intros [|t ts] L; cbn in *; try easy. f_equal. apply IH. lia. }
  assert (Ef : map b_id l = map fst (combine (map b_id l) ts)).
  { clear - L. revert ts L; induction l as [|b l IH]; intros [|t ts] L; cbn in *; try easy. f_equal. apply IH. lia. }
  rewrite Es. apply Permutation_map. apply NoDup_Permutation_bis; [|rewrite combine_length, map_length|exact Hin].
  - apply (NoDup_map_inv fst). rewrite <- Ef. eapply Permutation_NoDup; [symmetry; exact P|exact ND].
  - apply Permutation_length in P. rewrite !map_length in P. lia.
Qed.

Lemma word_count_wf d ps : wf d ps -> word_count d = Ok (Z.of_nat (count_words (join (map snd ps)))).
Proof.
  intros W. unfold word_count.
  assert (M : map b_id (get_multi d (d_fblocks d)) = d_fblocks d).
  { apply get_multi_ids. intros i Hi. eapply wf_has; [exact W|]. eapply Permutation_in; [apply (wf_fblocks _ _ W)|exact Hi]. }
  destruct (contents_wf d ps (get_multi d (d_fblocks d)) W) as (ts & E & F).
  { intros b Hb. eapply Permutation_in; [apply (wf_fblocks _ _ W)|]. rewrite <- M. now apply in_map. }
  rewrite E. cbn [bind]. f_equal.
  assert (P : Permutation ts (map snd ps)).
  { eapply forall2_ids; [apply (wf_nodup _ _ W)|exact F|]. rewrite M. apply (wf_fblocks _ _ W). }
  rewrite count_words_join, <- (sum_perm _ _ _ P). clear.
  induction ts as [|t ts IH]; cbn; [easy|]. rewrite IH, split_whitespace_count. lia.
Qed.

(** ** Slices *)

Lemma slice_boff t i j : i <= j -> j <= length t -> byte_slice t (boff t i) (boff t j) = Ok (firstn (j - i) (skipn i t)).
Proof.
  intros Hij Hj. unfold byte_slice. rewrite !is_boundary_boff by lia. pose proof (boff_mono t i j Hij).
  rewrite !b2c_boff by lia. destruct (boff t i <=? boff t j) eqn:E; [easy|lia].
Qed.

Lemma edge_exact t k : on_char_edge t k -> exists i, i <= length t /\ k = boff t i. Proof. easy. Qed.

Lemma boff_le_inv t i j : i <= length t -> boff t i <= boff t j -> i <= j.
Proof. intros Hi H. destruct (le_lt_dec i j); [easy|]. pose proof (boff_lt t j i ltac:(easy) ltac:(lia)). lia. Qed.

Lemma firstn_between {A} i j (l : list A) : i <= j -> firstn j l = firstn i l ++ firstn (j - i) (skipn i l).
Proof.
  intros H. revert j l H; induction i as [|i IH]; intros j l H; cbn; [now rewrite Nat.sub_0_r|].
  destruct l as [|x l]; [now rewrite !firstn_nil|]. destruct j as [|j]; [lia|]. cbn. f_equal. apply IH. lia.
Qed.

Lemma styled_slice off t runs i j : i <= j -> j <= length t ->
  firstn (j - i) (skipn i (styled_from off t runs)) = styled_from (off + boff t i) (firstn (j - i) (skipn i t)) runs.
Proof.
  intros Hij Hj.
  rewrite <- (firstn_skipn i t) at 1. rewrite styled_app, skipn_exact by (rewrite styled_length, firstn_length; lia).
  fold (boff t i). rewrite <- (firstn_skipn (j - i) (skipn i t)) at 1. rewrite styled_app, firstn_exact; [easy|].
  rewrite styled_length, firstn_length, skipn_length. lia.
Qed.

Lemma styled_slice_const t runs i j f : i <= j -> j <= length t ->
  (forall k, boff t i <= k < boff t j -> eff_at runs k = f) ->
  firstn j (styled t runs) = firstn i (styled t runs) ++ map (fun c => Chr c f) (firstn (j - i) (skipn i t)).
Proof.
  intros Hij Hj H. rewrite (firstn_between i j) by easy. f_equal. unfold styled. rewrite styled_slice by easy.
  apply styled_const. intros k Hk. apply H.
  assert (boff t j = boff t i + blen (firstn (j - i) (skipn i t))).
  { unfold boff at 1. rewrite (firstn_between i j) by easy. now rewrite blen_app. }
  lia.
Qed.

Lemma boff_between t i j : i <= j -> boff t j = boff t i + blen (firstn (j - i) (skipn i t)).
Proof. intros H. unfold boff at 1. rewrite (firstn_between i j) by easy. now rewrite blen_app. Qed.

(** ** Fragments *)

Lemma layout_app b fs1 : forall off byte o1 b1 fs2 o2 b2,
  layout b off byte fs1 o1 b1 -> layout b o1 b1 fs2 o2 b2 -> layout b off byte (fs1 ++ fs2) o2 b2.
Proof.
  induction fs1 as [|[t f o n e|i o e] fs1 IH]; cbn [app layout]; intros.
  - destruct H as [-> ->]. easy.
  - intuition eauto.
  - intuition eauto.
Qed.

Section Fragments.
Variables (t : str) (b : id) (runs : list run).

Definition finv (st : fstate) (n : nat) : Prop :=
  n <= length t /\ fs_byte st = boff t n
  /\ flat_map frag_items (fs_out st) = firstn n (styled t runs)
  /\ layout b 0 0 (fs_out st) (fs_off st) (boff t n).

Definition fimgs (st : fstate) : list image := flat_map frag_images_of (fs_out st).

Lemma emit_frag_ok st n m f : finv st n -> n <= m -> m <= length t ->
  (forall k, boff t n <= k < boff t m -> eff_at runs k = f) ->
  exists st', emit_frag t b (boff t n) (boff t m) f st = Ok st' /\ finv st' m /\ fimgs st' = fimgs st.
Proof.
  intros (I1 & I2 & I3 & I4) Hnm Hm Hf. unfold emit_frag.
  destruct (boff t m <=? boff t n) eqn:E.
  - assert (m = n). { assert (m <= n) by (apply (boff_le_inv t); lia). lia. } subst m.
    exists st. split; [easy|]. split; [|easy]. repeat split; auto.
  - rewrite slice_boff by easy. cbn [bind]. eexists. split; [reflexivity|].
    set (u := firstn (m - n) (skipn n t)).
    assert (Hu : u <> []).
    { intros Hu. assert (L : length u = m - n) by (unfold u; rewrite firstn_length, skipn_length; lia).
      rewrite Hu in L. cbn in L. assert (m = n) by lia. subst. lia. }
    unfold fimgs. cbn [fs_out fs_off fs_byte]. split; [split; [easy|split; [easy|split]]|].
    + cbn [fs_out]. rewrite flat_map_app. cbn [flat_map frag_items]. rewrite app_nil_r, I3.
      symmetry. now apply styled_slice_const.
    + cbn [fs_out fs_off]. eapply layout_app; [exact I4|]. cbn [layout]. split; [exact Hu|].
      split; [easy|]. split; [easy|]. split; [easy|]. split; [easy|].
      fold u. unfold u. now rewrite <- boff_between.
    + rewrite flat_map_app. cbn. now rewrite app_nil_r.
Qed.

Lemma emit_img_ok st n i : finv st n -> ioff i = boff t n ->
  finv (emit_img b i st) n /\ fimgs (emit_img b i st) = fimgs st ++ [i].
Proof.
  intros (I1 & I2 & I3 & I4) Hi. unfold fimgs, emit_img. cbn [fs_out]. split; [|now rewrite flat_map_app].
  split; [easy|]. split; [easy|]. cbn [fs_out fs_off]. rewrite flat_map_app. cbn [flat_map frag_items]. rewrite app_nil_r.
  split; [easy|]. eapply layout_app; [exact I4|]. cbn [layout]. repeat split; auto. lia.
Qed.

Definition img_ok (lo : nat) (imgs : list image) : Prop :=
  ascending imgs /\ Forall (fun i => on_char_edge t (ioff i) /\ lo <= ioff i) imgs.

Lemma ascending_tail i imgs : ascending (i :: imgs) -> ascending imgs /\ Forall (fun j => ioff i <= ioff j) imgs.
Proof.
  revert i; induction imgs as [|j imgs IH]; intros i H; [split; [exact I|constructor]|].
  destruct H as [H1 H2]. split; [exact H2|]. destruct (IH _ H2) as [_ F]. constructor; [easy|].
  eapply Forall_impl; [|exact F]. cbn. lia.
Qed.

Lemma img_ok_tail lo i imgs : img_ok lo (i :: imgs) -> img_ok (ioff i) imgs.
Proof.
  intros [H1 H2]. inversion H2 as [|? ? [H3 H4] H5]; subst. destruct (ascending_tail _ _ H1) as [H6 H7].
  split; [easy|]. rewrite Forall_forall in *. intros j Hj. split; [now apply H5|]. now apply H7.
Qed.

Lemma frag_images_ok r imgs : forall st n m,
  finv st n -> n <= m -> m <= length t -> rstart r <= boff t m <= rend r ->
  on_char_edge t (rend r) ->
  (forall k, boff t n <= k < boff t m -> eff_at runs k = cfmt_default) ->
  (forall k, rstart r <= k < rend r -> eff_at runs k = rfmt r) ->
  img_ok (boff t n) imgs ->
  (boff t m = rstart r \/ Forall (fun i => boff t m <= ioff i) imgs) ->
  exists imgs' m' st' n', frag_images t b r imgs (boff t m) st = Ok (imgs', boff t m', st')
    /\ finv st' n' /\ n' <= m' /\ m' <= length t /\ rstart r <= boff t m' <= rend r
    /\ (forall k, boff t n' <= k < boff t m' -> eff_at runs k = cfmt_default)
    /\ img_ok (rend r) imgs' /\ fimgs st' ++ imgs' = fimgs st ++ imgs.
Proof.
  induction imgs as [|i imgs IH]; intros st n m F Hnm Hm Hr Er Hgap Hrun Him Hor; cbn [frag_images].
  - exists [], m, st, n. split; [easy|]. split; [easy|]. split; [easy|]. split; [easy|]. split; [easy|]. split; [easy|].
    split; [split; [exact I|constructor]|easy].
  - pose proof (img_ok_tail _ _ _ Him) as Ht. destruct Him as [Ha Hf]. inversion Hf as [|? ? [(q & Hq & Eq) Hlo] Hf']; subst.
    pose proof F as (F1 & F2 & F3 & F4).
    assert (Hnq : n <= q) by (apply (boff_le_inv t); [easy|lia]).
    destruct (ioff i <? rstart r) eqn:E1.
    + assert (Hm' : boff t m = rstart r).
      { destruct Hor as [H|H]; [easy|]. inversion H; subst. lia. }
      destruct (emit_frag_ok st n q cfmt_default F Hnq Hq) as (st1 & E & F' & G1).
      { intros k Hk. apply Hgap. lia. }
      rewrite F2, Eq, E. cbn [bind].
      destruct (emit_img_ok st1 q i F' Eq) as [F'' G2].
      assert (Hqm : q <= m) by (apply (boff_le_inv t); [easy|lia]).
      destruct (IH (emit_img b i st1) q m F'' Hqm Hm Hr Er) as (imgs' & m' & st' & n' & E' & A1 & A2 & A3 & A4 & A5 & A6 & A7).
      * intros k Hk. apply Hgap. lia.
      * exact Hrun.
      * now rewrite <- Eq.
      * now left.
      * exists imgs', m', st', n'. rewrite E'. repeat (split; [easy|]). rewrite A7, G2, G1, <- app_assoc. easy.
    + destruct (ioff i <=? rend r) eqn:E2.
      * assert (Hmq : m <= q).
        { apply (boff_le_inv t); [easy|]. destruct Hor as [H|H]; [lia|]. inversion H; subst. lia. }
        destruct (emit_frag_ok st n m cfmt_default F Hnm Hm Hgap) as (st1 & E & F' & G1).
        rewrite F2, E. cbn [bind].
        destruct (emit_frag_ok st1 m q (rfmt r) F' Hmq Hq) as (st2 & E' & F'' & G2).
        { intros k Hk. apply Hrun. lia. }
        rewrite Eq, E'. cbn [bind]. destruct (emit_img_ok st2 q i F'' Eq) as [F3' G3].
        destruct F3' as (B1 & B2 & B3 & B4).
        set (st3 := mk_fstate _ _ _).
        assert (F5 : finv st3 q) by (split; [easy|]; split; [easy|]; split; [exact B3|exact B4]).
        destruct (IH st3 q q F5 (le_n _) Hq) as (imgs' & m' & st' & n' & E'' & A1 & A2 & A3 & A4 & A5 & A6 & A7).
        -- lia.
        -- exact Er.
        -- intros; lia.
        -- exact Hrun.
        -- now rewrite <- Eq.
        -- right. rewrite <- Eq. destruct Ht as [_ Ht]. eapply Forall_impl; [|exact Ht]. cbn. tauto.
        -- exists imgs', m', st', n'. rewrite E''. repeat (split; [easy|]).
           rewrite A7. change (fimgs st3) with (fimgs (emit_img b i st2)). rewrite G3, G2, G1, <- app_assoc. easy.
      * exists (i :: imgs), m, st, n. repeat (split; [easy|]). split; [|easy]. split; [exact Ha|].
        destruct Ht as [_ Ht]. constructor; [split; [now exists q|lia]|].
        eapply Forall_impl; [|exact Ht]. cbn. intros j [? ?]. split; [easy|lia].
Qed.

Lemma frag_runs_ok rest : forall imgs st n,
  finv st n -> ordered (boff t n) rest -> edges (on_char_edge t) rest ->
  (forall k, boff t n <= k -> eff_at runs k = eff_at rest k) ->
  img_ok (boff t n) imgs ->
  exists imgs' st' n', frag_runs t b rest imgs st = Ok (imgs', st') /\ finv st' n'
    /\ (forall k, boff t n' <= k -> eff_at runs k = cfmt_default)
    /\ img_ok (boff t n') imgs' /\ fimgs st' ++ imgs' = fimgs st ++ imgs.
Proof.
  induction rest as [|r rest IH]; intros imgs st n F O E Heff Him; cbn [frag_runs].
  - exists imgs, st, n. split; [easy|]. split; [easy|]. split; [intros k Hk; now rewrite Heff|]. split; [exact Him|easy].
  - inversion E as [|? ? [E1 E2] E3]; subst. destruct O as (O1 & O2 & O3).
    destruct E1 as (m & Hm & Em). pose proof E2 as (z & Hz & Ez).
    pose proof F as (F1 & F2 & F3 & F4).
    assert (Hgap : forall k, boff t n <= k < rstart r -> eff_at runs k = cfmt_default).
    { intros k Hk. rewrite Heff by lia. unfold eff_at. cbn [fmt_at].
      destruct (covers r k) eqn:C; [apply covers_true in C; lia|].
      rewrite (fmt_at_below (rend r)) by (try easy; lia). easy. }
    assert (Hrun : forall k, rstart r <= k < rend r -> eff_at runs k = rfmt r).
    { intros k Hk. rewrite Heff by lia. unfold eff_at. cbn [fmt_at]. now rewrite (proj2 (covers_true r k)) by lia. }
    assert (Hnm : n <= m) by (apply (boff_le_inv t); [easy|lia]).
    destruct (frag_images_ok r imgs st n m F Hnm Hm) as (imgs1 & m1 & st1 & n1 & Ei & A1 & A2 & A3 & A4 & A5 & A6 & A7).
    + lia.
    + exact E2.
    + rewrite <- Em. exact Hgap.
    + exact Hrun.
    + exact Him.
    + left. easy.
    + rewrite Em, Ei. cbn [bind]. pose proof A1 as (B1 & B2 & B3 & B4). rewrite B2.
      destruct (emit_frag_ok st1 n1 m1 cfmt_default A1 A2 A3 A5) as (st2 & E4 & F5 & G1). rewrite E4. cbn [bind].
      assert (Hmz : m1 <= z) by (apply (boff_le_inv t); [easy|lia]).
      destruct (emit_frag_ok st2 m1 z (rfmt r) F5 Hmz Hz) as (st3 & E5 & F6 & G2).
      { intros k Hk. apply Hrun. lia. }
      rewrite Ez, E5. cbn [bind].
      destruct (IH imgs1 st3 z F6) as (imgs2 & st4 & n4 & E6 & C1 & C2 & C3 & C4).
      * now rewrite <- Ez.
      * exact E3.
      * intros k Hk. rewrite Heff by lia. unfold eff_at. cbn [fmt_at].
        destruct (covers r k) eqn:C; [apply covers_true in C; lia|]. easy.
      * now rewrite <- Ez.
      * exists imgs2, st4, n4. rewrite E6. repeat (split; [easy|]). now rewrite C4, G2, G1.
Qed.

Lemma frag_tail_ok imgs : forall st n,
  finv st n -> (forall k, boff t n <= k -> eff_at runs k = cfmt_default) -> img_ok (boff t n) imgs ->
  exists st' n', frag_tail t b imgs st = Ok st' /\ finv st' n'
    /\ (forall k, boff t n' <= k -> eff_at runs k = cfmt_default) /\ fimgs st' = fimgs st ++ imgs.
Proof.
  induction imgs as [|i imgs IH]; intros st n F H Him; cbn [frag_tail].
  - exists st, n. repeat (split; [easy|]). now rewrite app_nil_r.
  - pose proof (img_ok_tail _ _ _ Him) as Ht. destruct Him as [Ha Hf]. inversion Hf as [|? ? [(q & Hq & Eq) Hlo] Hf']; subst.
    pose proof F as (F1 & F2 & F3 & F4).
    assert (Hnq : n <= q) by (apply (boff_le_inv t); [easy|lia]).
    destruct (emit_frag_ok st n q cfmt_default F Hnq Hq) as (st1 & E & F' & G1).
    { intros k Hk. apply H. lia. }
    rewrite F2, Eq, E. cbn [bind]. destruct (emit_img_ok st1 q i F' Eq) as [F'' G2].
    destruct (IH (emit_img b i st1) q F'') as (st' & n' & E' & A1 & A2 & A3).
    + intros k Hk. apply H. pose proof (boff_mono t n q Hnq). lia.
    + now rewrite <- Eq.
    + exists st', n'. rewrite E'. repeat (split; [easy|]). rewrite A3, G2, G1, <- app_assoc. easy.
Qed.

Lemma fragments_ok imgs : wf_runs t runs -> img_ok 0 imgs ->
  exists fs, build_raw_fragments t b runs imgs = Ok fs
    /\ flat_map frag_items fs = styled t runs /\ flat_map frag_images_of fs = imgs
    /\ layout b 0 0 fs (length t + length imgs) (blen t).
Proof.
  intros (Ho & _ & He) Him. unfold build_raw_fragments.
  assert (F0 : finv (mk_fstate [] 0 0) 0) by (split; [lia|]; repeat split).
  destruct (frag_runs_ok runs imgs _ 0 F0 Ho He ltac:(easy) Him) as (imgs1 & st1 & n1 & -> & F1 & G1 & I1 & J1). cbn [bind].
  destruct (frag_tail_ok imgs1 st1 n1 F1 G1 I1) as (st2 & n2 & -> & F2 & G2 & J2). cbn [bind].
  pose proof F2 as (K1 & K2 & K3 & K4). rewrite K2, <- (boff_all t (length t)) by lia.
  destruct (emit_frag_ok st2 n2 (length t) cfmt_default F2 K1 (le_n _)) as (st3 & -> & F3 & J3).
  { intros k Hk. apply G2. lia. }
  cbn [bind]. exists (fs_out st3). destruct F3 as (L1 & L2 & L3 & L4). split; [easy|].
  split; [rewrite L3; apply firstn_all2; unfold styled; rewrite styled_length; lia|].
  assert (Im : flat_map frag_images_of (fs_out st3) = imgs).
  { change (fimgs st3 = imgs). rewrite J3, J2, J1. easy. }
  split; [exact Im|].
  assert (Off : fs_off st3 = length t + length imgs).
  { assert (Q : forall fs o y o' y', layout b o y fs o' y' ->
       o' = o + length (flat_map frag_items fs) + length (flat_map frag_images_of fs)).
    { clear. induction fs as [|[u f o n e|i o e] fs IH]; cbn [layout flat_map frag_items frag_images_of]; intros.
      - cbn. destruct H. lia.
      - destruct H as (_ & _ & _ & _ & H). apply IH in H. rewrite !app_length, map_length. cbn. lia.
      - destruct H as (_ & _ & _ & H). apply IH in H. cbn. lia. }
    rewrite (Q _ _ _ _ _ L4), Im, L3, firstn_length. unfold styled. rewrite styled_length. lia. }
  now rewrite <- Off.
Qed.

End Fragments.

(** The format of a character, read through the fragments. *)
Lemma format_in_text b fs : forall off byte off' byte' k c f,
  flat_map frag_images_of fs = [] -> layout b off byte fs off' byte' -> off <= k ->
  nth_error (flat_map frag_items fs) (k - off) = Some (Chr c f) -> format_in fs k = Some f.
Proof.
  induction fs as [|[t g o n e|i o e] fs IH]; intros off byte off' byte' k c f Him L Hk Hn; cbn [flat_map frag_items frag_images_of layout format_in] in *.
  - destruct (k - off); discriminate.
  - destruct L as (L1 & -> & -> & -> & L2). destruct (k <? off + length t) eqn:E.
    + rewrite (proj2 (Nat.leb_le _ _) Hk). cbn [andb]. rewrite nth_error_app1 in Hn by (rewrite map_length; lia).
      rewrite nth_error_map in Hn. destruct (nth_error t (k - off)); cbn [option_map] in Hn; congruence.
    + rewrite andb_false_r. rewrite nth_error_app2 in Hn by (rewrite map_length; lia). rewrite map_length in Hn.
      eapply IH; [exact Him|exact L2|lia|]. replace (k - (off + length t)) with (k - off - length t) by lia. exact Hn.
  - discriminate.
Qed.

Lemma format_in_out b fs : forall off byte off' byte' k,
  flat_map frag_images_of fs = [] -> layout b off byte fs off' byte' -> off' <= k -> format_in fs k = None.
Proof.
  induction fs as [|[t g o n e|i o e] fs IH]; intros off byte off' byte' k Him L Hk; cbn [flat_map frag_items frag_images_of layout format_in] in *.
  - easy.
  - destruct L as (L1 & -> & -> & -> & L2).
    assert (Q : off + length t <= off').
    { clear - L2. revert L2. generalize (off + length t) (byte + blen t). induction fs as [|[u f o n e|i o e] fs IH]; cbn [layout]; intros x y H.
      - lia.
      - destruct H as (_ & _ & _ & _ & H). apply IH in H. lia.
      - destruct H as (_ & _ & _ & H). apply IH in H. lia. }
    destruct (k <? off + length t) eqn:E; [lia|]. rewrite andb_false_r. eapply IH; eauto.
  - discriminate.
Qed.

Lemma block_fragments_wf d pre b t post : wf d (pre ++ (b, t) :: post) ->
  exists fs, block_fragments d b = Ok fs /\ flat_map frag_items fs = styled t (d_runs d b)
   /\ layout b 0 0 fs (length t) (blen t) /\ flat_map frag_images_of fs = [].
Proof.
  intros W. unfold block_fragments. destruct (wf_get_mid _ _ _ _ _ W) as [x ->].
  rewrite (wf_content _ _ _ _ _ W). cbn [bind]. rewrite (wf_images _ _ W).
  destruct (fragments_ok t b (d_runs d b) []) as (fs & E & F1 & F2 & F3).
  - apply (wf_runs_in _ _ W). rewrite in_app_iff. right. now left.
  - split; [exact I|constructor].
  - exists fs. rewrite Nat.add_0_r in F3. auto.
Qed.

(** ** Segments, no image *)

Lemma seg_runs_ok t runs rest : forall n out,
  n <= length t -> ordered (boff t n) rest -> edges (on_char_edge t) rest ->
  (forall k, boff t n <= k -> eff_at runs k = eff_at rest k) ->
  flat_map seg_items out = firstn n (styled t runs) ->
  exists n' out', seg_runs t rest [] (boff t n) out = Ok ([], boff t n', out') /\ n' <= length t
    /\ flat_map seg_items out' = firstn n' (styled t runs)
    /\ (forall k, boff t n' <= k -> eff_at runs k = cfmt_default).
Proof.
  assert (EM : forall n m f out, n <= m -> m <= length t -> (forall k, boff t n <= k < boff t m -> eff_at runs k = f) ->
     flat_map seg_items out = firstn n (styled t runs) ->
     exists out', emit_text t (boff t n) (boff t m) f out = Ok out' /\ flat_map seg_items out' = firstn m (styled t runs)).
  { intros n m f out Hnm Hm Hf Ho. unfold emit_text. destruct (boff t m <=? boff t n) eqn:E.
    - assert (m = n). { assert (m <= n) by (apply (boff_le_inv t); lia). lia. } subst m. eauto.
    - rewrite slice_boff by easy. cbn [bind]. eexists. split; [reflexivity|].
      rewrite flat_map_app, Ho. cbn [flat_map seg_items]. rewrite app_nil_r. symmetry. now apply styled_slice_const. }
  induction rest as [|r rest IH]; intros n out Hn O E Heff Ho; cbn [seg_runs].
  - exists n, out. repeat (split; [easy|]). intros k Hk. now rewrite Heff.
  - inversion E as [|? ? [E1 E2] E3]; subst. destruct O as (O1 & O2 & O3).
    destruct E1 as (m & Hm & Em). destruct E2 as (z & Hz & Ez). cbn [seg_images_before bind].
    assert (Hnm : n <= m) by (apply (boff_le_inv t); [easy|lia]).
    assert (Hmz : m <= z) by (apply (boff_le_inv t); [easy|lia]).
    destruct (EM n m cfmt_default out Hnm Hm) as (o1 & E4 & Ho1).
    { intros k Hk. rewrite Heff by lia. unfold eff_at. cbn [fmt_at].
      destruct (covers r k) eqn:C; [apply covers_true in C; lia|].
      rewrite (fmt_at_below (rend r)) by (try easy; lia). easy. }
    { exact Ho. }
    rewrite Em, E4. cbn [bind].
    destruct (EM m z (rfmt r) o1 Hmz Hz) as (o2 & E5 & Ho2).
    { intros k Hk. pose proof (boff_mono t n m Hnm). rewrite Heff by lia. unfold eff_at. cbn [fmt_at]. now rewrite (proj2 (covers_true r k)) by lia. }
    { exact Ho1. }
    rewrite Ez, E5. cbn [bind]. apply IH; auto.
    + now rewrite <- Ez.
    + intros k Hk. rewrite Heff by lia. unfold eff_at. cbn [fmt_at].
      destruct (covers r k) eqn:C; [apply covers_true in C; lia|]. easy.
Qed.

Lemma segments_ok t runs : wf_runs t runs ->
  exists ss, inline_segments_view t runs [] = Ok ss /\ flat_map seg_items ss = styled t runs.
Proof.
  intros (Ho & _ & He). unfold inline_segments_view.
  destruct (seg_runs_ok t runs runs 0 [] ltac:(lia) Ho He ltac:(easy) eq_refl) as (n & out & E & Hn & Hout & Hd).
  rewrite boff_0 in E. rewrite E. cbn [bind seg_tail]. unfold emit_text.
  rewrite <- (boff_all t (length t)) by lia. destruct (boff t (length t) <=? boff t n) eqn:E1.
  - exists out. split; [easy|]. rewrite Hout. apply firstn_all2. unfold styled. rewrite styled_length.
    apply (boff_le_inv t); [|apply Nat.leb_le, E1]. lia.
  - rewrite slice_boff by lia. cbn [bind]. eexists. split; [reflexivity|]. rewrite flat_map_app, Hout.
    cbn [flat_map seg_items]. rewrite app_nil_r. rewrite <- styled_slice_const; [|easy|lia|].
    + apply firstn_all2. unfold styled. rewrite styled_length. lia.
    + intros k Hk. apply Hd. lia.
Qed.

(** ** Text at a position *)

Lemma take_segments_ok ss : forall co off rem,
  let T := flat_map segment_text ss in
  co <= off \/ off = co \/ off <= co ->
  take_segments ss co off rem = (firstn rem (skipn (off - co) T), rem - (length T - (off - co))).
Proof.
  induction ss as [|s ss IH]; intros co off rem T _; cbn [take_segments flat_map] in *.
  - unfold T. cbn. rewrite skipn_nil, firstn_nil. cbn. f_equal. lia.
  - destruct (Nat.eqb_spec rem 0) as [->|Hr]; [now rewrite Nat.sub_0_l|].
    set (u := segment_text s) in *. set (T' := flat_map segment_text ss) in *. unfold T. cbn [flat_map]. fold u T'.
    rewrite skipn_app, app_length. destruct (off <? co + length u) eqn:E.
    + rewrite IH by lia. fold T'. replace (off - (co + length u)) with 0 by lia. cbn [skipn].
      rewrite (firstn_app rem), skipn_length. replace (off - co - length u) with 0 by lia. cbn [skipn].
      f_equal; [f_equal|].
      * destruct (Nat.le_ge_cases (length u - (off - co)) rem).
        -- rewrite Nat.min_l by easy. rewrite !firstn_all2; [easy| |]; rewrite skipn_length; lia.
        -- now rewrite Nat.min_r by easy.
      * f_equal. lia.
      * lia.
    + rewrite IH by lia. fold T'. rewrite (skipn_all2 u) by lia. cbn [app].
      replace (off - co - length u) with (off - (co + length u)) by lia. f_equal. lia.
Qed.

Lemma segs_text ss : flat_map seg_items ss = flat_map seg_items ss ->
  (forall s, In s ss -> match s with SegText _ _ => True | SegImage _ => False end) ->
  flat_map segment_text ss = plain (flat_map seg_items ss).
Proof.
  intros _. induction ss as [|s ss IH]; intros H; [easy|]. cbn [flat_map]. rewrite plain_app, <- IH by (intros; apply H; now right).
  f_equal. destruct s as [t f|i]; [|destruct (H _ (or_introl eq_refl))].
  cbn. unfold plain. rewrite map_map. cbn. symmetry. apply map_id.
Qed.
