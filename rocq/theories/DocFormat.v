(** Formatting a range of characters, and paragraph formats. *)
From Verif Require Import Base BaseFacts FormatRunsModel FormatRunsSpec FormatRunsFacts
  RopeModel RopeSpec RopeFacts DocModel DocSpec BlockFacts DocInv DocFacts DocAttr DocDelete DocReplace DocImport.
From Coq Require Import Permutation.

Definition block_fmt_runs (m : cfmt -> cfmt) (rs re pos : Z) (t : str) (runs : list run) : list run :=
  let n := Z.of_nat (length t) in
  if ((pos + n <=? rs) || (re <=? pos))%Z then runs
  else
    let x := boff t (Z.to_nat (Z.max 0 (rs - pos))) in
    let y := boff t (Z.to_nat (Z.min n (re - pos))) in
    if y <=? x then runs else format_block_runs m runs x y.

Lemma boff_edge (t : str) k : on_char_edge t (boff t k).
Proof. exists (Nat.min k (length t)). split; [lia|]. apply boff_min. Qed.

Lemma block_fmt_runs_wf m rs re pos t runs : wf_runs t runs -> wf_runs t (block_fmt_runs m rs re pos t runs).
Proof.
  intros W. unfold block_fmt_runs. dif; [easy|]. dif; [easy|].
  apply format_block_runs_wf; auto using boff_edge. lia.
Qed.

(** Only the runs change. *)
Record same_but_runs (d d' : doc) : Prop := {
  sbr_rs : d_rs d' = d_rs d;
  sbr_blocks : d_blocks d' = d_blocks d;
  sbr_images : forall b, d_images d' b = [];
  sbr_f : d_fblocks d' = d_fblocks d;
  sbr_o : d_order d' = d_order d;
  sbr_c : d_chars d' = d_chars d;
  sbr_n : d_nblocks d' = d_nblocks d;
  sbr_x : d_next d' = d_next d
}.

Lemma sbr_trans a b c : same_but_runs a b -> same_but_runs b c -> same_but_runs a c.
Proof. intros [] []. constructor; try congruence. Qed.

Lemma sbr_step d i R im :
  (forall b, d_images d b = []) -> im = [] -> same_but_runs d (set_images (set_runs d i R) i im).
Proof.
  intros H ->. constructor; try reflexivity. intros b. cbn. unfold upd. now destruct (N.eqb b i).
Qed.

Lemma restore_nil saved : restore_image_formats [] saved = [].
Proof. unfold restore_image_formats. induction saved; [easy|]. exact IHsaved. Qed.

Lemma format_blocks_full m rs re d ps : wf d ps -> forall bs d1,
  same_but_runs d d1 ->
  incl (map b_id bs) (map fst ps) -> NoDup (map b_id bs) ->
  (forall b t, In (b, t) ps -> wf_runs t (d_runs d1 b)) ->
  exists d2 ivs, format_blocks m rs re bs d1 = Ok (d2, ivs)
   /\ same_but_runs d1 d2
   /\ (forall b t x, In (b, t) ps -> find_block bs b = Some x ->
        d_runs d2 b = block_fmt_runs m rs re (b_pos x) t (d_runs d1 b))
   /\ (forall b, ~ In b (map b_id bs) -> d_runs d2 b = d_runs d1 b)
   /\ (forall e, (forall b, In b (map b_id bs) -> d_runs e b = d_runs d2 b) ->
        forall b, (In b (map b_id bs) -> d_runs (apply_inverse e ivs) b = d_runs d1 b)
               /\ (~ In b (map b_id bs) -> d_runs (apply_inverse e ivs) b = d_runs e b)).
Proof.
  intros W. induction bs as [|x bs IH]; intros d1 S Hin ND Hwf.
  - exists d1, []. cbn [format_blocks]. split; [easy|]. split; [constructor; try reflexivity; apply (sbr_images _ _ S)|].
    repeat split; try easy.
  - cbn [map] in *. inversion ND as [|? ? N1 N2]; subst.
    assert (Hin' : incl (map b_id bs) (map fst ps)) by (intros z Hz; apply Hin; now right).
    cbn [format_blocks]. set (i := b_id x) in *.
    assert (Hi : In i (map fst ps)) by (apply Hin; now left).
    apply in_map_iff in Hi. destruct Hi as ([i' t] & Ei & Hi). cbn [fst] in Ei. subst i'.
    assert (Hlen : char_length d1 i = Ok (Z.of_nat (length t))).
    { unfold char_length. rewrite (sbr_rs _ _ S). now apply (wf_length_in _ _ _ _ W). }
    rewrite Hlen. cbn [bind].
    pose proof (wf_nodup _ _ W) as NDps.
    assert (Huniq : forall t', In (i, t') ps -> t' = t).
    { intros t' Ht'. apply in_split in Hi. destruct Hi as (pre & post & ->).
      apply nodup_mid in NDps. destruct NDps as [M1 M2].
      rewrite in_app_iff in Ht'. cbn in Ht'. destruct Ht' as [H|[[= H]|H]]; [| easy |];
      apply (in_map fst) in H; cbn in H; contradiction. }
    (* continue without touching this block *)
    assert (Hskip : block_fmt_runs m rs re (b_pos x) t (d_runs d1 i) = d_runs d1 i ->
      exists d2 ivs, format_blocks m rs re bs d1 = Ok (d2, ivs)
       /\ same_but_runs d1 d2
       /\ (forall b t x0, In (b, t) ps -> find_block (x :: bs) b = Some x0 ->
            d_runs d2 b = block_fmt_runs m rs re (b_pos x0) t (d_runs d1 b))
       /\ (forall b, ~ In b (i :: map b_id bs) -> d_runs d2 b = d_runs d1 b)
       /\ (forall e, (forall b, In b (i :: map b_id bs) -> d_runs e b = d_runs d2 b) ->
            forall b, (In b (i :: map b_id bs) -> d_runs (apply_inverse e ivs) b = d_runs d1 b)
                   /\ (~ In b (i :: map b_id bs) -> d_runs (apply_inverse e ivs) b = d_runs e b))).
    { intros Hsame. destruct (IH d1 S Hin' N2 Hwf) as (d2 & ivs & E & S2 & H1 & H2 & H3).
      exists d2, ivs. split; [exact E|]. split; [exact S2|]. split; [|split].
      - intros b t' x0 Hb. cbn [find_block]. fold i. destruct (N.eqb_spec i b) as [<-|Nb].
        + intros [= <-]. rewrite (Huniq _ Hb), Hsame. now apply H2.
        + now apply H1.
      - intros b Hb. apply H2. intros H. apply Hb. now right.
      - intros e He b. destruct (H3 e (fun b Hb => He b (or_intror Hb)) b) as [K1 K2]. split.
        + intros [<-|Hb]; [|auto]. rewrite K2 by easy. rewrite He by now left. now apply H2.
        + intros Hb. apply K2. intros H. apply Hb. now right. }
    destruct ((b_pos x + Z.of_nat (length t) <=? rs) || (re <=? b_pos x))%Z eqn:E1.
    { apply Hskip. unfold block_fmt_runs. now rewrite E1. }
    apply in_split in Hi. destruct Hi as (pre & post & Eps).
    assert (R : rep (d_rs d1) (segs pre ++ (MBlock i, t) :: segs post)).
    { rewrite (sbr_rs _ _ S), <- segs_mid, <- Eps. apply (wf_rep _ _ W). }
    rewrite !(rep_char_to_byte _ _ _ _ _ _ R). cbn [bind].
    set (xo := boff t (Z.to_nat (Z.max 0 (rs - b_pos x)))). set (yo := boff t (Z.to_nat (Z.min _ _))).
    destruct (yo <=? xo) eqn:E2.
    { apply Hskip. unfold block_fmt_runs. rewrite E1. fold xo yo. now rewrite E2. }
    assert (Hin_i : In (i, t) ps) by (rewrite Eps, in_app_iff; right; now left).
    assert (Eb : block_fmt_runs m rs re (b_pos x) t (d_runs d1 i) = format_block_runs m (d_runs d1 i) xo yo).
    { unfold block_fmt_runs. rewrite E1. fold xo yo. now rewrite E2. }
    cbn [d_images set_runs]. rewrite (sbr_images _ _ S).
    change (format_block_images m [] xo yo) with (@nil image).
    change (capture_image_formats [] xo yo) with (@nil (nat * cfmt)).
    set (d1' := set_images _ i []).
    assert (S1 : same_but_runs d1 d1') by (apply sbr_step; [apply (sbr_images _ _ S)|easy]).
    assert (Hru : forall b, d_runs d1' b = upd (d_runs d1) i (format_block_runs m (d_runs d1 i) xo yo) b) by reflexivity.
    destruct (IH d1' (sbr_trans _ _ _ S S1) Hin' N2) as (d2 & ivs & E & S2 & H1 & H2 & H3).
    { intros b t' Hb. rewrite Hru. unfold upd. destruct (N.eqb_spec b i) as [->|]; [|now apply Hwf].
      rewrite (Huniq _ Hb), <- Eb. apply block_fmt_runs_wf. now apply Hwf. }
    rewrite E. cbn [bind]. eexists _, _. split; [reflexivity|]. split; [eapply sbr_trans; eassumption|].
    assert (Hother : forall b, b <> i -> d_runs d1' b = d_runs d1 b).
    { intros b Hb. rewrite Hru. unfold upd. apply N.eqb_neq in Hb. now rewrite Hb. }
    assert (Hself : d_runs d1' i = format_block_runs m (d_runs d1 i) xo yo).
    { rewrite Hru. unfold upd. now rewrite N.eqb_refl. }
    split; [|split].
    + intros b t' x0 Hb. cbn [find_block]. fold i. destruct (N.eqb_spec i b) as [<-|Nb].
      * intros [= <-]. rewrite (Huniq _ Hb), Eb, H2 by easy. exact Hself.
      * intros Hx0. rewrite (H1 _ _ _ Hb Hx0). rewrite Hother by congruence. reflexivity.
    + intros b Hb. rewrite H2; [|intros H; apply Hb; now right]. apply Hother. intros ->. apply Hb. now left.
    + intros e He. cbn [apply_inverse fold_left]. fold (apply_inverse (apply_inverse1 e (mk_inv i xo yo (capture_runs (d_runs d1 i) xo yo) [])) ivs).
      set (e1 := apply_inverse1 e _).
      assert (He1 : forall b, b <> i -> d_runs e1 b = d_runs e b).
      { intros b Hb. cbn. unfold upd. apply N.eqb_neq in Hb. now rewrite Hb. }
      assert (He2 : d_runs e1 i = d_runs d1 i).
      { cbn. unfold upd. rewrite N.eqb_refl, He by now left. rewrite H2, Hself by easy.
        destruct (Hwf _ _ Hin_i) as (O1 & O2 & _). apply format_block_runs_undo; auto. lia. }
      intros b. destruct (H3 e1) with (b := b) as [K1 K2].
      { intros c Hc. rewrite He1; [apply He; now right|]. intros ->. contradiction. }
      split.
      * intros [<-|Hb]; [rewrite K2 by easy; exact He2|].
        rewrite K1 by easy. apply Hother. intros ->. contradiction.
      * intros Hb. rewrite K2 by (intros H; apply Hb; now right). apply He1. intros ->. apply Hb. now left.
Qed.

Lemma apply_inverse_sbr ivs d : (forall b, d_images d b = []) -> same_but_runs d (apply_inverse d ivs).
Proof.
  revert d; induction ivs as [|iv ivs IH]; intros d H; [constructor; easy|].
  assert (S1 : same_but_runs d (apply_inverse1 d iv)).
  { unfold apply_inverse1. apply sbr_step; [easy|]. cbn. rewrite H. apply restore_nil. }
  eapply sbr_trans; [exact S1|]. apply IH. apply (sbr_images _ _ S1).
Qed.

Lemma wf_sbr d d' ps : wf d ps -> same_but_runs d d' ->
  (forall b t, In (b, t) ps -> wf_runs t (d_runs d' b)) ->
  (forall b, ~ In b (map fst ps) -> d_runs d' b = []) -> wf d' ps.
Proof.
  intros W [] H1 H2. destruct W. constructor; try congruence; try assumption.
  now rewrite sbr_x0.
Qed.

(** Formatting by position, on the items. *)
Fixpoint format_from (m : cfmt -> cfmt) (rs re n : Z) (its : list item) : list item :=
  match its with
  | [] => []
  | x :: rest => (if ((rs <=? n) && (n <? re))%Z then restyle m x else x) :: format_from m rs re (n + 1)%Z rest
  end.

Lemma format_from_app m rs re a : forall n b,
  format_from m rs re n (a ++ b) = format_from m rs re n a ++ format_from m rs re (n + Z.of_nat (length a))%Z b.
Proof.
  induction a as [|x a IH]; intros n b; cbn [app format_from length].
  - f_equal. lia.
  - rewrite IH. cbn [app]. do 3 f_equal. lia.
Qed.

Lemma format_from_out m rs re its : forall n, (n + Z.of_nat (length its) <= rs \/ re <= n \/ Z.of_nat (length its) = 0 \/ re <= rs)%Z ->
  format_from m rs re n its = its.
Proof.
  induction its as [|x its IH]; intros n H; cbn [format_from length] in *; [easy|].
  rewrite IH by lia. dif; [lia|easy].
Qed.

Lemma format_from_in m rs re its : forall n, (rs <= n)%Z -> (n + Z.of_nat (length its) <= re)%Z ->
  format_from m rs re n its = map (restyle m) its.
Proof.
  induction its as [|x its IH]; intros n H1 H2; cbn [format_from length map] in *; [easy|].
  rewrite IH by lia. dif; [easy|lia].
Qed.

Lemma format_from_spec m its p q : (p <= q)%Z ->
  format_from m p q 0 its = spec_format m (clip its p) (clip its q) its.
Proof.
  intros H. unfold spec_format, clip. set (s := Z.to_nat _). set (e := Z.to_nat _).
  assert (Hse : s <= e /\ e <= length its) by (unfold s, e; lia).
  rewrite <- (firstn_skipn s its) at 1. rewrite format_from_app.
  f_equal.
  - apply format_from_out. rewrite firstn_length. unfold s; lia.
  - rewrite <- (firstn_skipn (e - s) (skipn s its)) at 1. rewrite format_from_app.
    rewrite skipn_skipn. replace (s + (e - s)) with e by lia.
    destruct (Nat.eq_dec s e) as [E|E].
    + replace (e - s) with 0 by lia. rewrite !firstn_O. cbn [format_from app length map].
      apply format_from_out. rewrite skipn_length, firstn_length. unfold s, e in *. lia.
    + f_equal.
      * apply format_from_in; rewrite ?firstn_length, ?skipn_length; unfold s, e in *; lia.
      * apply format_from_out. rewrite !firstn_length, !skipn_length. unfold s, e in *. lia.
Qed.

Lemma block_fmt_styled m rs re pos t runs : (rs <= re)%Z ->
  wf_runs t runs ->
  styled t (block_fmt_runs m rs re pos t runs) = format_from m rs re pos (styled t runs).
Proof.
  intros Hse W. unfold block_fmt_runs. set (n := Z.of_nat (length t)).
  assert (L : forall r, Z.of_nat (length (styled t r)) = n) by (intros; unfold styled; now rewrite styled_length).
  destruct ((pos + n <=? rs) || (re <=? pos))%Z eqn:E1.
  { symmetry. apply format_from_out. rewrite L. lia. }
  set (i := Z.to_nat (Z.max 0 (rs - pos))). set (j := Z.to_nat (Z.min n (re - pos))).
  assert (Hij : j <= length t) by (unfold j, n in *; lia).
  destruct (boff t j <=? boff t i) eqn:E2.
  { assert (j <= i).
    { destruct (Nat.le_gt_cases j i); [easy|]. assert (boff t i < boff t j) by (apply boff_lt; unfold i, n in *; lia). lia. }
    symmetry. apply format_from_out. rewrite L. unfold i, j, n in *. lia. }
  assert (Hlt : i < j).
  { destruct (Nat.le_gt_cases j i); [|easy]. assert (boff t j <= boff t i) by now apply boff_mono. lia. }
  rewrite (boff_mid t i j), boff_split by lia.
  pose proof (cut3 t i j (Nat.lt_le_incl _ _ Hlt)) as Ec.
  assert (Hm : mid_text t i j <> []).
  { intros E. apply (f_equal (@length char)) in E. rewrite mid_text_length in E by lia. cbn in E. lia. }
  assert (Er : styled t runs = styled_from 0 (firstn i t ++ mid_text t i j ++ skipn j t) runs) by (unfold styled; now rewrite <- Ec).
  rewrite Ec in W. rewrite Ec at 1. rewrite (format_runs_styled _ _ _ _ _ W Hm).
  rewrite Er. unfold styled. rewrite !styled_app, !format_from_app, !styled_length. cbn [plus].
  rewrite firstn_length, mid_text_length by lia.
  f_equal; [|f_equal].
  - symmetry. apply format_from_out. rewrite styled_length, firstn_length. unfold i, j, n in *. lia.
  - symmetry. apply format_from_in; rewrite ?styled_length, ?mid_text_length by lia; unfold i, j, n in *; lia.
  - symmetry. apply format_from_out. rewrite styled_length, skipn_length. unfold i, j, n in *. lia.
Qed.

Lemma format_items m rs re R R' : (rs <= re)%Z -> forall post done,
  (forall b t, In (b, t) (done ++ post) -> wf_runs t (R b)) ->
  (forall pre b t post', done ++ post = pre ++ (b, t) :: post' ->
     R' b = block_fmt_runs m rs re (Z.of_nat (cpre pre)) t (R b)) ->
  items_of R' post = format_from m rs re (Z.of_nat (cpre done)) (items_of R post).
Proof.
  intros Hse. induction post as [|[b t] post IH]; intros done Hw Hr; [easy|].
  assert (Hb : R' b = block_fmt_runs m rs re (Z.of_nat (cpre done)) t (R b)) by (apply (Hr _ _ t post); easy).
  assert (Wb : wf_runs t (R b)) by (apply Hw; rewrite in_app_iff; right; now left).
  specialize (IH (done ++ [(b, t)])). rewrite <- app_assoc in IH. cbn [app] in IH.
  specialize (IH Hw Hr). rewrite cpre_app, cpre_one in IH.
  destruct post as [|[c u] post].
  - cbn. rewrite Hb. now apply block_fmt_styled.
  - change (items_of R' ((b, t) :: (c, u) :: post)) with (styled t (R' b) ++ Brk :: items_of R' ((c, u) :: post)).
    change (items_of R ((b, t) :: (c, u) :: post)) with (styled t (R b) ++ Brk :: items_of R ((c, u) :: post)).
    rewrite format_from_app. cbn [format_from restyle]. f_equal.
    + rewrite Hb. now apply block_fmt_styled.
    + rewrite IH. unfold styled. rewrite styled_length. f_equal; [now dif|]. f_equal. lia.
Qed.

Lemma sorted_f_ids d ps : wf d ps ->
  let bs := sort_blocks (get_multi d (d_fblocks d)) in
  (forall i, In i (map b_id bs) <-> In i (map fst ps)) /\ NoDup (map b_id bs)
  /\ (forall i x, find_block bs i = Some x -> get_block d i = Some x).
Proof.
  intros W bs. pose proof (wf_multi_f _ _ W) as M.
  assert (P : Permutation (map b_id bs) (map fst ps)).
  { etransitivity; [apply Permutation_map, sort_perm|]. rewrite M. apply (wf_fblocks _ _ W). }
  split; [|split].
  - intros i. split; apply Permutation_in; [exact P|now symmetry].
  - eapply Permutation_NoDup; [symmetry; exact P|]. eapply wf_nodup, W.
  - intros i x H. apply find_block_some in H. destruct H as [<- H].
    assert (Hx : In x (get_multi d (d_fblocks d))) by (eapply Permutation_in; [apply sort_perm|exact H]).
    clear - Hx. induction (d_fblocks d) as [|j l IH]; cbn [get_multi] in Hx; [easy|].
    destruct (get_block d j) as [y|] eqn:E; [|auto]. destruct Hx as [<-|Hx]; [|auto].
    pose proof (find_block_some _ _ _ E) as [-> _]. exact E.
Qed.

(** Formatting never leaves the invariant, changes nothing but formats, and is
    undone exactly. *)
Lemma format_text_full m d ps p a :
  wf d ps ->
  exists d' ivs, format_text m d p a = Ok (d', ivs)
   /\ wf d' ps /\ same_but_runs d d'
   /\ doc_eq (apply_inverse d' ivs) d /\ d_next (apply_inverse d' ivs) = d_next d'
   /\ (fresh d ps ->
       items_of (d_runs d') ps =
       spec_format m (clip (items_of (d_runs d) ps) (Z.min p a)) (clip (items_of (d_runs d) ps) (Z.max p a))
                   (items_of (d_runs d) ps)).
Proof.
  intros W. unfold format_text. set (bs := sort_blocks _).
  assert (S0 : same_but_runs d d) by (constructor; try reflexivity; apply (wf_images _ _ W)).
  destruct (Z.min p a =? Z.max p a)%Z eqn:E0.
  { exists d, []. split; [easy|]. split; [easy|]. split; [easy|]. split; [apply doc_eq_refl|]. split; [easy|].
    intros _. rewrite <- format_from_spec by lia. symmetry.
    assert (H : forall its n, format_from m (Z.min p a) (Z.max p a) n its = its).
    { induction its as [|x its IH]; intros n; cbn; [easy|]. rewrite IH. dif; [lia|easy]. }
    apply H. }
  destruct (sorted_f_ids _ _ W) as (B1 & B2 & B3). fold bs in B1, B2, B3.
  destruct (format_blocks_full m (Z.min p a) (Z.max p a) d ps W bs d S0) as (d' & ivs & E & S & H1 & H2 & H3).
  - intros i. apply B1.
  - exact B2.
  - apply (wf_runs_in _ _ W).
  - exists d', ivs. split; [exact E|].
    assert (Hfind : forall b t, In (b, t) ps -> exists x, find_block bs b = Some x /\ get_block d b = Some x).
    { intros b t Hb. assert (Hi : In b (map b_id bs)) by (apply B1, (in_map fst _ _ Hb)).
      destruct (find_block_in _ _ Hi) as (x & Hx & _). exists x. auto. }
    assert (Hout : forall b, ~ In b (map fst ps) -> d_runs d' b = []).
    { intros b Hb. rewrite H2 by (rewrite B1; exact Hb). now apply (wf_runs_out _ _ W). }
    assert (W' : wf d' ps).
    { eapply wf_sbr; [exact W|exact S| |exact Hout]. intros b t Hb. destruct (Hfind _ _ Hb) as (x & Hx & _).
      rewrite (H1 _ _ _ Hb Hx). apply block_fmt_runs_wf, (wf_runs_in _ _ W), Hb. }
    split; [exact W'|]. split; [exact S|].
    pose proof (apply_inverse_sbr ivs d' (sbr_images _ _ S)) as Si.
    assert (Hru : forall b, d_runs (apply_inverse d' ivs) b = d_runs d b).
    { intros b. destruct (H3 d' (fun _ _ => eq_refl) b) as [K1 K2].
      destruct (in_dec N.eq_dec b (map b_id bs)) as [Hb|Hb]; [now apply K1|].
      rewrite K2 by easy. now apply H2. }
    split; [|split].
    + assert (St : same_but_runs d (apply_inverse d' ivs)) by (eapply sbr_trans; eassumption).
      eapply wf_doc_eq.
      * eapply wf_sbr; [exact W|exact St| |]; intros; rewrite Hru; [now apply (wf_runs_in _ _ W)|now apply (wf_runs_out _ _ W)].
      * exact W.
      * apply (sbr_blocks _ _ St).
      * exact Hru.
      * apply (sbr_f _ _ St).
      * apply (sbr_c _ _ St).
      * apply (sbr_n _ _ St).
    + apply (sbr_x _ _ Si).
    + intros F. rewrite <- format_from_spec by lia.
      apply (format_items m (Z.min p a) (Z.max p a) (d_runs d) (d_runs d') ltac:(lia) ps []).
      * apply (wf_runs_in _ _ W).
      * intros pre b t post' Eq. cbn [app] in Eq.
        assert (Hb : In (b, t) ps) by (rewrite Eq, in_app_iff; right; now left).
        destruct (Hfind _ _ Hb) as (x & Hx & Hgx). rewrite (H1 _ _ _ Hb Hx).
        now rewrite (F _ _ _ _ Eq _ Hgx).
Qed.

(** ** Paragraph formats *)

Lemma blocks_in_range_ok d ps rs re bs : wf d ps -> incl (map b_id bs) (map fst ps) ->
  exists l, blocks_in_range d rs re bs = Ok l
  /\ l = filter (fun b => match char_length d (b_id b) with Ok n => overlaps (b_pos b) n rs re | _ => false end) bs.
Proof.
  intros W. induction bs as [|b bs IH]; intros H; [now exists []|].
  destruct IH as (l & E & El); [intros z Hz; apply H; now right|].
  assert (Hb : In (b_id b) (map fst ps)) by (apply H; now left).
  apply in_map_iff in Hb. destruct Hb as ([i t] & Ei & Hi). cbn in Ei. subst i.
  cbn [blocks_in_range filter]. rewrite (wf_length_in _ _ _ _ W Hi). cbn [bind]. rewrite E. cbn [bind].
  eexists. split; [reflexivity|]. rewrite El. now dif.
Qed.

Lemma set_block_format_full q d ps p a :
  wf d ps ->
  exists d', set_block_format q d p a = Ok d' /\ wf d' ps /\ d_runs d' = d_runs d /\ d_order d' = d_order d
   /\ d_chars d' = d_chars d /\ d_nblocks d' = d_nblocks d /\ d_next d' = d_next d
   /\ (forall b t x, In (b, t) ps -> get_block d b = Some x ->
        get_block d' b = Some (if overlaps (b_pos x) (Z.of_nat (length t)) (Z.min p a) (Z.max p a)
                               then set_b_fmt x (apply_bfmt q (b_fmt x)) else x)).
Proof.
  intros W. unfold set_block_format. set (bs := sort_blocks _).
  destruct (sorted_f_ids _ _ W) as (B1 & B2 & B3). fold bs in B1, B2, B3.
  destruct (blocks_in_range_ok d ps (Z.min p a) (Z.max p a) bs W (fun i => proj1 (B1 i))) as (l & -> & El).
  cbn [bind]. eexists. split; [reflexivity|].
  set (g := fun b => set_b_fmt b (apply_bfmt q (b_fmt b))). set (todo := map g l).
  assert (Hl : forall y, In y l -> In y bs) by (intros y; rewrite El, filter_In; tauto).
  assert (M : meta d (update_multi d todo)).
  { apply meta_update_multi. intros i Hi. unfold todo in Hi. rewrite map_map in Hi.
    apply in_map_iff in Hi. destruct Hi as (y & <- & Hy). cbn [g b_id set_b_fmt].
    eapply wf_has; [exact W|]. apply B1, in_map, Hl, Hy. }
  split; [eapply wf_meta; eassumption|]. split; [apply (meta_runs _ _ M)|]. split; [apply (meta_order _ _ M)|].
  split; [apply update_multi_chars|]. split; [apply update_multi_nblocks|]. split; [apply (meta_next _ _ M)|].
  assert (NDl : NoDup (map b_id l)).
  { rewrite El. clear - B2. induction bs as [|y bs IH]; [constructor|]. cbn [map] in B2. inversion B2 as [|? ? N1 N2]; subst.
    cbn [filter]. destruct (match _ with Ok _ => _ | _ => _ end); [|auto]. cbn [map]. constructor; [|auto].
    intros H. apply N1. apply in_map_iff in H. destruct H as (z & <- & Hz). apply filter_In in Hz. apply in_map. tauto. }
  assert (Hupd : forall l0 e i, NoDup (map b_id l0) -> (forall y, In y l0 -> get_block e (b_id y) = Some y) ->
     get_block (update_multi e (map g l0)) i
     = match find_block l0 i with Some y => Some (g y) | None => get_block e i end).
  { clear. induction l0 as [|y l0 IH]; intros e i ND H; [easy|]. cbn [map] in ND. inversion ND as [|? ? N1 N2]; subst.
    change (update_multi e (map g (y :: l0))) with (update_multi (update_block e (g y)) (map g l0)).
    assert (Hy : find_block (d_blocks e) (b_id y) = Some y) by (apply H; now left).
    assert (Hg : forall j, get_block (update_block e (g y)) j = if N.eqb (b_id y) j then Some (g y) else get_block e j).
    { intros j. unfold get_block. cbn [update_block set_blocks d_blocks]. rewrite find_put.
      - cbn [g set_b_fmt b_id]. rewrite Hy. destruct (N.eqb (b_id y) j); easy.
      - cbn [g set_b_fmt b_id]. apply find_block_some in Hy. apply in_map. tauto. }
    rewrite IH; [|easy|].
    - cbn [find_block]. rewrite Hg. destruct (N.eqb_spec (b_id y) i) as [<-|]; [|easy].
      destruct (find_block l0 (b_id y)) as [z|] eqn:E; [|easy]. exfalso. apply find_block_some in E.
      destruct E as [E1 E2]. apply N1. rewrite <- E1. now apply in_map.
    - intros z Hz. rewrite Hg. destruct (N.eqb_spec (b_id y) (b_id z)) as [E|]; [|apply H; now right].
      exfalso. apply N1. rewrite E. now apply in_map. }
  intros b t x Hb Hx. unfold todo. rewrite Hupd; [|exact NDl|].
  - assert (Hin : In b (map b_id bs)) by (apply B1, (in_map fst _ _ Hb)).
    destruct (find_block_in _ _ Hin) as (x' & Hx' & Hid & Hxb). pose proof (B3 _ _ Hx') as Hx2.
    rewrite Hx in Hx2. injection Hx2 as <-.
    pose proof (wf_length_in _ _ _ _ W Hb) as Hlen.
    dif.
    + assert (Hxl : In x l) by (rewrite El, filter_In, Hid, Hlen; auto).
      destruct (find_block l b) as [z|] eqn:E; [|].
      * apply find_block_some in E. destruct E as [E1 E2]. apply Hl in E2.
        assert (z = x); [|now subst]. clear - Hxb Hid E1 E2 B2.
        induction bs as [|y bs IH]; [easy|]. cbn [map] in B2. inversion B2 as [|? ? N1 N2]; subst.
        destruct Hxb as [->|Hxb], E2 as [->|E2]; auto; exfalso; apply N1.
        -- rewrite <- E1. now apply in_map.
        -- rewrite E1. now apply in_map.
      * exfalso. assert (Hi : In b (map b_id l)) by (rewrite <- Hid; now apply in_map).
        destruct (find_block_in _ _ Hi) as (z & Hz & _). congruence.
    + destruct (find_block l b) as [z|] eqn:E; [|easy].
      apply find_block_some in E. destruct E as [E1 E2]. rewrite El in E2. apply filter_In in E2. destruct E2 as [E2 E3].
      assert (z = x).
      { clear - Hxb Hid E1 E2 B2.
        induction bs as [|y bs IH]; [easy|]. cbn [map] in B2. inversion B2 as [|? ? N1 N2]; subst.
        destruct Hxb as [->|Hxb], E2 as [->|E2]; auto; exfalso; apply N1.
        -- rewrite <- E1. now apply in_map.
        -- rewrite E1. now apply in_map. }
      subst z. rewrite Hid, Hlen in E3. congruence.
  - intros y Hy. apply Hl in Hy. apply B3.
    assert (Hi : In (b_id y) (map b_id bs)) by now apply in_map.
    destruct (find_block_in _ _ Hi) as (z & Hz & Hzi & Hzb). rewrite Hz. f_equal.
    clear - Hzb Hzi Hy B2. induction bs as [|w bs IH]; [easy|]. cbn [map] in B2. inversion B2 as [|? ? N1 N2]; subst.
    destruct Hzb as [->|Hzb], Hy as [->|Hy]; auto; exfalso; apply N1.
    + rewrite Hzi. now apply in_map.
    + rewrite <- Hzi. now apply in_map.
Qed.
