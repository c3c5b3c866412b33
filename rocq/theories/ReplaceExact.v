(** Replacing ranges that do not overlap, when the stored positions are right. *)
From Verif Require Import Base BaseFacts FormatRunsModel FormatRunsSpec FormatRunsFacts
  RopeModel RopeSpec RopeFacts DocModel DocSpec BlockFacts DocInv DocFacts DocAttr DocDelete DocReplace
  DocImport DocFormat DocQuery DocFresh QueryModel QueryText SearchModel SearchSpec ReplaceFacts.
From Coq Require Import Permutation.

(** ** The sorted blocks *)

Lemma multi_mid d pre b t post : wf d (pre ++ (b, t) :: post) ->
  exists x, get_block d b = Some x /\ b_id x = b
   /\ get_multi d (map fst (pre ++ (b, t) :: post)) = get_multi d (map fst pre) ++ x :: get_multi d (map fst post)
   /\ length (get_multi d (map fst pre)) = length pre.
Proof.
  intros W. destruct (wf_get_mid _ _ _ _ _ W) as [x Ex]. exists x. split; [easy|].
  pose proof (find_block_some _ _ _ Ex) as [Hid _]. split; [easy|].
  assert (L : forall l : list para, (forall i, In i (map fst l) -> In i (map fst (pre ++ (b, t) :: post))) ->
     length (get_multi d (map fst l)) = length l).
  { intros l Hl. rewrite <- (map_length fst l), <- (map_length b_id). f_equal. apply get_multi_ids.
    intros i Hi. eapply wf_has; [exact W|auto]. }
  split; [|apply L; intros i Hi; rewrite map_app, in_app_iff; now left].
  assert (G : forall a c, get_multi d (a ++ c) = get_multi d a ++ get_multi d c).
  { induction a as [|i a IH]; intros c; cbn [app get_multi]; [easy|]. rewrite IH. now destruct (get_block d i). }
  rewrite map_app, G. cbn [map fst get_multi]. now rewrite Ex.
Qed.

Lemma get_multi_perm d l l' : Permutation l l' -> Permutation (get_multi d l) (get_multi d l').
Proof.
  induction 1; cbn [get_multi]; [easy| | |etransitivity; eassumption].
  - destruct (get_block d x); [now constructor|easy].
  - destruct (get_block d x), (get_block d y); try easy. apply perm_swap.
Qed.

Lemma fresh_sorted d ps : wf d ps -> fresh d ps ->
  sort_blocks (get_multi d (d_fblocks d)) = get_multi d (map fst ps).
Proof.
  intros W F. apply weak_strict; [|apply sort_weakly|].
  - assert (G : forall post pre, ps = pre ++ post -> strictly (get_multi d (map fst post))).
    { induction post as [|[b t] post IH]; intros pre E; [exact I|].
      rewrite E in W. destruct (multi_mid _ _ _ _ _ W) as (x & Ex & Hid & _). cbn [map fst get_multi]. rewrite Ex.
      cbn [strictly]. split; [|apply (IH (pre ++ [(b, t)])); rewrite <- app_assoc; exact E].
      rewrite Forall_forall. intros y Hy. pose proof (get_multi_get _ _ _ Hy) as Gy.
      assert (Iy : In (b_id y) (map fst post)).
      { rewrite <- (get_multi_ids d (map fst post)); [now apply in_map|].
        intros i Hi. eapply wf_has; [exact W|]. rewrite map_app, in_app_iff. right. now right. }
      destruct (in_paras _ _ Iy) as (p1 & u & p2 & ->).
      rewrite (F pre b t _ E x Ex).
      rewrite (F (pre ++ (b, t) :: p1) (b_id y) u p2) with (x := y); [|rewrite <- app_assoc; exact E|exact Gy].
      rewrite cpre_app, cpre_cons. lia. }
    apply (G ps []). easy.
  - etransitivity; [apply sort_perm|]. apply get_multi_perm. apply (wf_fblocks _ _ W).
Qed.

(** ** Which matches are inside a paragraph *)

Lemma find_for_app d ps p : wf d ps -> forall l1 l2 k,
  (forall y, In y l1 -> exists t, In (b_id y, t) ps
     /\ ~ (0 <= b_pos y <= Z.of_nat p /\ Z.of_nat p < b_pos y + Z.of_nat (length t))%Z) ->
  find_block_for_position d (l1 ++ l2) k p = find_block_for_position d l2 (k + length l1) p.
Proof.
  intros W. induction l1 as [|y l1 IH]; intros l2 k H; cbn [app find_block_for_position length].
  - now rewrite Nat.add_0_r.
  - destruct (H y (or_introl eq_refl)) as (t & Ht & N). rewrite (wf_length_in _ _ _ _ W Ht). cbn [bind].
    replace (_ && _)%bool with false by (symmetry; lia). rewrite IH; [f_equal; lia|]. intros z Hz. apply H. now right.
Qed.

Lemma find_for_fresh d pre b t post i : let ps := pre ++ (b, t) :: post in
  wf d ps -> fresh d ps -> i <= length t ->
  find_block_for_position d (get_multi d (map fst ps)) 0 (cpre pre + i)
  = Ok (if i <? length t then Some (length pre, i) else None).
Proof.
  intros ps W F Hi. destruct (multi_mid _ _ _ _ _ W) as (x & Ex & Hid & Em & Lm). fold ps in Em. rewrite Em.
  assert (Hpre : forall y, In y (get_multi d (map fst pre)) -> exists u, In (b_id y, u) ps
     /\ ~ (0 <= b_pos y <= Z.of_nat (cpre pre + i) /\ Z.of_nat (cpre pre + i) < b_pos y + Z.of_nat (length u))%Z).
  { intros y Hy. pose proof (get_multi_get _ _ _ Hy) as Gy.
    assert (Iy : In (b_id y) (map fst pre)).
    { rewrite <- (get_multi_ids d (map fst pre)); [now apply in_map|].
      intros j Hj. eapply wf_has; [exact W|]. unfold ps. rewrite map_app, in_app_iff. now left. }
    destruct (in_paras _ _ Iy) as (p1 & u & p2 & Ep). exists u. split.
    - unfold ps. rewrite Ep, !in_app_iff. left. right. now left.
    - assert (Eps : ps = p1 ++ (b_id y, u) :: (p2 ++ (b, t) :: post)) by (unfold ps; rewrite Ep, <- app_assoc; reflexivity).
      rewrite (F p1 (b_id y) u _ Eps y Gy), Ep, cpre_app, cpre_cons. lia. }
  assert (Hpost : forall y, In y (get_multi d (map fst post)) -> exists u, In (b_id y, u) ps
     /\ ~ (0 <= b_pos y <= Z.of_nat (cpre pre + i) /\ Z.of_nat (cpre pre + i) < b_pos y + Z.of_nat (length u))%Z).
  { intros y Hy. pose proof (get_multi_get _ _ _ Hy) as Gy.
    assert (Iy : In (b_id y) (map fst post)).
    { rewrite <- (get_multi_ids d (map fst post)); [now apply in_map|].
      intros j Hj. eapply wf_has; [exact W|]. unfold ps. rewrite map_app, in_app_iff. right. now right. }
    destruct (in_paras _ _ Iy) as (p1 & u & p2 & Ep). exists u. split.
    - unfold ps. rewrite Ep, !in_app_iff. right. right. apply in_or_app. right. now left.
    - assert (Eps : ps = (pre ++ (b, t) :: p1) ++ (b_id y, u) :: p2) by (unfold ps; rewrite Ep, <- app_assoc; reflexivity).
      rewrite (F _ (b_id y) u _ Eps y Gy), cpre_app, cpre_cons. lia. }
  rewrite (find_for_app _ _ _ W _ _ _ Hpre), Lm. cbn [plus find_block_for_position].
  rewrite Hid, (wf_len_mid _ _ _ _ _ W). cbn [bind]. rewrite (F pre b t post eq_refl x Ex).
  destruct (i <? length t) eqn:E.
  - apply Nat.ltb_lt in E. replace (_ && _)%bool with true by (symmetry; lia). do 3 f_equal. lia.
  - apply Nat.ltb_ge in E. replace (_ && _)%bool with false by (symmetry; lia).
    rewrite <- (app_nil_r (get_multi d (map fst post))), (find_for_app _ _ _ W _ _ _ Hpost). reflexivity.
Qed.

(** Where a match inside a paragraph stands. *)
Definition placed (ps : list para) (m : nat * nat) (v : nat * nat * nat) : Prop :=
  exists pre b t post off, ps = pre ++ (b, t) :: post /\ fst m = cpre pre + off
   /\ off + snd m <= length t /\ v = (snd m, length pre, off).

Lemma no_break_styled off t runs : existsb is_break (styled_from off t runs) = false.
Proof. revert off; induction t as [|c t IH]; intros off; cbn; [easy|]. apply IH. Qed.

Lemma match_in_fresh d ps m : wf d ps -> fresh d ps -> 0 < snd m -> fst m + snd m <= ctotal ps ->
  exists r, match_in_single_block d (get_multi d (map fst ps)) m = Ok r
   /\ match r with
      | Some (k, off) => in_paragraph (items_of (d_runs d) ps) m = true /\ placed ps m (snd m, k, off)
      | None => in_paragraph (items_of (d_runs d) ps) m = false
      end.
Proof.
  intros W F Hn Hp. destruct m as [p n]. cbn [fst snd] in *.
  destruct (locate ps p (wf_ne _ _ W) ltac:(lia)) as (pre & b & t & post & i & -> & Hi & ->).
  unfold match_in_single_block. cbn [fst snd]. rewrite (find_for_fresh _ _ _ _ _ _ W F Hi). cbn [bind].
  destruct (multi_mid _ _ _ _ _ W) as (x & Ex & Hid & Em & Lm).
  assert (Inp : in_paragraph (items_of (d_runs d) (pre ++ (b, t) :: post)) (cpre pre + i, n) = (i + n <=? length t)).
  { unfold in_paragraph. cbn [fst snd]. rewrite skipn_items by easy.
    destruct (i + n <=? length t) eqn:E.
    - apply Nat.leb_le in E. rewrite firstn_app, styled_length, skipn_length.
      replace (n - (length t - i)) with 0 by lia. cbn [firstn]. rewrite app_nil_r.
      rewrite <- (firstn_skipn n (skipn i t)), styled_app, firstn_app, styled_length, firstn_length, skipn_length.
      replace (n - _) with 0 by lia. cbn [firstn]. rewrite app_nil_r, firstn_all2 by (rewrite styled_length, firstn_length; lia).
      now rewrite no_break_styled.
    - apply Nat.leb_gt in E. rewrite ctotal_mid in Hp. destruct post as [|[c u] post].
      { exfalso. rewrite cpre_nil in Hp. lia. }
      rewrite ipost_cons, firstn_app, styled_length, skipn_length.
      destruct (n - (length t - i)) eqn:En; [lia|]. cbn [firstn]. rewrite existsb_app. cbn [existsb is_break].
      now rewrite orb_true_r. }
  rewrite Inp. destruct (i <? length t) eqn:E.
  - rewrite Em, nth_error_app2, Lm, Nat.sub_diag by lia. cbn [nth_error unwrap bind].
    rewrite Hid, (wf_len_mid _ _ _ _ _ W). cbn [bind].
    replace (Z.of_nat (i + n) <=? Z.of_nat (length t))%Z with (i + n <=? length t) by lia.
    destruct (i + n <=? length t) eqn:E2; eexists; (split; [reflexivity|]); [|easy].
    split; [easy|]. exists pre, b, t, post, i. apply Nat.leb_le in E2. repeat split; easy.
  - eexists. split; [reflexivity|]. cbn. lia.
Qed.

Lemma valid_fresh d ps : wf d ps -> fresh d ps -> forall ms,
  Forall (fun m => 0 < snd m /\ fst m + snd m <= ctotal ps) ms ->
  let kept := filter (in_paragraph (items_of (d_runs d) ps)) ms in
  exists vs, valid_matches d (get_multi d (map fst ps)) ms = Ok (vs, (Z.of_nat (length ms) - Z.of_nat (length kept))%Z)
   /\ Forall2 (placed ps) kept vs.
Proof.
  intros W F. induction ms as [|m ms IH]; intros H kept; cbn [valid_matches].
  - exists []. split; [easy|constructor].
  - inversion H as [|? ? [H1 H2] H3]; subst. destruct (match_in_fresh _ _ m W F H1 H2) as (r & -> & R). cbn [bind].
    destruct (IH H3) as (vs & -> & P). cbn [bind]. unfold kept. cbn [filter length].
    destruct r as [[k off]|].
    + destruct R as [-> R]. cbn [length]. eexists. split; [do 2 f_equal; lia|]. now constructor.
    + rewrite R. eexists. split; [do 2 f_equal; lia|]. easy.
Qed.

(** ** The replacements *)

Lemma replace_each_app bs r a : forall d c,
  replace_each d bs (a ++ c) r = bind (replace_each d bs a r) (fun d' => replace_each d' bs c r).
Proof.
  induction a as [|[[len k] off] a IH]; intros d c; cbn [app replace_each]; [easy|].
  destruct (unwrap _) as [b| |]; cbn [bind]; try easy. destruct (ok_or _) as [x| |]; cbn [bind]; try easy.
  destruct (replace_in_block _ _ _ _ _) as [d'| |]; cbn [bind]; try easy.
Qed.

(** Paragraphs before position [from] are as they were. *)
Definition kept_before (ps ps1 : list para) (from : nat) : Prop :=
  forall pre b t post j, ps = pre ++ (b, t) :: post -> j <= length t -> cpre pre + j <= from ->
  exists t1 post1, ps1 = pre ++ (b, t1) :: post1 /\ firstn j t1 = firstn j t /\ j <= length t1.
Definition grown (ps ps1 : list para) (delta : nat -> Z) : Prop :=
  forall k b t, nth_error ps k = Some (b, t) ->
  exists t1, nth_error ps1 k = Some (b, t1) /\ Z.of_nat (length t1) = (Z.of_nat (length t) + delta k)%Z.

Lemma nth_paras_mid (pre : list para) x post : nth_error (pre ++ x :: post) (length pre) = Some x.
Proof. rewrite nth_error_app2, Nat.sub_diag by lia. reflexivity. Qed.

Lemma each_exact d ps r : wf d ps -> forall ms vs from,
  Forall2 (placed ps) ms vs -> apart from ms ->
  exists d1 ps1, replace_each d (get_multi d (map fst ps)) (rev vs) r = Ok d1 /\ wf d1 ps1
   /\ items_of (d_runs d1) ps1 = spec_replace r ms (items_of (d_runs d) ps)
   /\ kept_before ps ps1 from /\ map fst ps1 = map fst ps /\ grown ps ps1 (delta_of r vs)
   /\ Z.of_nat (csum ps1) = (Z.of_nat (csum ps) + vs_total r vs)%Z
   /\ d_blocks d1 = d_blocks d /\ d_chars d1 = d_chars d /\ d_nblocks d1 = d_nblocks d
   /\ d_next d1 = d_next d /\ d_order d1 = d_order d /\ d_fblocks d1 = d_fblocks d.
Proof.
  intros W. induction ms as [|[p n] ms IH]; intros vs from P A.
  - inversion P; subst. exists d, ps. split; [easy|]. split; [easy|]. split; [easy|]. split.
    { intros pre b t post j -> Hj _. exists t, post. easy. }
    split; [easy|]. split.
    { intros k b t H. exists t. split; [easy|]. cbn. lia. }
    split; [cbn; lia|]. now repeat split.
  - inversion P as [|? v ? vs' Pm Pv]; subst. destruct A as (A1 & A2 & A3).
    destruct (IH vs' (p + n) Pv A3) as (d1 & ps1 & E1 & W1 & I1 & K1 & M1 & G1 & C1 & B1 & B2 & B3 & B4 & B5 & B6).
    destruct Pm as (pre & b & t & post & off & Eps & Ep & Hl & ->). cbn [fst snd] in Ep, Hl.
    destruct (K1 pre b t post (off + n) Eps Hl ltac:(lia)) as (t1 & post1 & E2 & F1 & L1).
    cbn [rev]. rewrite replace_each_app, E1. cbn [bind replace_each snd fst].
    pose proof W as W0. rewrite Eps in W0.
    destruct (multi_mid _ _ _ _ _ W0) as (x & Ex & Hid & Em & Lm). rewrite <- Eps in Em. rewrite Em.
    rewrite nth_error_app2, Lm, Nat.sub_diag by lia. cbn [nth_error unwrap bind]. rewrite Hid.
    assert (Ex1 : get_block d1 b = Some x) by (unfold get_block; rewrite B1; exact Ex).
    rewrite Ex1. cbn [ok_or bind]. rewrite E2 in W1.
    destruct (replace_in_block_wf d1 pre b t1 post1 x off (off + n) off (off + n) r W1 ltac:(lia) ltac:(lia) ltac:(lia) Ex1)
      as (d2 & -> & W2 & I2 & D1 & D2 & D3 & D4 & D5 & D6). cbn [bind].
    exists d2. eexists. split; [reflexivity|]. split; [exact W2|].
    assert (Ln : length (firstn off t1 ++ r ++ skipn (off + n) t1) = length t1 - n + length r).
    { rewrite !app_length, firstn_length, skipn_length. lia. }
    split; [|split; [|split; [|split; [|split]]]].
    + rewrite I2. cbn [spec_replace fold_right fst snd]. fold (spec_replace r ms (items_of (d_runs d) ps)).
      rewrite <- I1, E2, Ep. rewrite Nat.add_assoc. reflexivity.
    + intros pre' b' t' post' j Eps' Hj Hf.
      destruct (paras_split_cases _ _ _ _ _ _ _ _ _ Eps Eps') as [(m & Em')|[(-> & -> & -> & ->)|(m & _ & Em')]].
      * exists t'. eexists. split; [|split; [reflexivity|easy]]. rewrite Em', <- app_assoc. reflexivity.
      * eexists _, _. split; [reflexivity|]. assert (j <= off) by lia. split.
        -- rewrite firstn_app, firstn_length. replace (j - Nat.min off (length t1)) with 0 by lia. cbn [firstn].
           rewrite app_nil_r, firstn_firstn, Nat.min_l by easy.
           rewrite <- (Nat.min_l j (off + n)), <- !firstn_firstn, F1 by lia. reflexivity.
        -- rewrite app_length, firstn_length. lia.
      * exfalso. rewrite Em', cpre_app, cpre_cons in Hf. lia.
    + rewrite <- M1, E2, !map_app. reflexivity.
    + intros k b' t' Hk. destruct (G1 k b' t' Hk) as (u & Hu & Lu). rewrite E2 in Hu.
      cbn [delta_of fold_right]. fold (delta_of r vs' k).
      destruct (Nat.eqb_spec (length pre) k) as [<-|Nk].
      * rewrite nth_paras_mid in *. injection Hu as <- <-. eexists. split; [reflexivity|]. rewrite Ln.
        assert (n <= length t1) by lia. lia.
      * exists u. split; [|lia]. rewrite <- Hu. destruct (Nat.lt_ge_cases k (length pre)).
        -- now rewrite !nth_error_app1.
        -- rewrite !nth_error_app2 by lia. destruct (k - length pre) eqn:Ek; [lia|reflexivity].
    + cbn [vs_total fold_right fst]. fold (vs_total r vs'). rewrite E2 in C1. rewrite csum_app, csum_cons in C1 |- *.
      rewrite Ln. assert (n <= length t1) by lia. lia.
    + repeat split; congruence.
Qed.

(** ** Stored positions *)

Fixpoint dsum (delta : nat -> Z) (start n : nat) : Z :=
  match n with 0 => 0%Z | S n => (delta start + dsum delta (S start) n)%Z end.

Lemma index_of_split bs done x rest : bs = done ++ x :: rest -> NoDup (map b_id bs) ->
  index_of_block (b_id x) bs = Some (length done).
Proof.
  intros -> ND. apply index_of_mid. rewrite map_app in ND. cbn [map] in ND. intros H.
  apply (nodup_app_disj _ _ _ ND H). now left.
Qed.

Lemma shifted_none bs delta i cur : forall s, ~ In i (map b_id cur) -> find_block (shifted_blocks bs delta cur s) i = None.
Proof.
  intros s H. apply find_block_none. intros I. apply H. apply in_map_iff in I. destruct I as (y & <- & Hy).
  apply shifted_in in Hy. destruct Hy as (z & n & Hz & ->). cbn. now apply in_map.
Qed.

Lemma shifted_find bs delta x rest : NoDup (map b_id bs) -> forall mid done s, bs = done ++ mid ++ x :: rest ->
  find_block (shifted_blocks bs delta (mid ++ x :: rest) s) (b_id x)
  = let sh := (s + dsum delta (length done) (length mid))%Z in
    if (sh =? 0)%Z then None else Some (set_b_pos x (b_pos x + sh)%Z).
Proof.
  intros ND. induction mid as [|y mid IH]; intros done s E; cbn [app shifted_blocks length dsum].
  - rewrite Z.add_0_r. rewrite (index_of_split _ _ _ _ E ND). cbn [app] in E.
    assert (Nx : ~ In (b_id x) (map b_id rest)).
    { rewrite E, map_app in ND. apply nodup_app_r in ND. cbn in ND. now inversion ND. }
    destruct (s =? 0)%Z eqn:Es; cbn zeta.
    + now apply shifted_none.
    + cbn [find_block set_b_pos b_id]. now rewrite N.eqb_refl.
  - cbn [app] in E. rewrite (index_of_split _ _ _ _ E ND).
    assert (E' : bs = (done ++ [y]) ++ mid ++ x :: rest) by (rewrite <- app_assoc; exact E).
    specialize (IH (done ++ [y]) (s + delta (length done))%Z E'). rewrite app_length in IH. cbn [length] in IH.
    rewrite Nat.add_1_r in IH. rewrite <- Z.add_assoc in IH.
    assert (Ny : b_id y <> b_id x).
    { rewrite E, map_app in ND. apply nodup_app_r in ND. cbn [map] in ND. inversion ND as [|? ? H _]; subst. intros Heq. apply H.
      rewrite Heq, map_app, in_app_iff. right. now left. }
    destruct (s =? 0)%Z; [exact IH|]. cbn [find_block set_b_pos b_id]. rewrite (proj2 (N.eqb_neq _ _) Ny). exact IH.
Qed.

Lemma shifted_ids bs delta cur : forall s, NoDup (map b_id cur) -> NoDup (map b_id (shifted_blocks bs delta cur s)).
Proof.
  induction cur as [|y cur IH]; intros s ND; cbn [shifted_blocks map]; [constructor|].
  cbn [map] in ND. inversion ND as [|? ? H1 H2]; subst. destruct (s =? 0)%Z; [now apply IH|].
  cbn [map set_b_pos b_id]. constructor; [|now apply IH]. intros H. apply H1.
  apply in_map_iff in H. destruct H as (z & <- & Hz). apply shifted_in in Hz. destruct Hz as (w & n & Hw & ->). cbn. now apply in_map.
Qed.

Lemma dsum_snoc delta : forall n start, dsum delta start (S n) = (dsum delta start n + delta (start + n)%nat)%Z.
Proof.
  induction n as [|n IH]; intros start.
  - cbn. rewrite Nat.add_0_r. lia.
  - change (dsum delta start (S (S n))) with (delta start + dsum delta (S start) (S n))%Z.
    rewrite IH. cbn [dsum]. replace (S start + n) with (start + S n) by lia. lia.
Qed.

Lemma firstn_snoc {A} (l : list A) k x : nth_error l k = Some x -> firstn (S k) l = firstn k l ++ [x].
Proof.
  revert k; induction l as [|y l IH]; intros [|k] H; cbn in *; try discriminate; [now injection H as ->|].
  now rewrite (IH _ H).
Qed.

Lemma grown_cpre ps ps1 delta : grown ps ps1 delta -> forall k, k <= length ps ->
  Z.of_nat (cpre (firstn k ps1)) = (Z.of_nat (cpre (firstn k ps)) + dsum delta 0 k)%Z.
Proof.
  intros G. induction k as [|k IH]; intros Hk; [reflexivity|].
  destruct (nth_error ps k) as [[b t]|] eqn:E; [|apply nth_error_None in E; lia].
  destruct (G _ _ _ E) as (t1 & E1 & L). rewrite (firstn_snoc _ _ _ E), (firstn_snoc _ _ _ E1), !cpre_snoc, dsum_snoc.
  specialize (IH ltac:(lia)). cbn [plus]. lia.
Qed.

Lemma shift_fresh d d1 ps ps1 delta c : wf d ps -> fresh d ps -> wf d1 ps1 -> d_blocks d1 = d_blocks d ->
  map fst ps1 = map fst ps -> grown ps ps1 delta ->
  let bs := get_multi d (map fst ps) in
  let d2 := set_chars (update_multi d1 (shifted_blocks bs delta bs 0)) c in
  wf d2 ps1 -> fresh d2 ps1.
Proof.
  intros W F W1 B M G bs d2 W2. apply (fresh_pos _ _ W2). intros pre1 b t1 post1 E1.
  assert (Lp : length ps1 = length ps) by (rewrite <- (map_length fst), M; apply map_length).
  assert (Hk : length pre1 < length ps) by (rewrite <- Lp, E1, app_length; cbn; lia).
  destruct (nth_error ps (length pre1)) as [[b0 t]|] eqn:En; [|apply nth_error_None in En; lia].
  destruct (G _ _ _ En) as (t' & En' & _). rewrite E1, nth_paras_mid in En'. injection En' as <- <-.
  destruct (nth_error_split _ _ En) as (pre & post & Eps & Lpre).
  pose proof W as W0. rewrite Eps in W0. destruct (multi_mid _ _ _ _ _ W0) as (x & Ex & Hid & Em & Lm).
  rewrite <- Eps in Em. fold bs in Em.
  assert (Mb : map b_id bs = map fst ps) by (apply get_multi_ids; intros i Hi; eapply wf_has; [exact W|exact Hi]).
  assert (ND : NoDup (map b_id bs)) by (rewrite Mb; eapply wf_nodup, W).
  change (pos_of d2 b) with (pos_of (update_multi d1 (shifted_blocks bs delta bs 0)) b).
  rewrite pos_update_multi.
  2:{ now apply shifted_ids. }
  2:{ intros y Hy. apply shifted_in in Hy. destruct Hy as (z & n & Hz & ->). cbn [set_b_pos b_id].
      eapply wf_has; [exact W1|]. rewrite M, <- Mb. now apply in_map. }
  pose proof (shifted_find bs delta x (get_multi d (map fst post)) ND (get_multi d (map fst pre)) [] 0 Em) as S.
  rewrite <- Em, Hid in S. rewrite S. cbn zeta. cbn [length plus]. rewrite Lm, Z.add_0_l.
  assert (Px : b_pos x = Z.of_nat (cpre pre)) by (eapply F; eauto).
  pose proof (grown_cpre _ _ _ G (length pre) ltac:(lia)) as Hc.
  assert (F1 : firstn (length pre) ps1 = pre1) by (rewrite E1, Lpre; now apply firstn_exact).
  assert (F2 : firstn (length pre) ps = pre) by (rewrite Eps; now apply firstn_exact).
  rewrite F1, F2 in Hc.
  destruct (dsum delta 0 (length pre) =? 0)%Z eqn:E0.
  - unfold pos_of, get_block. rewrite B. fold (get_block d b). rewrite Ex. cbn. f_equal. lia.
  - cbn [set_b_pos b_pos]. f_equal. lia.
Qed.

(** ** The whole replacement *)
Lemma matches_exact d ps ms (all : bool) (r : str) : wf d ps -> fresh d ps -> apart 0 ms ->
  Forall (fun m => fst m + snd m <= ctotal ps) ms ->
  let inside := filter (in_paragraph (items_of (d_runs d) ps)) ms in
  let done := if all then inside else firstn 1 inside in
  exists d' ps', replace_matches d ms all r
     = Ok (d', Z.of_nat (length done), (Z.of_nat (length ms) - Z.of_nat (length inside))%Z)
   /\ wf d' ps' /\ fresh d' ps'
   /\ items_of (d_runs d') ps' = spec_replace r done (items_of (d_runs d) ps)
   /\ para_attrs d' = para_attrs d /\ d_nblocks d' = d_nblocks d /\ d_next d' = d_next d
   /\ (d_chars d' - Z.of_nat (csum ps') = d_chars d - Z.of_nat (csum ps))%Z
   /\ length ps' = length ps.
Proof.
  intros W F A H inside done.
  assert (Hpos : Forall (fun m => 0 < snd m /\ fst m + snd m <= ctotal ps) ms).
  { assert (G : forall (l : list (nat * nat)) from, apart from l -> Forall (fun m => 0 < snd m) l).
    { induction l as [|[p n] l IH]; intros from Al; [constructor|]. destruct Al as (A1 & A2 & A3). constructor; eauto. }
    specialize (G _ _ A). rewrite Forall_forall in *. intros m Hm. split; auto. }
  destruct (valid_fresh _ _ W F ms Hpos) as (vs0 & Ev & P). fold inside in P, Ev.
  unfold replace_matches. destruct ms as [|m0 ms0].
  { exists d, ps. split; [unfold done, inside; cbn; now destruct all|]. split; [easy|]. split; [easy|].
    split; [unfold done, inside; cbn; now destruct all|]. repeat split. }
  set (ms := m0 :: ms0) in *. rewrite (fresh_sorted _ _ W F), Ev. cbn [bind].
  set (vs := if all then vs0 else firstn 1 vs0).
  assert (Pd : Forall2 (placed ps) done vs).
  { unfold done, vs. destruct all; [easy|]. inversion P; subst; constructor; [easy|]. cbn [firstn]. constructor. }
  assert (Ad : apart 0 done).
  { assert (Ai : forall (l : list (nat * nat)) from, apart from l -> apart from (filter (in_paragraph (items_of (d_runs d) ps)) l)).
    { assert (Mono : forall (l : list (nat * nat)) from from', from <= from' -> apart from' l -> apart from l).
      { intros [|[p n] l] f f' Hf; cbn; [easy|]. intuition lia. }
      induction l as [|[p n] l IH]; intros from Hl; cbn [filter]; [easy|]. destruct Hl as (H1 & H2 & H3).
      destruct (in_paragraph _ _); cbn; [auto|]. apply (Mono _ _ (p + n)); [lia|auto]. }
    unfold done. specialize (Ai ms 0 A). fold inside in Ai. destruct all; [easy|].
    destruct inside as [|[p n] l]; cbn in *; [easy|]. intuition. }
  assert (Ld : length vs = length done) by (clear - Pd; induction Pd; cbn; congruence).
  destruct vs as [|v1 vs1] eqn:Evs.
  { destruct done as [|x l] eqn:Ed; [|discriminate]. exists d, ps. split; [easy|]. do 7 (split; [easy|]); easy. }
  rewrite <- Evs in *. clear v1 vs1 Evs.
  destruct (each_exact d ps r W done vs 0 Pd Ad) as (d1 & ps1 & -> & W1 & I1 & _ & M1 & G1 & C1 & B1 & B2 & B3 & B4 & B5 & B6).
  cbn [bind]. set (bs := get_multi d (map fst ps)) in *.
  assert (Ecur : sort_blocks (get_multi d1 (d_fblocks d1)) = bs).
  { unfold bs. rewrite <- (fresh_sorted _ _ W F), B6. f_equal.
    generalize (d_fblocks d). induction l as [|i l IH]; cbn [get_multi]; [easy|]. unfold get_block. rewrite B1.
    fold (get_block d i). now rewrite IH. }
  rewrite Ecur.
  destruct (sorted_f_ids _ _ W1) as (T1 & _ & T3). rewrite Ecur in T1, T3.
  assert (Hy : forall y, In y (shifted_blocks bs (delta_of r vs) bs 0) ->
     In (b_id y) (map b_id (d_blocks d1)) /\ attr d1 (b_id y) = Some (b_list y, b_fmt y)).
  { intros y Hy. apply shifted_in in Hy. destruct Hy as (z & n & Hz & ->). cbn [b_id b_list b_fmt set_b_pos]. split.
    - eapply wf_has; [exact W1|]. apply T1. now apply in_map.
    - eapply sorted_multi_attr. rewrite Ecur. exact Hz. }
  set (d2 := update_multi d1 _).
  assert (M : meta d1 d2).
  { apply meta_update_multi. intros i Hi. apply in_map_iff in Hi. destruct Hi as (y & <- & Iy). now apply Hy. }
  assert (Sa : same_attr d1 d2) by (apply attr_update_multi; intros y Iy; now apply Hy).
  set (c := (d_chars d2 + vs_total r vs)%Z).
  assert (W2 : wf (set_chars d2 c) ps1) by (eapply wf_meta; [eapply wf_meta; [exact W1|exact M]|apply meta_chars]).
  exists (set_chars d2 c), ps1. split; [rewrite Ld; easy|]. split; [exact W2|]. split.
  { apply (shift_fresh d d1 ps ps1 (delta_of r vs) c W F W1 B1 M1 G1 W2). }
  split; [|split; [|split; [|split; [|split]]]].
  - rewrite <- I1. cbn [d_runs set_chars]. now rewrite (meta_runs _ _ M).
  - transitivity (para_attrs d2); [easy|]. transitivity (para_attrs d1).
    + apply para_attrs_same; [exact Sa|apply (meta_order _ _ M)].
    + apply para_attrs_same; [now apply same_attr_blocks|easy].
  - cbn [d_nblocks set_chars]. rewrite <- B3. apply update_multi_nblocks.
  - cbn [d_next set_chars]. rewrite <- B4. apply (meta_next _ _ M).
  - cbn [d_chars set_chars]. unfold c, d2. rewrite update_multi_chars, B2.
    fold (vs_total r vs). lia.
  - rewrite <- (map_length fst), M1. apply map_length.
Qed.
