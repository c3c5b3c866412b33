(** The parts of paragraphs in a range, without positions and stores. *)
From Verif Require Import Base TableEditSpec TableEditSteps FlowSpec PropSpec XCopyModel XCopySpec.

Definition part (s e r : nat) (t : str) (final : bool) : xpiece :=
  mk_xpiece (between_positions (s - r) (e - r) t) ((s <=? r) && ((r + length t <? e) || (final && (r + length t <=? e)))).
Definition out (s e r : nat) (t : str) : bool := (r + length t <? s) || (e <=? r).
(** [n] paragraphs follow behind [ts]. *)
Fixpoint cut (s e r n : nat) (ts : list str) : list xpiece :=
  match ts with
  | [] => []
  | t :: rest => (if out s e r t then [] else [part s e r t (length rest + n =? 0)]) ++ cut s e (S (r + length t)) n rest
  end.
Lemma cut_app s e b n : forall a r, cut s e r n (a ++ b) = cut s e r (length b + n) a ++ cut s e (r + starts a) n b.
Proof.
  induction a as [|t a IH]; intros r; cbn [app cut starts fold_right]; [now rewrite Nat.add_0_r|]. fold (starts a). rewrite IH, app_assoc, app_length.
  rewrite <- Nat.add_assoc. do 2 f_equal. cbn. lia.
Qed.
Lemma cut_none s e n : forall ts r, e <= r -> cut s e r n ts = [].
Proof.
  induction ts as [|t ts IH]; intros r H; [easy|]. cbn [cut]. unfold out. destruct (Nat.leb_spec e r); [|lia]. rewrite orb_true_r. apply IH. lia.
Qed.
Lemma cut_some s e n r t ts : s <= r -> r < e -> cut s e r n (t :: ts) <> [].
Proof. intros H1 H2. cbn [cut]. unfold out. destruct (Nat.ltb_spec (r + length t) s); [lia|]. destruct (Nat.leb_spec e r); [lia|easy]. Qed.
Lemma joined_cons t u ts : joined (t :: u :: ts) = t ++ NL :: joined (u :: ts). Proof. easy. Qed.

(** ** The text *)
Lemma between_cons s e (t l : str) : s <= length t -> length t < e -> between_positions s e (t ++ NL :: l) = skipn s t ++ NL :: firstn (e - S (length t)) l.
Proof.
  intros H1 H2. unfold between_positions. rewrite skipn_app. replace (s - length t) with 0 by lia. cbn [skipn]. rewrite firstn_app, skipn_length.
  rewrite firstn_all2 by (rewrite skipn_length; lia). replace (e - s - (length t - s)) with (S (e - S (length t))) by lia. reflexivity.
Qed.
Lemma between_short s e (t l : str) : e <= length t -> between_positions s e (t ++ l) = between_positions s e t.
Proof.
  intros H. unfold between_positions. destruct (Nat.le_gt_cases s (length t)) as [L|L].
  - rewrite skipn_app, firstn_app, skipn_length. replace (e - s - (length t - s)) with 0 by lia. cbn [firstn]. now rewrite app_nil_r.
  - replace (e - s) with 0 by lia. easy.
Qed.
Lemma between_late s e (t l : str) : length t < s -> between_positions s e (t ++ NL :: l) = between_positions (s - S (length t)) (e - S (length t)) l.
Proof.
  intros H. unfold between_positions. rewrite skipn_app. rewrite skipn_all2 by lia. cbn [app]. replace (s - length t) with (S (s - S (length t))) by lia. cbn [skipn].
  f_equal. lia.
Qed.
Lemma between_all s e (t : str) : length t <= e -> between_positions s e t = skipn s t.
Proof. intros H. unfold between_positions. apply firstn_all2. rewrite skipn_length. lia. Qed.
Lemma between_zero e (l : str) : between_positions 0 e l = firstn e l. Proof. unfold between_positions. now rewrite Nat.sub_0_r. Qed.
Lemma cut_text s e n : s < e -> forall ts r, ts <> [] -> let w := between_positions (s - r) (e - r) (joined ts) in
  let q := joined (map xp_text (cut s e r n ts)) in w = q \/ w = q ++ [NL].
Proof.
  intros H. induction ts as [|t ts IH]; intros r Ne; [easy|]. cbn zeta.
  destruct (Nat.le_gt_cases e r) as [L|L].
  { left. rewrite cut_none by easy. unfold between_positions. now replace (e - r - (s - r)) with 0 by lia. }
  cbn [cut]. unfold out. destruct (Nat.leb_spec e r); [lia|]. rewrite orb_false_r. destruct ts as [|u ts].
  { cbn [joined cut]. destruct (Nat.ltb_spec (r + length t) s) as [X|X]; left; [|easy].
    cbn. unfold between_positions. rewrite skipn_all2 by lia. now rewrite firstn_nil. }
  rewrite joined_cons. specialize (IH (S (r + length t)) ltac:(easy)). cbn zeta in IH.
  destruct (Nat.ltb_spec (r + length t) s) as [X|X]; cbn [app].
  { rewrite between_late by lia. replace (s - r - S (length t)) with (s - S (r + length t)) by lia. replace (e - r - S (length t)) with (e - S (r + length t)) by lia. exact IH. }
  cbn [map xp_text part]. destruct (Nat.le_gt_cases (e - r) (length t)) as [Y|Y].
  { left. rewrite cut_none by lia. rewrite between_short by easy. reflexivity. }
  rewrite between_cons by lia. rewrite (between_all (s - r) (e - r) t) by lia. destruct (Nat.eq_dec (e - r) (S (length t))) as [Z|Z].
  { right. rewrite cut_none by lia. rewrite Z, Nat.sub_diag. reflexivity. }
  replace (s - S (r + length t)) with 0 in IH by lia. rewrite between_zero in IH. replace (e - S (r + length t)) with (e - r - S (length t)) in IH by lia.
  assert (Nn := cut_some s e n (S (r + length t)) u ts ltac:(lia) ltac:(lia)). destruct (cut s e (S (r + length t)) n (u :: ts)) as [|p ps] eqn:E; [easy|]. clear Nn E.
  cbn [map] in *. rewrite joined_cons. destruct IH as [IH|IH]; rewrite IH; [now left|right]. now rewrite <- app_assoc.
Qed.

(** ** Which paragraphs *)
Definition met (s e r : nat) (ts : list str) (k : nat) : Prop :=
  exists t, nth_error ts k = Some t /\ r + start_of k ts < e /\ s <= r + start_of k ts + length t.
Lemma start_cons k t ts : start_of (S k) (t :: ts) = S (length t + start_of k ts). Proof. reflexivity. Qed.
Lemma met_cons s e r t ts k : met s e r (t :: ts) (S k) <-> met s e (S (r + length t)) ts k.
Proof.
  unfold met. cbn [nth_error]. rewrite start_cons. split; intros (u & E & A & B); exists u; (split; [easy|]); lia.
Qed.
Lemma met_late s e r ts k : e <= r -> ~ met s e r ts k. Proof. intros H (t & _ & X & _). lia. Qed.
Lemma cut_from s e n : forall ts r, s <= r -> (forall k, met s e r ts k <-> k < length (cut s e r n ts))
  /\ forall j p, nth_error (cut s e r n ts) j = Some p -> exists t, nth_error ts j = Some t /\ p = part s e (r + start_of j ts) t (length ts + n =? S j).
Proof.
  induction ts as [|t ts IH]; intros r H; [split; [|now intros [|j] p]|].
  { intros k. split; [intros (t & E & _); now destruct k|cbn; lia]. }
  cbn [cut]. unfold out. destruct (Nat.ltb_spec (r + length t) s); [lia|]. cbn [orb]. destruct (Nat.leb_spec e r) as [L|L].
  { rewrite cut_none by lia. split; [|now intros [|j] p]. intros k. split; [intros X; exfalso; exact (met_late _ _ _ _ _ L X)|cbn; lia]. }
  destruct (IH (S (r + length t)) ltac:(lia)) as [IH1 IH2]. cbn [app length]. split.
  - intros [|k]; [|rewrite met_cons, IH1; lia]. split; [lia|]. intros _. exists t. split; [easy|]. cbn. lia.
  - intros [|j] p E; cbn [nth_error] in E.
    + injection E as <-. exists t. split; [easy|]. cbn [start_of firstn starts fold_right]. now rewrite Nat.add_0_r.
    + destruct (IH2 j p E) as (u & Eu & ->). exists u. split; [easy|]. rewrite start_cons. f_equal. lia.
Qed.
Lemma cut_parts s e n : forall ts r, exists i, (forall k, met s e r ts k <-> i <= k < i + length (cut s e r n ts))
  /\ forall j p, nth_error (cut s e r n ts) j = Some p -> exists t, nth_error ts (i + j) = Some t /\ p = part s e (r + start_of (i + j) ts) t (length ts + n =? S (i + j)).
Proof.
  induction ts as [|t ts IH]; intros r.
  { exists 0. split; [|now intros [|j] p]. intros k. split; [intros (t & E & _); now destruct k|cbn; lia]. }
  destruct (Nat.le_gt_cases s r) as [L|L].
  { exists 0. destruct (cut_from s e n (t :: ts) r L) as [A B]. split; [intros k; rewrite A; lia|exact B]. }
  cbn [cut]. unfold out. destruct (Nat.ltb_spec (r + length t) s) as [X|X]; cbn [orb app].
  - destruct (IH (S (r + length t))) as (i & A & B). exists (S i). split.
    + intros [|k]; [split; [intros (u & E & _ & Y); cbn in E, Y; injection E as <-; lia|lia]|]. rewrite met_cons, A. lia.
    + intros j p E. destruct (B j p E) as (u & Eu & ->). exists u. split; [easy|]. cbn [Nat.add]. rewrite start_cons. f_equal. lia.
  - destruct (Nat.leb_spec e r) as [Y|Y].
    { exists 0. rewrite cut_none by lia. split; [|now intros [|j] p]. intros k. split; [intros Z; exfalso; exact (met_late _ _ _ _ _ Y Z)|cbn; lia]. }
    destruct (cut_from s e n ts (S (r + length t)) ltac:(lia)) as [A B]. exists 0. cbn [app length]. split.
    + intros [|k]; [|rewrite met_cons, A; lia]. split; [lia|]. intros _. exists t. split; [easy|]. cbn. lia.
    + intros [|j] p E; cbn [nth_error] in E; cbn [Nat.add].
      * injection E as <-. exists t. split; [easy|]. cbn [start_of firstn starts fold_right]. now rewrite Nat.add_0_r.
      * destruct (B j p E) as (u & Eu & ->). exists u. split; [easy|]. rewrite start_cons. f_equal. lia.
Qed.
(** [qs] has the texts of the parts; some of them may be marked differently. *)
Lemma cut_spec s e ts : exists i, parts ts s e i (map xp_text (cut s e 0 0 ts)) /\ marked ts s e i (cut s e 0 0 ts).
Proof.
  destruct (cut_parts s e 0 ts 0) as (i & A & B). exists i. split; [split|].
  - intros k. rewrite map_length, <- A. unfold touched, met. cbn [Nat.add]. easy.
  - intros j q t E Et. rewrite nth_error_map in E. destruct (nth_error (cut s e 0 0 ts) j) as [p|] eqn:Ep; [|easy]. injection E as <-.
    destruct (B j p Ep) as (u & Eu & ->). rewrite Et in Eu. injection Eu as <-. reflexivity.
  - intros j p Ep. destruct (B j p Ep) as (u & Eu & ->). cbn [part xp_full Nat.add]. rewrite Nat.add_0_r. unfold covered. rewrite andb_true_iff, orb_true_iff, andb_true_iff.
    rewrite Nat.leb_le, Nat.ltb_lt, Nat.leb_le, Nat.eqb_eq. split.
    + intros (C1 & C2). exists u. split; [easy|]. split; [easy|]. destruct C2 as [C2|[C2 C3]]; [now left|right]. lia.
    + intros (v & Ev & C1 & C2). rewrite Eu in Ev. injection Ev as <-. split; [easy|]. destruct C2 as [C2|[C2 C3]]; [now left|right]. lia.
Qed.
Lemma cut_selected s e ts : s < e -> ts <> [] -> selected_text ts s e (joined (map xp_text (cut s e 0 0 ts))).
Proof. intros H Ne. assert (C := cut_text s e 0 H ts 0 Ne). cbn zeta in C. rewrite !Nat.sub_0_r in C. exact C. Qed.
Lemma cut_whole s e n : forall ts r, (forall k t, nth_error ts k = Some t -> s <= r + start_of k ts /\ r + start_of k ts < e /\ r + start_of k ts + length t <= e) ->
  map xp_text (cut s e r n ts) = ts.
Proof.
  induction ts as [|t ts IH]; intros r F; [easy|]. destruct (F 0 t eq_refl) as (F1 & F2 & F3). cbn in F1, F2, F3. rewrite Nat.add_0_r in F1, F2, F3. cbn [cut]. unfold out.
  destruct (Nat.ltb_spec (r + length t) s); [lia|]. destruct (Nat.leb_spec e r); [lia|]. cbn [orb app map part xp_text]. f_equal.
  - replace (s - r) with 0 by lia. rewrite between_zero. apply firstn_all2. lia.
  - apply IH. intros k u E. specialize (F (S k) u E). rewrite start_cons in F. lia.
Qed.
