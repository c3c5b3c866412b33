(** Proofs about the overlay. *)
From Verif Require Import Base BaseFacts FormatRunsModel FormatRunsSpec RopeModel DocModel DocSpec HistModel HistSpec
  QueryModel QuerySpec QueryFacts HighlightModel HighlightSpec.

(** ** One field *)

Definition pick {A} (get : hfmt -> option A) (l : list hspan) : option A :=
  fold_left (fun o s => or_opt (get (s_fmt s)) o) l None.

Lemma merge_field {A} (get : hfmt -> option A) :
  get hfmt_default = None -> (forall m f, get (override m f) = or_opt (get f) (get m)) ->
  forall l, get (merge_overlapping l) = pick get l.
Proof.
  intros H0 H1 l. unfold merge_overlapping, pick.
  assert (G : forall l m, get (fold_left (fun m s => override m (s_fmt s)) l m)
    = fold_left (fun o s => or_opt (get (s_fmt s)) o) l (get m)).
  { clear l. induction l as [|s l IH]; intros m; cbn; [easy|]. now rewrite IH, H1. }
  now rewrite G, H0.
Qed.

Lemma decided_pick {A} (get : hfmt -> option A) spans k (pb : hspan -> bool) stored :
  (forall s, In s spans -> (pb s = true <-> span_on k s)) ->
  decided get spans k stored (or_opt (pick get (filter pb spans)) stored).
Proof.
  induction spans as [|s spans IH] using rev_ind; intros H.
  - right. now split.
  - rewrite filter_app. cbn [filter].
    assert (IH' := IH (fun x Hx => H x (in_or_app _ _ _ (or_introl Hx)))). clear IH.
    assert (Hs : pb s = true <-> span_on k s) by (apply H, in_or_app; right; now left).
    assert (Keep : pb s = false \/ get (s_fmt s) = None -> span_on k s -> get (s_fmt s) = None).
    { intros [E|E] Hk; [|easy]. apply Hs in Hk. congruence. }
    destruct (pb s) eqn:E; unfold pick in *.
    + rewrite fold_left_app. cbn [fold_left]. destruct (get (s_fmt s)) as [v|] eqn:Ev; cbn [or_opt].
      * left. exists spans, s, [], v. repeat (split; [easy||tauto|]). easy.
      * destruct IH' as [(pre & x & post & v & -> & P1 & P2 & P3 & P4)|[P1 P2]].
        -- left. exists pre, x, (post ++ [s]), v. rewrite <- app_assoc. repeat (split; [easy|]).
           intros y Hy. apply in_app_or in Hy. destruct Hy as [Hy|[<-|[]]]; auto.
        -- right. split; [easy|]. intros y Hy. apply in_app_or in Hy. destruct Hy as [Hy|[<-|[]]]; auto.
    + rewrite app_nil_r. destruct IH' as [(pre & x & post & v & -> & P1 & P2 & P3 & P4)|[P1 P2]].
      * left. exists pre, x, (post ++ [s]), v. rewrite <- app_assoc. repeat (split; [easy|]).
        intros y Hy. apply in_app_or in Hy. destruct Hy as [Hy|[<-|[]]]; auto.
      * right. split; [easy|]. intros y Hy. apply in_app_or in Hy. destruct Hy as [Hy|[<-|[]]]; auto.
Qed.

Lemma covered_field {A} (gx : tfmt -> option A) (get : hfmt -> option A) l f :
  get hfmt_default = None -> (forall m f, get (override m f) = or_opt (get f) (get m)) ->
  (forall b h, gx (apply_highlight b h) = or_opt (get h) (gx b)) ->
  gx (covered_format l f) = or_opt (pick get l) (gx f).
Proof.
  intros H0 H1 H2. unfold covered_format. destruct l as [|s l]; [easy|].
  now rewrite H2, (merge_field get H0 H1).
Qed.

Lemma covered_overlay spans k (pb : hspan -> bool) f :
  (forall s, In s spans -> (pb s = true <-> span_on k s)) ->
  overlay spans k f (covered_format (filter pb spans) f).
Proof.
  intros H. constructor;
  try (match goal with |- decided ?get _ _ (?gx _) _ =>
    rewrite (covered_field gx get _ _ eq_refl (fun _ _ => eq_refl) (fun _ _ => eq_refl)); now apply decided_pick end);
  unfold covered_format; now destruct (filter pb spans).
Qed.

(** ** Cutting a fragment *)

Lemma put_nat_in x y l : In y (put_nat x l) <-> x = y \/ In y l.
Proof.
  induction l as [|z l IH]; cbn; [easy|]. destruct (x <=? z); cbn; [easy|]. rewrite IH. tauto.
Qed.
Lemma sort_nat_in y l : In y (sort_nat l) <-> In y l.
Proof. induction l as [|x l IH]; cbn; [easy|]. rewrite put_nat_in, IH. tauto. Qed.
Fixpoint ascending (l : list nat) : Prop :=
  match l with [] => True | x :: r => (forall y, In y r -> x <= y) /\ ascending r end.
Lemma put_nat_ascending x l : ascending l -> ascending (put_nat x l).
Proof.
  induction l as [|y l IH]; cbn [put_nat]; intros H; [now cbn|].
  destruct H as [H1 H2]. destruct (Nat.leb_spec x y).
  - cbn [ascending]. split; [|easy]. intros z [<-|Hz]; [easy|]. specialize (H1 z Hz). lia.
  - cbn [ascending]. split; [|now apply IH]. intros z Hz. apply put_nat_in in Hz. destruct Hz as [<-|Hz]; [lia|auto].
Qed.
Lemma sort_nat_ascending l : ascending (sort_nat l).
Proof. induction l; cbn; [easy|]. now apply put_nat_ascending. Qed.

Fixpoint strict (l : list nat) : Prop :=
  match l with [] => True | x :: r => (forall y, In y r -> x < y) /\ strict r end.
Lemma dedup_in y l : In y (dedup l) <-> In y l.
Proof.
  induction l as [|x l IH]; [easy|]. destruct l as [|z l]; [easy|]. cbn [dedup].
  destruct (Nat.eqb_spec x z) as [->|]; rewrite ?IH; cbn; [|cbn in IH; rewrite IH]; intuition.
Qed.
Lemma dedup_strict l : ascending l -> strict (dedup l).
Proof.
  induction l as [|x l IH]; intros H; [easy|]. destruct H as [H1 H2]. specialize (IH H2).
  destruct l as [|z l]; [cbn; easy|]. cbn [dedup]. destruct (Nat.eqb_spec x z) as [->|Hne]; [exact IH|].
  cbn [strict]. split; [|exact IH]. intros y Hy. apply (dedup_in y (z :: l)) in Hy.
  assert (x <= z) by (apply H1; now left). destruct Hy as [<-|Hy]; [lia|]. destruct H2 as [H2 _].
  specialize (H2 y Hy). lia.
Qed.

Lemma boundaries_strict spans off fin : strict (boundaries spans off fin).
Proof. apply dedup_strict, sort_nat_ascending. Qed.
Lemma boundaries_in spans off fin y :
  In y (boundaries spans off fin) <-> y = off \/ y = fin \/ exists s, In s spans /\ In y (span_cuts off fin s).
Proof.
  unfold boundaries. rewrite dedup_in, sort_nat_in. cbn [In]. rewrite in_flat_map. intuition.
Qed.
Lemma span_cuts_in off fin s y : In y (span_cuts off fin s) ->
  off < y < fin /\ (y = s_start s \/ y = s_start s + s_len s).
Proof.
  unfold span_cuts. destruct ((s_start s <? fin) && (off <? s_start s + s_len s)) eqn:E; [|easy].
  intros H. apply in_app_or in H.
  destruct (Nat.ltb_spec off (s_start s)), (Nat.ltb_spec (s_start s) fin), (Nat.ltb_spec off (s_start s + s_len s)),
    (Nat.ltb_spec (s_start s + s_len s) fin); cbn in H; lia.
Qed.
Lemma cut_at_start off fin s : off < s_start s < fin -> off < s_start s + s_len s -> In (s_start s) (span_cuts off fin s).
Proof.
  intros H1 H2. unfold span_cuts.
  rewrite (proj2 (Nat.ltb_lt _ _)) by lia. rewrite (proj2 (Nat.ltb_lt off (s_start s + s_len s))) by lia.
  rewrite (proj2 (Nat.ltb_lt off (s_start s))) by lia. cbn. auto.
Qed.
Lemma cut_at_end off fin s : off < s_start s + s_len s < fin -> s_start s < fin -> In (s_start s + s_len s) (span_cuts off fin s).
Proof.
  intros H1 H2. unfold span_cuts.
  rewrite (proj2 (Nat.ltb_lt (s_start s) fin)) by lia. rewrite (proj2 (Nat.ltb_lt off (s_start s + s_len s))) by lia.
  rewrite (proj2 (Nat.ltb_lt (s_start s + s_len s) fin)) by lia. cbn [andb]. apply in_or_app. right. now left.
Qed.

(** Between two neighbouring boundaries a span covers all or nothing. *)
Lemma window_whole spans off fin a b s k :
  (forall y, In y (boundaries spans off fin) -> y <= a \/ b <= y) -> off <= a -> b <= fin -> a <= k < b -> In s spans ->
  ((s_start s <? b) && (a <? s_start s + s_len s) = true <-> span_on k s).
Proof.
  intros G H1 H2 Hk Hs. unfold span_on. rewrite andb_true_iff, !Nat.ltb_lt. split; [|lia]. intros [L1 L2]. split.
  - destruct (Nat.le_gt_cases (s_start s) a); [lia|].
    assert (In (s_start s) (boundaries spans off fin)) as Hy.
    { apply boundaries_in. right. right. exists s. split; [easy|]. apply cut_at_start; lia. }
    apply G in Hy. lia.
  - destruct (Nat.le_gt_cases b (s_start s + s_len s)); [lia|].
    assert (In (s_start s + s_len s) (boundaries spans off fin)) as Hy.
    { apply boundaries_in. right. right. exists s. split; [easy|]. apply cut_at_end; lia. }
    apply G in Hy. lia.
Qed.

Lemma char_places_app off u v f e : char_places off (u ++ v) f e = char_places off u f e ++ char_places (off + length u) v f e.
Proof.
  revert off; induction u as [|c u IH]; intros off; cbn [app char_places length].
  - now rewrite Nat.add_0_r.
  - rewrite IH. cbn [app]. do 3 f_equal. lia.
Qed.
Lemma char_places_overlaid spans e f g : forall t off,
  (forall k, off <= k < off + length t -> overlay spans k f g) ->
  Forall2 (overlaid spans) (char_places off t f e) (char_places off t g e).
Proof.
  induction t as [|c t IH]; intros off H; cbn [char_places]; constructor.
  - repeat (split; [easy|]). apply H. cbn. lia.
  - apply IH. intros k Hk. apply H. cbn [length]. lia.
Qed.

Lemma last_cons {A} (b : A) bs a : last (b :: bs) a = last bs b.
Proof. revert a b; induction bs as [|c bs IH]; intros a b; [easy|]. change (last (c :: bs) a = last (c :: bs) b). now rewrite !IH. Qed.

Lemma cut_windows_ok spans t f off e fin : fin = off + length t ->
  forall bs a, strict (a :: bs) -> off <= a ->
  (forall y, In y bs -> y <= fin) ->
  (forall y, In y (boundaries spans off fin) -> y <= a \/ In y bs) ->
  (bs = [] \/ last bs a = fin) ->
  exists out, cut_windows spans t f off e (a :: bs) = Ok out /\ Forall measured out
    /\ Forall2 (overlaid spans) (char_places a (firstn (last bs a - a) (skipn (a - off) t)) f e) (flat_map places out).
Proof.
  intros Hfin. induction bs as [|b bs IH]; intros a St Ha Hle Hb Hl.
  - exists []. cbn. rewrite Nat.sub_diag. repeat split; constructor.
  - destruct St as [S1 S2]. assert (Hab : a < b) by (apply S1; now left).
    assert (Hbf : b <= fin) by (apply Hle; now left).
    destruct (IH b S2) as (out & E & M & F).
    + lia.
    + intros y Hy. apply Hle. now right.
    + intros y Hy. destruct (Hb y Hy) as [H|[->|H]]; [left; lia|left; lia|now right].
    + destruct bs as [|c bs]; [now left|]. right. destruct Hl as [Hl|Hl]; [easy|]. now rewrite last_cons in Hl.
    + change (cut_windows spans t f off e (a :: b :: bs)) with
        (let! more := cut_windows spans t f off e (b :: bs) in
         if b - a =? 0 then Ok more
         else let! u := char_slice t (a - off) (a - off + (b - a)) in
              Ok (SText u (covered_format (active spans a b) f) a (b - a) e :: more)).
      rewrite E. cbn [bind]. rewrite (proj2 (Nat.eqb_neq _ _)) by lia.
      unfold char_slice. rewrite (proj2 (Nat.leb_le _ _)) by lia. rewrite (proj2 (Nat.leb_le _ _)) by lia. cbn [andb bind].
      replace (a - off + (b - a) - (a - off)) with (b - a) by lia.
      eexists. split; [reflexivity|].
      assert (Lu : length (firstn (b - a) (skipn (a - off) t)) = b - a) by (rewrite firstn_length, skipn_length; lia).
      split.
      * constructor; [|exact M]. cbn. split; [easy|]. intros Z. rewrite Z in Lu. cbn in Lu. lia.
      * assert (Hlast : b <= last bs b).
        { destruct bs as [|c bs]; [cbn; lia|]. destruct S2 as [S2 _].
          assert (In (last (c :: bs) b) (c :: bs)) as Hi.
          { destruct (exists_last (l := c :: bs)) as (l' & z & ->); [easy|]. rewrite last_last. apply in_or_app. right. now left. }
          specialize (S2 _ Hi). lia. }
        rewrite last_cons. cbn [flat_map places].
        assert (Split : firstn (last bs b - a) (skipn (a - off) t)
          = firstn (b - a) (skipn (a - off) t) ++ firstn (last bs b - b) (skipn (b - off) t)).
        { replace (last bs b - a) with ((b - a) + (last bs b - b)) by lia.
          replace (skipn (b - off) t) with (skipn (b - a) (skipn (a - off) t)).
          2:{ clear - Hab Ha. replace (b - off) with ((a - off) + (b - a)) by lia. generalize (a - off), (b - a). clear.
              intros n m. revert t. induction n; intros t; [easy|]. destruct t; [now destruct m|]. cbn. apply IHn. }
          generalize (skipn (a - off) t), (b - a), (last bs b - b). clear. intros l n m. revert l.
          induction n; intros l; [easy|]. destruct l; [now destruct m|]. cbn. now rewrite IHn. }
        rewrite Split, char_places_app. apply Forall2_app.
        -- apply char_places_overlaid. rewrite Lu. intros k Hk. unfold active. apply covered_overlay. intros s Hs.
           apply (window_whole spans off fin); auto; try lia.
           intros y Hy. destruct (Hb y Hy) as [H|[<-|H]]; [left; lia|right; lia|].
           destruct S2 as [S2 _]. specialize (S2 y H). right. lia.
        -- rewrite Lu. replace (a + (b - a)) with b by lia. exact F.
Qed.

Lemma strict_last a bs y : strict (a :: bs) -> In y (a :: bs) -> y <= last bs a.
Proof.
  revert a y; induction bs as [|b bs IH]; intros a y H Hy.
  - destruct Hy as [<-|[]]. easy.
  - destruct H as [H1 H2]. rewrite last_cons.
    destruct Hy as [<-|Hy]; [|now apply IH]. assert (b <= last bs b) by (apply IH; [easy|now left]).
    specialize (H1 b (or_introl eq_refl)). lia.
Qed.

Lemma merge_text_ok spans t f off e :
  exists out, cut_windows spans t f off e (boundaries spans off (off + length t)) = Ok out /\ Forall measured out
    /\ Forall2 (overlaid spans) (char_places off t f e) (flat_map places out).
Proof.
  set (fin := off + length t). pose proof (boundaries_strict spans off fin) as St.
  pose proof (boundaries_in spans off fin) as Bi. destruct (boundaries spans off fin) as [|a bs] eqn:E.
  { exfalso. apply (proj2 (Bi off)). now left. }
  assert (Rng : forall y, In y (a :: bs) -> off <= y <= fin).
  { intros y Hy. apply Bi in Hy. unfold fin. destruct Hy as [->|[->|(s & Hs & Hc)]]; [lia|lia|].
    apply span_cuts_in in Hc. unfold fin in Hc. lia. }
  assert (a = off) as ->.
  { assert (In off (a :: bs)) as Ho by (apply Bi; now left). pose proof (Rng a (or_introl eq_refl)).
    destruct Ho as [->|Ho]; [easy|]. destruct St as [S1 _]. specialize (S1 _ Ho). lia. }
  destruct (cut_windows_ok spans t f off e fin eq_refl bs off St) as (out & E1 & M & F).
  - lia.
  - intros y Hy. apply Rng. now right.
  - rewrite E. intros y [->|Hy]; [now left|now right].
  - right. assert (In fin (off :: bs)) as Hf by (apply Bi; auto).
    pose proof (strict_last _ _ _ St Hf). assert (last bs off <= fin); [|lia].
    apply Rng. destruct bs as [|c bs]; [now left|]. right.
    destruct (exists_last (l := c :: bs)) as (l' & z & ->); [easy|]. rewrite last_last. apply in_or_app. right. now left.
  - exists out. split; [exact E1|]. split; [exact M|].
    replace (last bs off - off) with (length t) in F.
    + rewrite Nat.sub_diag in F. cbn [skipn] in F. now rewrite firstn_all in F.
    + assert (In fin (off :: bs)) as Hf by (apply Bi; auto). pose proof (strict_last _ _ _ St Hf).
      assert (In (last bs off) (off :: bs)) as Hl.
      { destruct bs as [|c bs]; [now left|]. right.
        destruct (exists_last (l := c :: bs)) as (l' & z & ->); [easy|]. rewrite last_last. apply in_or_app. right. now left. }
      apply Rng in Hl. unfold fin in *. lia.
Qed.

Lemma overlay_none k f : overlay [] k f f.
Proof. constructor; try easy; right; now split. Qed.
Lemma overlaid_same l : Forall2 (overlaid []) l l.
Proof. induction l; constructor; [|easy]. repeat (split; [easy|]). apply overlay_none. Qed.

Lemma merge_ok xs spans : Forall measured xs ->
  exists out, merge_highlight_spans xs spans = Ok out /\ Forall measured out
    /\ Forall2 (overlaid spans) (flat_map places xs) (flat_map places out).
Proof.
  intros H. unfold merge_highlight_spans. destruct spans as [|s0 spans0] eqn:Es.
  - exists xs. split; [easy|]. split; [easy|]. apply overlaid_same.
  - rewrite <- Es. clear Es s0 spans0. induction xs as [|x xs IH]; [exists []; repeat split; constructor|].
    inversion H as [|? ? Hx Hxs]; subst. destruct (IH Hxs) as (out & E & M & F). cbn [merge_all].
    assert (exists o, merge_one spans x = Ok o /\ Forall measured o /\ Forall2 (overlaid spans) (places x) (flat_map places o))
      as (o & Eo & Mo & Fo).
    { destruct x as [t f off n e|n w h q f off e]; cbn [merge_one places].
      - destruct Hx as [-> _]. apply merge_text_ok.
      - eexists. split; [reflexivity|]. split; [repeat constructor|]. cbn. constructor; [|constructor].
        repeat (split; [easy|]). cbn. unfold active. apply covered_overlay. intros s _. unfold span_on.
        rewrite andb_true_iff, !Nat.ltb_lt. lia. }
    rewrite Eo, E. cbn [bind]. exists (o ++ out). split; [easy|]. split; [now apply Forall_app|].
    cbn [flat_map]. rewrite flat_map_app. now apply Forall2_app.
Qed.
