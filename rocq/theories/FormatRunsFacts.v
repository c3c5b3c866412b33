(** Lemmas about the run algebra. *)
From Verif Require Import Base BaseFacts FormatRunsModel FormatRunsSpec.

Lemma cfmt_eqb_true a b : cfmt_eqb a b = true <-> a = b.
Proof. unfold cfmt_eqb. destruct (cfmt_eq_dec a b); split; congruence. Qed.

Lemma cfmt_eqb_false a b : cfmt_eqb a b = false <-> a <> b.
Proof. unfold cfmt_eqb. destruct (cfmt_eq_dec a b); split; congruence. Qed.

(** ** Ordered lists of runs *)

Fixpoint last_end (lo : nat) (runs : list run) : nat :=
  match runs with [] => lo | r :: rest => last_end (rend r) rest end.

Lemma ordered_weaken lo lo' runs : lo' <= lo -> ordered lo runs -> ordered lo' runs.
Proof. destruct runs as [|r rest]; cbn [ordered]; intuition lia. Qed.

Lemma ordered_app lo xs ys :
  ordered lo (xs ++ ys) <-> ordered lo xs /\ ordered (last_end lo xs) ys.
Proof.
  revert lo; induction xs as [|x xs IH]; intros lo; cbn [app ordered last_end]; [intuition|].
  rewrite IH. intuition.
Qed.

Lemma last_end_ge lo runs : ordered lo runs -> lo <= last_end lo runs.
Proof.
  revert lo; induction runs as [|r rest IH]; intros lo; cbn [ordered last_end]; [lia|].
  intros (H1 & H2 & H3). specialize (IH _ H3). lia.
Qed.

Lemma last_end_bound lo runs n : lo <= n -> Forall (fun r => rend r <= n) runs -> last_end lo runs <= n.
Proof.
  intros H F; revert lo H; induction F as [|r rest Hr F IH]; intros lo H; cbn [last_end]; auto.
Qed.

Lemma ordered_in lo runs r : ordered lo runs -> In r runs -> lo <= rstart r /\ rstart r < rend r.
Proof.
  revert lo; induction runs as [|x rest IH]; intros lo; cbn [ordered In]; [easy|].
  intros (H1 & H2 & H3) [->|Hin]; [lia|]. specialize (IH _ H3 Hin). lia.
Qed.

Lemma ordered_rend lo runs r : ordered lo runs -> In r runs -> rend r <= last_end lo runs.
Proof.
  revert lo; induction runs as [|x rest IH]; intros lo; cbn [ordered In last_end]; [easy|].
  intros (H1 & H2 & H3) [->|Hin]; [apply last_end_ge, H3|auto].
Qed.

(** ** Reading formats *)

Lemma covers_true r k : covers r k = true <-> rstart r <= k < rend r.
Proof. unfold covers. lia. Qed.

Lemma covers_false r k : covers r k = false <-> (k < rstart r \/ rend r <= k).
Proof. unfold covers. lia. Qed.

Lemma fmt_at_app xs ys k :
  fmt_at (xs ++ ys) k = match fmt_at xs k with Some f => Some f | None => fmt_at ys k end.
Proof.
  induction xs as [|x xs IH]; cbn [app fmt_at]; [reflexivity|]. destruct (covers x k); auto.
Qed.

Lemma fmt_at_below lo runs k : ordered lo runs -> k < lo -> fmt_at runs k = None.
Proof.
  revert lo; induction runs as [|r rest IH]; intros lo; cbn [ordered fmt_at]; [easy|].
  intros (H1 & H2 & H3) Hk.
  destruct (covers r k) eqn:E; [apply covers_true in E; lia|].
  apply (IH (rend r)); [exact H3|lia].
Qed.

Lemma fmt_at_above runs k : Forall (fun r => rend r <= k) runs -> fmt_at runs k = None.
Proof.
  induction 1 as [|r rest Hr F IH]; cbn [fmt_at]; [reflexivity|].
  destruct (covers r k) eqn:E; [apply covers_true in E; lia|exact IH].
Qed.

Lemma ordered_last_end_forall lo runs : ordered lo runs -> Forall (fun r => rend r <= last_end lo runs) runs.
Proof. intros H. apply Forall_forall. intros r Hr. eapply ordered_rend; eauto. Qed.

Lemma fmt_at_beyond lo runs k : ordered lo runs -> last_end lo runs <= k -> fmt_at runs k = None.
Proof.
  intros H Hk. apply fmt_at_above.
  eapply Forall_impl; [|apply (ordered_last_end_forall _ _ H)]. cbn. intros; lia.
Qed.

Lemma fmt_at_some runs k f : fmt_at runs k = Some f -> exists r, In r runs /\ rstart r <= k < rend r /\ rfmt r = f.
Proof.
  induction runs as [|r rest IH]; cbn [fmt_at]; [easy|].
  destruct (covers r k) eqn:E.
  - intros [= <-]. exists r. apply covers_true in E. cbn; auto.
  - intros H. destruct (IH H) as (r' & ? & ? & ?). exists r'. cbn; auto.
Qed.

Lemma fmt_at_in lo runs r k : ordered lo runs -> In r runs -> rstart r <= k < rend r -> fmt_at runs k = Some (rfmt r).
Proof.
  revert lo; induction runs as [|x rest IH]; intros lo; cbn [ordered In fmt_at]; [easy|].
  intros (H1 & H2 & H3) [->|Hin] Hk.
  - rewrite (proj2 (covers_true _ _)); auto.
  - pose proof (ordered_in _ _ _ H3 Hin). rewrite (proj2 (covers_false _ _)) by lia. eauto.
Qed.

(** ** Coalescing *)

Lemma coalesce_go_head w rest :
  exists e tl, coalesce_go w rest = mk_run (rstart w) e (rfmt w) :: tl.
Proof.
  revert w; induction rest as [|r rest IH]; intros w; cbn [coalesce_go].
  - exists (rend w), []. now destruct w.
  - destruct ((rend w =? rstart r) && cfmt_eqb (rfmt w) (rfmt r)).
    + apply (IH (mk_run (rstart w) (rend r) (rfmt w))).
    + exists (rend w), (coalesce_go r rest). now destruct w.
Qed.

Lemma coalesce_go_ordered lo w rest :
  ordered lo (w :: rest) -> ordered lo (coalesce_go w rest).
Proof.
  revert lo w; induction rest as [|r rest IH]; intros lo w; cbn [coalesce_go].
  - auto.
  - cbn [ordered]. intros (H1 & H2 & H3 & H4 & H5).
    destruct (rend w =? rstart r) eqn:E; cbn [andb].
    + destruct (cfmt_eqb (rfmt w) (rfmt r)).
      * apply IH. cbn [ordered rstart rend]. repeat split; try lia. exact H5.
      * cbn [ordered]. repeat split; try lia. apply IH. cbn [ordered]. auto.
    + cbn [ordered]. repeat split; try lia. apply IH. cbn [ordered]. auto.
Qed.

Lemma coalesce_go_last_end lo w rest : last_end lo (coalesce_go w rest) = last_end (rend w) rest.
Proof.
  revert lo w; induction rest as [|r rest IH]; intros lo w; cbn [coalesce_go]; [reflexivity|].
  destruct ((rend w =? rstart r) && cfmt_eqb (rfmt w) (rfmt r)).
  - rewrite IH. reflexivity.
  - cbn [last_end]. rewrite IH. reflexivity.
Qed.

Lemma coalesce_go_maximal w rest : maximal (coalesce_go w rest).
Proof.
  revert w; induction rest as [|r rest IH]; intros w; cbn [coalesce_go]; [cbn; auto|].
  destruct ((rend w =? rstart r) && cfmt_eqb (rfmt w) (rfmt r)) eqn:E; [apply IH|].
  specialize (IH r). destruct (coalesce_go_head r rest) as (e & tl & Heq).
  rewrite Heq in IH |- *. cbn [maximal]. split; [|exact IH].
  cbn [rstart rfmt]. intros (H1 & H2). apply andb_false_iff in E. destruct E as [E|E]; [lia|].
  apply cfmt_eqb_false in E. contradiction.
Qed.

Lemma coalesce_go_edges (P : nat -> Prop) w rest : edges P (w :: rest) -> edges P (coalesce_go w rest).
Proof.
  unfold edges. revert w; induction rest as [|r rest IH]; intros w H; cbn [coalesce_go]; [exact H|].
  inversion_clear H as [|? ? Hw H']. inversion_clear H' as [|? ? Hr H''].
  destruct ((rend w =? rstart r) && cfmt_eqb (rfmt w) (rfmt r)).
  - apply IH. constructor; [cbn; tauto|exact H''].
  - constructor; [exact Hw|]. apply IH. constructor; assumption.
Qed.

Lemma coalesce_go_fmt w rest k :
  rstart w < rend w -> ordered (rend w) rest ->
  fmt_at (coalesce_go w rest) k = fmt_at (w :: rest) k.
Proof.
  revert w; induction rest as [|r rest IH]; intros w Hw Ho; cbn [coalesce_go]; [reflexivity|].
  cbn [ordered] in Ho. destruct Ho as (H1 & H2 & H3).
  destruct ((rend w =? rstart r) && cfmt_eqb (rfmt w) (rfmt r)) eqn:E.
  - apply andb_true_iff in E. destruct E as [E1 E2]. apply cfmt_eqb_true in E2.
    rewrite IH; [|cbn; lia|exact H3]. cbn [fmt_at rfmt].
    unfold covers; cbn [rstart rend].
    destruct ((rstart w <=? k) && (k <? rend r)) eqn:A;
      destruct ((rstart w <=? k) && (k <? rend w)) eqn:B;
      destruct ((rstart r <=? k) && (k <? rend r)) eqn:D; try reflexivity; try lia.
    now rewrite E2.
  - cbn [fmt_at]. destruct (covers w k); [reflexivity|]. apply IH; assumption.
Qed.

Lemma coalesce_ordered lo runs : ordered lo runs -> ordered lo (coalesce runs).
Proof. destruct runs; cbn [coalesce]; [auto|apply coalesce_go_ordered]. Qed.

Lemma coalesce_maximal runs : maximal (coalesce runs).
Proof. destruct runs; cbn [coalesce]; [exact I|apply coalesce_go_maximal]. Qed.

Lemma coalesce_edges (P : nat -> Prop) runs : edges P runs -> edges P (coalesce runs).
Proof. destruct runs; cbn [coalesce]; [auto|apply coalesce_go_edges]. Qed.

Lemma coalesce_fmt lo runs k : ordered lo runs -> fmt_at (coalesce runs) k = fmt_at runs k.
Proof.
  destruct runs as [|r rest]; cbn [coalesce ordered]; [auto|].
  intros (H1 & H2 & H3). now apply coalesce_go_fmt.
Qed.

Lemma coalesce_last_end lo runs : last_end lo (coalesce runs) = last_end lo runs.
Proof. destruct runs; cbn [coalesce]; [reflexivity|apply coalesce_go_last_end]. Qed.

(** A maximal list is untouched by coalescing. *)
Lemma coalesce_go_id w rest : maximal (w :: rest) -> coalesce_go w rest = w :: rest.
Proof.
  revert w; induction rest as [|r rest IH]; intros w H; cbn [coalesce_go]; [reflexivity|].
  cbn [maximal] in H. destruct H as [H1 H2].
  destruct ((rend w =? rstart r) && cfmt_eqb (rfmt w) (rfmt r)) eqn:E.
  - apply andb_true_iff in E. destruct E as [E1 E2]. apply cfmt_eqb_true in E2.
    exfalso. apply H1. split; [lia|exact E2].
  - now rewrite IH.
Qed.

Lemma coalesce_id runs : maximal runs -> coalesce runs = runs.
Proof. destruct runs; cbn [coalesce]; [auto|apply coalesce_go_id]. Qed.

(** ** Canonicity: an ordered maximal list is determined by its meaning *)

Lemma maximal_tail r rest : maximal (r :: rest) -> maximal rest.
Proof. destruct rest; cbn [maximal]; [auto|tauto]. Qed.

Lemma fmt_at_first lo r rest : ordered lo (r :: rest) -> fmt_at (r :: rest) (rstart r) = Some (rfmt r).
Proof.
  cbn [ordered fmt_at]. intros (_ & H & _). now rewrite (proj2 (covers_true _ _)) by lia.
Qed.

Lemma canonical lo xs ys :
  ordered lo xs -> maximal xs -> ordered lo ys -> maximal ys ->
  (forall k, lo <= k -> fmt_at xs k = fmt_at ys k) -> xs = ys.
Proof.
  revert lo ys; induction xs as [|x xs IH]; intros lo ys Ox Mx Oy My H.
  - destruct ys as [|y ys]; [reflexivity|].
    pose proof (fmt_at_first _ _ _ Oy) as E. cbn [ordered] in Oy.
    rewrite <- H in E by tauto. discriminate.
  - destruct ys as [|y ys].
    { pose proof (fmt_at_first _ _ _ Ox) as E. cbn [ordered] in Ox.
      rewrite H in E by tauto. discriminate. }
    pose proof (fmt_at_first _ _ _ Ox) as Ex. pose proof (fmt_at_first _ _ _ Oy) as Ey.
    pose proof Ox as Ox'. pose proof Oy as Oy'.
    cbn [ordered] in Ox', Oy'. destruct Ox' as (X1 & X2 & X3), Oy' as (Y1 & Y2 & Y3).
    assert (Hs : rstart x = rstart y).
    { destruct (lt_eq_lt_dec (rstart x) (rstart y)) as [[L|L]|L]; [|exact L|].
      - rewrite H in Ex by lia. cbn [fmt_at] in Ex.
        rewrite (proj2 (covers_false _ _)) in Ex by lia.
        rewrite (fmt_at_below (rend y)) in Ex by (auto; lia). discriminate.
      - rewrite <- H in Ey by lia. cbn [fmt_at] in Ey.
        rewrite (proj2 (covers_false _ _)) in Ey by lia.
        rewrite (fmt_at_below (rend x)) in Ey by (auto; lia). discriminate. }
    assert (Hf : rfmt x = rfmt y).
    { rewrite H in Ex by lia. rewrite Hs, Ey in Ex. congruence. }
    assert (He : rend x = rend y).
    { destruct (lt_eq_lt_dec (rend x) (rend y)) as [[L|L]|L]; [|exact L|]; exfalso.
      - assert (E : fmt_at (x :: xs) (rend x) = Some (rfmt x)).
        { rewrite H by lia. cbn [fmt_at]. rewrite (proj2 (covers_true _ _)) by lia. congruence. }
        cbn [fmt_at] in E. rewrite (proj2 (covers_false _ _)) in E by lia.
        destruct xs as [|x2 xs]; [discriminate|].
        cbn [fmt_at] in E. cbn [maximal] in Mx. cbn [ordered] in X3.
        destruct (covers x2 (rend x)) eqn:C.
        + apply covers_true in C. injection E as E. apply (proj1 Mx). split; [lia|congruence].
        + rewrite (fmt_at_below (rend x2)) in E by (try tauto; lia). discriminate.
      - assert (E : fmt_at (y :: ys) (rend y) = Some (rfmt y)).
        { rewrite <- H by lia. cbn [fmt_at]. rewrite (proj2 (covers_true _ _)) by lia. congruence. }
        cbn [fmt_at] in E. rewrite (proj2 (covers_false _ _)) in E by lia.
        destruct ys as [|y2 ys]; [discriminate|].
        cbn [fmt_at] in E. cbn [maximal] in My. cbn [ordered] in Y3.
        destruct (covers y2 (rend y)) eqn:C.
        + apply covers_true in C. injection E as E. apply (proj1 My). split; [lia|congruence].
        + rewrite (fmt_at_below (rend y2)) in E by (try tauto; lia). discriminate. }
    assert (x = y) as -> by (destruct x, y; cbn in *; congruence).
    f_equal. apply (IH (rend y)); auto.
    + eapply maximal_tail; eauto.
    + eapply maximal_tail; eauto.
    + intros k Hk. specialize (H k ltac:(lia)). cbn [fmt_at] in H.
      rewrite (proj2 (covers_false y k)) in H by lia. exact H.
Qed.

(** ** splice_range *)

Lemma splice_left_bound runs a : Forall (fun r => rend r <= a) (splice_left runs a).
Proof.
  induction runs as [|r rest IH]; cbn [splice_left]; [constructor|].
  destruct (rend r <=? a) eqn:E; [constructor; [lia|exact IH]|].
  destruct (rstart r <? a); [constructor; [cbn; lia|exact IH]|exact IH].
Qed.

Lemma splice_left_ordered lo runs a : ordered lo runs -> ordered lo (splice_left runs a).
Proof.
  revert lo; induction runs as [|r rest IH]; intros lo; cbn [ordered splice_left]; [auto|].
  intros (H1 & H2 & H3).
  destruct (rend r <=? a) eqn:E; [cbn [ordered]; auto|].
  destruct (rstart r <? a) eqn:E2.
  - cbn [ordered rstart rend]. repeat split; try lia.
    apply (ordered_weaken (rend r)); [lia|auto].
  - apply (ordered_weaken (rend r)); [lia|auto].
Qed.

Lemma splice_left_fmt lo runs a k :
  ordered lo runs -> fmt_at (splice_left runs a) k = if k <? a then fmt_at runs k else None.
Proof.
  intros Ho. destruct (k <? a) eqn:Ek.
  - revert lo Ho; induction runs as [|r rest IH]; intros lo; cbn [ordered splice_left fmt_at]; [auto|].
    intros (H1 & H2 & H3).
    destruct (rend r <=? a) eqn:E.
    + cbn [fmt_at]. now rewrite (IH _ H3).
    + destruct (rstart r <? a) eqn:E2.
      * cbn [fmt_at rfmt]. unfold covers; cbn [rstart rend].
        destruct ((rstart r <=? k) && (k <? a)) eqn:A;
          destruct ((rstart r <=? k) && (k <? rend r)) eqn:B; try lia; eauto.
      * rewrite (IH _ H3). rewrite (proj2 (covers_false r k)) by lia. reflexivity.
  - apply fmt_at_above. eapply Forall_impl; [|apply splice_left_bound]. cbn; intros; lia.
Qed.

Lemma splice_right_ordered lo runs b : ordered lo runs -> ordered (Nat.max lo b) (splice_right runs b).
Proof.
  revert lo; induction runs as [|r rest IH]; intros lo; cbn [ordered splice_right]; [auto|].
  intros (H1 & H2 & H3). specialize (IH _ H3).
  destruct (b <=? rstart r) eqn:E.
  - cbn [ordered]. repeat split; try lia. eapply ordered_weaken; [|exact IH]. lia.
  - destruct (b <? rend r) eqn:E2.
    + cbn [ordered rstart rend]. repeat split; try lia. eapply ordered_weaken; [|exact IH]. lia.
    + eapply ordered_weaken; [|exact IH]. lia.
Qed.

Lemma splice_right_fmt lo runs b k :
  ordered lo runs -> fmt_at (splice_right runs b) k = if b <=? k then fmt_at runs k else None.
Proof.
  intros Ho. destruct (b <=? k) eqn:Ek.
  - revert lo Ho; induction runs as [|r rest IH]; intros lo; cbn [ordered splice_right fmt_at]; [auto|].
    intros (H1 & H2 & H3).
    destruct (b <=? rstart r) eqn:E.
    + cbn [fmt_at]. now rewrite (IH _ H3).
    + destruct (b <? rend r) eqn:E2.
      * cbn [fmt_at rfmt]. unfold covers; cbn [rstart rend].
        destruct ((b <=? k) && (k <? rend r)) eqn:A;
          destruct ((rstart r <=? k) && (k <? rend r)) eqn:B; try lia; eauto.
      * rewrite (IH _ H3). rewrite (proj2 (covers_false r k)) by lia. reflexivity.
  - apply (fmt_at_below (Nat.max lo b)); [now apply splice_right_ordered|lia].
Qed.

Lemma splice_left_edges (P : nat -> Prop) runs a : P a -> edges P runs -> edges P (splice_left runs a).
Proof.
  unfold edges. intros Ha; induction 1 as [|r rest Hr F IH]; cbn [splice_left]; [constructor|].
  destruct (rend r <=? a); [constructor; auto|].
  destruct (rstart r <? a); [constructor; cbn; tauto|auto].
Qed.

Lemma splice_right_edges (P : nat -> Prop) runs b : P b -> edges P runs -> edges P (splice_right runs b).
Proof.
  unfold edges. intros Ha; induction 1 as [|r rest Hr F IH]; cbn [splice_right]; [constructor|].
  destruct (b <=? rstart r); [constructor; auto|].
  destruct (b <? rend r); [constructor; cbn; tauto|auto].
Qed.

(** The replacement list lies in [[a,b)]. *)
Definition inside (a b : nat) (repl : list run) : Prop :=
  ordered a repl /\ last_end a repl <= b.

Lemma splice_pre_ordered lo runs a b repl :
  lo <= a -> a <= b -> ordered lo runs -> inside a b repl ->
  ordered lo (splice_left runs a ++ repl ++ splice_right runs b).
Proof.
  intros Hlo Hab Ho [Hi Hl]. rewrite !ordered_app.
  pose proof (splice_left_ordered _ _ a Ho) as HL.
  pose proof (last_end_bound lo _ a Hlo (splice_left_bound runs a)) as HB.
  repeat split; [exact HL|eapply ordered_weaken; eauto|].
  pose proof (splice_right_ordered _ _ b Ho) as HR.
  destruct repl as [|r repl].
  - cbn [last_end]. eapply ordered_weaken; [|exact HR]. lia.
  - cbn [last_end] in *. eapply ordered_weaken; [|exact HR]. lia.
Qed.

Lemma splice_range_ordered lo runs a b repl :
  lo <= a -> a <= b -> ordered lo runs -> inside a b repl ->
  ordered lo (splice_range runs a b repl).
Proof. intros. unfold splice_range. apply coalesce_ordered. now apply splice_pre_ordered. Qed.

Lemma splice_range_maximal runs a b repl : maximal (splice_range runs a b repl).
Proof. apply coalesce_maximal. Qed.

Lemma splice_range_edges (P : nat -> Prop) runs a b repl :
  P a -> P b -> edges P runs -> edges P repl -> edges P (splice_range runs a b repl).
Proof.
  intros Ha Hb Hr Hp. unfold splice_range. apply coalesce_edges.
  unfold edges. rewrite !Forall_app. repeat split; auto.
  - now apply splice_left_edges.
  - now apply splice_right_edges.
Qed.

Lemma splice_range_fmt lo runs a b repl k :
  lo <= a -> a <= b -> ordered lo runs -> inside a b repl ->
  fmt_at (splice_range runs a b repl) k =
  if (a <=? k) && (k <? b) then fmt_at repl k else fmt_at runs k.
Proof.
  intros Hlo Hab Ho Hi. unfold splice_range.
  rewrite (coalesce_fmt lo) by now apply splice_pre_ordered.
  rewrite !fmt_at_app, (splice_left_fmt _ _ _ _ Ho), (splice_right_fmt _ _ _ _ Ho).
  destruct Hi as [Hi Hl].
  destruct (k <? a) eqn:E1.
  - replace (a <=? k) with false by lia. cbn [andb].
    destruct (fmt_at runs k) eqn:E; [reflexivity|].
    rewrite (fmt_at_below a) by (auto; lia). replace (b <=? k) with false by lia. reflexivity.
  - replace (a <=? k) with true by lia. cbn [andb]. destruct (k <? b) eqn:E2.
    + replace (b <=? k) with false by lia. destruct (fmt_at repl k); reflexivity.
    + rewrite (fmt_at_beyond a) by (auto; lia). replace (b <=? k) with true by lia. reflexivity.
Qed.

Lemma inside_nil a b : a <= b -> inside a b [].
Proof. split; cbn; auto. Qed.

(** ** capture_runs_in_range *)

Lemma capture_spec lo runs a b :
  ordered lo runs -> a <= b ->
  ordered (Nat.max lo a) (capture_runs runs a b) /\
  Forall (fun r => rend r <= b) (capture_runs runs a b) /\
  (forall k, fmt_at (capture_runs runs a b) k =
             if (a <=? k) && (k <? b) then fmt_at runs k else None).
Proof.
  intros Ho Hab. revert lo Ho; induction runs as [|r rest IH]; intros lo; cbn [ordered capture_runs].
  - intros _. repeat split; [constructor|]. intros k. cbn. now destruct (_ && _).
  - intros (H1 & H2 & H3). destruct (IH _ H3) as (I1 & I2 & I3). clear IH.
    destruct ((rend r <=? a) || (b <=? rstart r)) eqn:E.
    + split; [eapply ordered_weaken; [|exact I1]; lia|]. split; [exact I2|].
      intros k. rewrite I3. cbn [fmt_at].
      destruct ((a <=? k) && (k <? b)) eqn:E2; [|reflexivity].
      now rewrite (proj2 (covers_false r k)) by lia.
    + destruct (Nat.max (rstart r) a <? Nat.min (rend r) b) eqn:EM.
      2:{ split; [eapply ordered_weaken; [|exact I1]; lia|]. split; [exact I2|].
          intros k. rewrite I3. replace ((a <=? k) && (k <? b)) with false by lia. reflexivity. }
      split; [|split].
      * cbn [ordered rstart rend]. repeat split; try lia.
        eapply ordered_weaken; [|exact I1]; lia.
      * constructor; [cbn; lia|exact I2].
      * intros k. cbn [fmt_at rfmt]. rewrite I3. unfold covers; cbn [rstart rend].
        destruct ((a <=? k) && (k <? b)) eqn:A;
          destruct ((Nat.max (rstart r) a <=? k) && (k <? Nat.min (rend r) b)) eqn:B;
          destruct ((rstart r <=? k) && (k <? rend r)) eqn:C; try reflexivity; try lia.
Qed.

Lemma capture_inside lo runs a b :
  ordered lo runs -> a <= b -> inside a b (capture_runs runs a b).
Proof.
  intros Ho Hab. destruct (capture_spec _ _ _ _ Ho Hab) as (I1 & I2 & _). split.
  - eapply ordered_weaken; [|exact I1]; lia.
  - now apply last_end_bound.
Qed.

Lemma capture_edges (P : nat -> Prop) runs a b : P a -> P b -> edges P runs -> edges P (capture_runs runs a b).
Proof.
  unfold edges. intros Ha Hb; induction 1 as [|r rest Hr F IH]; cbn [capture_runs]; [constructor|].
  destruct (_ || _); [exact IH|]. destruct (_ <? _); [|exact IH].
  constructor; [|exact IH]. cbn [rstart rend]. split.
  - destruct (Nat.max_spec (rstart r) a) as [[_ ->]|[_ ->]]; tauto.
  - destruct (Nat.min_spec (rend r) b) as [[_ ->]|[_ ->]]; tauto.
Qed.

(** Splicing the captured runs back undoes any splice of the same range. *)
Lemma splice_restore runs a b repl :
  ordered 0 runs -> maximal runs -> a <= b -> inside a b repl ->
  splice_range (splice_range runs a b repl) a b (capture_runs runs a b) = runs.
Proof.
  intros Ho Hm Hab Hi.
  pose proof (capture_inside _ _ _ _ Ho Hab) as Hc.
  pose proof (splice_range_ordered 0 runs a b repl ltac:(lia) Hab Ho Hi) as Ho2.
  apply (canonical 0); auto.
  - apply splice_range_ordered; auto; lia.
  - apply splice_range_maximal.
  - intros k _. rewrite (splice_range_fmt 0) by (auto; lia).
    destruct (capture_spec _ _ _ _ Ho Hab) as (_ & _ & Hk). rewrite Hk.
    destruct ((a <=? k) && (k <? b)) eqn:E; [reflexivity|].
    rewrite (splice_range_fmt 0) by (auto; lia). now rewrite E.
Qed.

(** ** Replacement runs of set/merge text format *)

Lemma repl_go_spec m lo runs a b cur :
  ordered lo runs -> a <= cur -> cur <= Nat.max a lo -> cur <= b -> a < b ->
  ordered cur (repl_go m runs a b cur) /\
  Forall (fun r => rend r <= b) (repl_go m runs a b cur) /\
  (forall k, cur <= k < b -> fmt_at (repl_go m runs a b cur) k = Some (m (eff_at runs k))).
Proof.
  revert lo cur; induction runs as [|r rest IH]; intros lo cur; cbn [ordered repl_go].
  - intros _ H1 H2 H3 H4. destruct (cur <? b) eqn:E.
    + repeat split; cbn [ordered rstart rend]; try lia; [repeat constructor; cbn; lia|].
      intros k Hk. cbn [fmt_at rfmt]. rewrite (proj2 (covers_true _ _)) by (cbn; lia). reflexivity.
    + repeat split; [constructor|]. intros; lia.
  - intros (O1 & O2 & O3) H1 H2 H3 H4.
    destruct ((rend r <=? a) || (b <=? rstart r)) eqn:E.
    + destruct (IH (rend r) cur O3) as (I1 & I2 & I3); try lia.
      split; [exact I1|]. split; [exact I2|]. intros k Hk. rewrite I3 by exact Hk.
      unfold eff_at. cbn [fmt_at]. now rewrite (proj2 (covers_false r k)) by lia.
    + destruct (IH (rend r) (Nat.min (rend r) b) O3) as (I1 & I2 & I3); try lia.
      set (os := Nat.max (rstart r) a) in *. set (oe := Nat.min (rend r) b) in *.
      assert (Hos : cur <= os \/ cur = os) by lia.
      split; [|split].
      * destruct (cur <? os) eqn:C; cbn [app ordered rstart rend]; repeat split; try lia; exact I1.
      * destruct (cur <? os) eqn:C; cbn [app]; repeat constructor; cbn [rend]; try lia; exact I2.
      * intros k Hk. rewrite fmt_at_app.
        destruct (cur <? os) eqn:C.
        -- cbn [fmt_at rfmt]. unfold covers at 1; cbn [rstart rend].
           destruct ((cur <=? k) && (k <? os)) eqn:D.
           ++ unfold eff_at. cbn [fmt_at]. rewrite (proj2 (covers_false r k)) by lia.
              rewrite (fmt_at_below (rend r)) by (auto; lia). reflexivity.
           ++ unfold covers; cbn [rstart rend].
              destruct ((os <=? k) && (k <? oe)) eqn:D2.
              ** unfold eff_at. cbn [fmt_at]. rewrite (proj2 (covers_true r k)) by lia. reflexivity.
              ** rewrite I3 by lia. unfold eff_at. cbn [fmt_at].
                 rewrite (proj2 (covers_false r k)) by lia. reflexivity.
        -- cbn [fmt_at rfmt]. unfold covers; cbn [rstart rend].
           destruct ((os <=? k) && (k <? oe)) eqn:D2.
           ++ unfold eff_at. cbn [fmt_at]. rewrite (proj2 (covers_true r k)) by lia. reflexivity.
           ++ rewrite I3 by lia. unfold eff_at. cbn [fmt_at].
              rewrite (proj2 (covers_false r k)) by lia. reflexivity.
Qed.

Lemma repl_inside m runs a b :
  ordered 0 runs -> a < b -> inside a b (build_replacement_runs m runs a b).
Proof.
  intros Ho Hab. destruct (repl_go_spec m 0 runs a b a Ho) as (I1 & I2 & _); try lia.
  split; [exact I1|]. apply last_end_bound; [lia|exact I2].
Qed.

Lemma repl_edges (P : nat -> Prop) m runs a b cur :
  P a -> P b -> P cur -> edges P runs -> edges P (repl_go m runs a b cur).
Proof.
  unfold edges. intros Ha Hb Hc H; revert cur Hc; induction H as [|r rest Hr F IH]; intros cur Hc;
    cbn [repl_go].
  - destruct (cur <? b); repeat constructor; cbn; auto.
  - destruct (_ || _); [auto|].
    assert (Hs : P (Nat.max (rstart r) a))
      by (destruct (Nat.max_spec (rstart r) a) as [[_ ->]|[_ ->]]; tauto).
    assert (He : P (Nat.min (rend r) b))
      by (destruct (Nat.min_spec (rend r) b) as [[_ ->]|[_ ->]]; tauto).
    destruct (cur <? _); cbn [app]; repeat constructor; cbn; auto.
Qed.

Lemma format_block_runs_fmt m runs a b k :
  ordered 0 runs -> a < b ->
  eff_at (format_block_runs m runs a b) k =
  if (a <=? k) && (k <? b) then m (eff_at runs k) else eff_at runs k.
Proof.
  intros Ho Hab. unfold format_block_runs, eff_at at 1.
  rewrite (splice_range_fmt 0) by (auto using repl_inside; lia).
  destruct ((a <=? k) && (k <? b)) eqn:E; [|reflexivity].
  destruct (repl_go_spec m 0 runs a b a Ho) as (_ & _ & I3); try lia.
  unfold build_replacement_runs. rewrite I3 by lia. reflexivity.
Qed.

Lemma format_block_runs_wf m text runs a b :
  wf_runs text runs -> a < b -> on_char_edge text a -> on_char_edge text b ->
  wf_runs text (format_block_runs m runs a b).
Proof.
  intros (Ho & Hm & He) Hab Ha Hb. unfold format_block_runs. repeat split.
  - apply splice_range_ordered; auto using repl_inside; lia.
  - apply splice_range_maximal.
  - apply splice_range_edges; auto. now apply repl_edges.
Qed.

Lemma format_block_runs_undo m runs a b :
  ordered 0 runs -> maximal runs -> a < b ->
  splice_range (format_block_runs m runs a b) a b (capture_runs runs a b) = runs.
Proof. intros. apply splice_restore; auto using repl_inside; lia. Qed.

(** ** Insertion *)

Lemma shift_insert_ordered lo runs off n :
  ordered lo runs -> ordered lo (shift_runs_for_insert runs off n).
Proof.
  unfold shift_runs_for_insert. destruct (n =? 0) eqn:En; [auto|].
  revert lo; induction runs as [|r rest IH]; intros lo; cbn [map ordered]; [auto|].
  intros (H1 & H2 & H3). specialize (IH _ H3).
  destruct (off <=? rstart r) eqn:E1; [|destruct (off <=? rend r) eqn:E2];
    cbn [rstart rend]; repeat split; try lia; try exact IH.
  - destruct rest as [|r2 rest]; cbn [map ordered] in *; [auto|].
    destruct H3 as (H4 & H5 & H6). replace (off <=? rstart r2) with true in * by lia.
    cbn [rstart rend] in *. repeat split; try lia. tauto.
  - destruct rest as [|r2 rest]; cbn [map ordered] in *; [auto|].
    destruct H3 as (H4 & H5 & H6). replace (off <=? rstart r2) with true in * by lia.
    cbn [rstart rend] in *. repeat split; try lia. tauto.
Qed.

Lemma shift_insert_maximal lo runs off n :
  ordered lo runs -> maximal runs -> maximal (shift_runs_for_insert runs off n).
Proof.
  unfold shift_runs_for_insert. destruct (n =? 0) eqn:En; [auto|].
  revert lo; induction runs as [|r rest IH]; intros lo; cbn [map ordered]; [auto|].
  intros (H1 & H2 & H3) Hm. specialize (IH _ H3 (maximal_tail _ _ Hm)).
  destruct rest as [|r2 rest]; [cbn; auto|].
  cbn [map] in *. cbn [maximal] in Hm. destruct Hm as [Hm _].
  cbn [ordered] in H3. destruct H3 as (H4 & H5 & H6).
  cbn [maximal]. split; [|exact IH].
  intros (Ha & Hb). apply Hm.
  destruct (off <=? rstart r) eqn:E1; [|destruct (off <=? rend r) eqn:E2];
    destruct (off <=? rstart r2) eqn:E3; try destruct (off <=? rend r2) eqn:E4;
      cbn [rstart rend rfmt] in *; split; (lia || congruence).
Qed.

Lemma shift_insert_fmt lo runs off n k :
  ordered lo runs ->
  fmt_at (shift_runs_for_insert runs off n) k =
  if k <? off then fmt_at runs k
  else if k <? off + n then (if off =? 0 then None else fmt_at runs (off - 1))
  else fmt_at runs (k - n).
Proof.
  unfold shift_runs_for_insert. destruct (n =? 0) eqn:En.
  - intros _. replace (k - n) with k by lia.
    destruct (k <? off) eqn:E1; [reflexivity|]. replace (k <? off + n) with false by lia. reflexivity.
  - revert lo; induction runs as [|r rest IH]; intros lo; cbn [map ordered fmt_at].
    + intros _. destruct (k <? off), (k <? off + n), (off =? 0); reflexivity.
    + intros (H1 & H2 & H3). rewrite (IH _ H3). clear IH.
      destruct (off <=? rstart r) eqn:E1; [|destruct (off <=? rend r) eqn:E2];
        unfold covers; cbn [rstart rend rfmt];
        destruct (k <? off) eqn:K1; try destruct (k <? off + n) eqn:K2; destruct (off =? 0) eqn:Z0;
        repeat match goal with
        | |- context [if ?c then _ else _] => let H := fresh in destruct c eqn:H; try lia; try reflexivity
        end.
      all: try (symmetry; apply (fmt_at_below (rend r)); [exact H3|lia]).
      all: try (apply (fmt_at_below (rend r)); [exact H3|lia]).
Qed.

(** ** Deletion *)


(** After removing [[a,b)], every run ends by [a] or starts at [b] or later. *)
Lemma splice_nil_sides lo runs a b :
  ordered lo runs -> a <= b ->
  Forall (fun r => rend r <= a \/ b <= rstart r) (splice_left runs a ++ [] ++ splice_right runs b).
Proof.
  intros Ho Hab. apply Forall_app. split; cbn [app].
  - eapply Forall_impl; [|apply splice_left_bound]. cbn; tauto.
  - pose proof (splice_right_ordered _ _ b Ho) as HR.
    apply Forall_forall. intros r Hr. pose proof (ordered_in _ _ _ HR Hr). lia.
Qed.

Lemma coalesce_go_sides a b w rest :
  a < b -> Forall (fun r => rend r <= a \/ b <= rstart r) (w :: rest) ->
  Forall (fun r => rend r <= a \/ b <= rstart r) (coalesce_go w rest).
Proof.
  intros Hab. revert w; induction rest as [|r rest IH]; intros w H; cbn [coalesce_go]; [exact H|].
  inversion_clear H as [|? ? Hw H']. inversion_clear H' as [|? ? Hr H''].
  destruct ((rend w =? rstart r) && cfmt_eqb (rfmt w) (rfmt r)) eqn:E.
  - apply IH. constructor; [|exact H'']. cbn. lia.
  - constructor; [exact Hw|]. apply IH. constructor; assumption.
Qed.

(** Shifting back everything at or after [b], when nothing touches [[a,b)]. *)
Lemma shift_back_ordered lo runs a b :
  a < b -> ordered lo runs -> Forall (fun r => rend r <= a \/ b <= rstart r) runs ->
  ordered (if b <=? lo then lo - (b - a) else Nat.min lo a) (shift_runs_back runs b (b - a)).
Proof.
  intros Hab. revert lo; induction runs as [|r rest IH]; intros lo; cbn [ordered shift_runs_back map]; [auto|].
  intros (H1 & H2 & H3) Hs. inversion_clear Hs as [|? ? Hs1 Hs'].
  specialize (IH _ H3 Hs'). unfold shift_runs_back in IH.
  destruct (b <=? rstart r) eqn:E; cbn [rstart rend].
  - replace (b <=? rend r) with true in IH by lia.
    destruct (b <=? lo) eqn:E2; repeat split; try lia; exact IH.
  - replace (b <=? rend r) with false in IH by lia. replace (b <=? lo) with false by lia.
    repeat split; try lia. eapply ordered_weaken; [|exact IH]. lia.
Qed.

Lemma shift_back_fmt runs a b k :
  a < b -> Forall (fun r => rstart r < rend r) runs ->
  Forall (fun r => rend r <= a \/ b <= rstart r) runs ->
  fmt_at (shift_runs_back runs b (b - a)) k =
  if k <? a then fmt_at runs k else fmt_at runs (k + (b - a)).
Proof.
  intros Hab Hp. induction Hp as [|r rest Hr Hp IH]; intros Hs; cbn [shift_runs_back map fmt_at].
  - now destruct (k <? a).
  - inversion_clear Hs as [|? ? Hs1 Hs']. specialize (IH Hs'). unfold shift_runs_back in IH.
    rewrite IH. destruct (b <=? rstart r) eqn:E; cbn [rfmt]; unfold covers; cbn [rstart rend].
    + destruct (k <? a) eqn:K.
      * replace ((rstart r - (b - a) <=? k) && (k <? rend r - (b - a))) with false by lia.
        replace ((rstart r <=? k) && (k <? rend r)) with false by lia. reflexivity.
      * replace ((rstart r - (b - a) <=? k) && (k <? rend r - (b - a)))
          with ((rstart r <=? k + (b - a)) && (k + (b - a) <? rend r)) by lia. reflexivity.
    + destruct (k <? a) eqn:K; [reflexivity|].
      replace ((rstart r <=? k) && (k <? rend r)) with false by lia.
      replace ((rstart r <=? k + (b - a)) && (k + (b - a) <? rend r)) with false by lia.
      reflexivity.
Qed.

Lemma splice_nil_sides' runs a b :
  ordered 0 runs -> a < b ->
  Forall (fun r => rend r <= a \/ b <= rstart r) (splice_range runs a b []).
Proof.
  intros Ho Hab. unfold splice_range.
  pose proof (splice_nil_sides _ _ a b Ho ltac:(lia)) as H.
  destruct (splice_left runs a ++ [] ++ splice_right runs b) as [|r rest]; cbn [coalesce]; [constructor|].
  now apply coalesce_go_sides.
Qed.

Lemma ordered_pos lo runs : ordered lo runs -> Forall (fun r => rstart r < rend r) runs.
Proof. intros H. apply Forall_forall. intros r Hr. apply (ordered_in _ _ _ H Hr). Qed.

Lemma delete_pre_ordered runs a b :
  ordered 0 runs -> a < b ->
  ordered 0 (shift_runs_back (splice_range runs a b []) b (b - a)).
Proof.
  intros Ho Hab. eapply ordered_weaken; [apply Nat.le_0_l|].
  apply (shift_back_ordered 0); [exact Hab| |now apply splice_nil_sides'].
  apply splice_range_ordered; auto using inside_nil; try lia. apply inside_nil; lia.
Qed.

Lemma shift_delete_ordered runs a b :
  ordered 0 runs -> ordered 0 (shift_runs_for_delete runs a b).
Proof.
  intros Ho. unfold shift_runs_for_delete. destruct (b <=? a) eqn:E; [exact Ho|].
  apply coalesce_ordered, delete_pre_ordered; [exact Ho|lia].
Qed.

Lemma shift_delete_maximal runs a b :
  maximal runs -> maximal (shift_runs_for_delete runs a b).
Proof.
  intros Hm. unfold shift_runs_for_delete. destruct (b <=? a); [exact Hm|apply coalesce_maximal].
Qed.

Lemma shift_delete_fmt runs a b k :
  ordered 0 runs -> a <= b ->
  fmt_at (shift_runs_for_delete runs a b) k =
  if k <? a then fmt_at runs k else fmt_at runs (k + (b - a)).
Proof.
  intros Ho Hab. unfold shift_runs_for_delete. destruct (b <=? a) eqn:E.
  - replace (k + (b - a)) with k by lia. now destruct (k <? a).
  - assert (Hlt : a < b) by lia. assert (Hi := inside_nil a b Hab).
    rewrite (coalesce_fmt 0) by now apply delete_pre_ordered.
    rewrite shift_back_fmt; [|exact Hlt| |now apply splice_nil_sides'].
    + destruct (k <? a) eqn:K.
      * rewrite (splice_range_fmt 0) by (auto; lia).
        replace ((a <=? k) && (k <? b)) with false by lia. reflexivity.
      * rewrite (splice_range_fmt 0) by (auto; lia).
        replace ((a <=? k + (b - a)) && (k + (b - a) <? b)) with false by lia. reflexivity.
    + apply (ordered_pos 0), splice_range_ordered; auto; lia.
Qed.

(** ** Splitting *)

Lemma split_left_is_splice_left lo runs o : ordered lo runs -> split_runs_left runs o = splice_left runs o.
Proof.
  revert lo; induction runs as [|r rest IH]; intros lo; cbn [ordered split_runs_left splice_left]; [auto|].
  intros (H1 & H2 & H3). rewrite (IH _ H3).
  destruct (rend r <=? o) eqn:E; [reflexivity|].
  destruct (o <=? rstart r) eqn:E1, (rstart r <? o) eqn:E2; try lia; reflexivity.
Qed.

Lemma split_right_spec lo runs o :
  ordered lo runs ->
  ordered (lo - o) (split_runs_right runs o) /\
  (forall k, fmt_at (split_runs_right runs o) k = fmt_at runs (k + o)).
Proof.
  revert lo; induction runs as [|r rest IH]; intros lo; cbn [ordered split_runs_right fmt_at]; [auto|].
  intros (H1 & H2 & H3). destruct (IH _ H3) as (I1 & I2). clear IH.
  destruct (rend r <=? o) eqn:E; [|destruct (o <=? rstart r) eqn:E2].
  - split; [eapply ordered_weaken; [|exact I1]; lia|].
    intros k. rewrite I2. now rewrite (proj2 (covers_false r (k + o))) by lia.
  - split; [cbn [ordered rstart rend]; repeat split; try lia; exact I1|].
    intros k. cbn [fmt_at rfmt]. rewrite I2. unfold covers; cbn [rstart rend].
    replace ((rstart r - o <=? k) && (k <? rend r - o)) with
      ((rstart r <=? k + o) && (k + o <? rend r)) by lia. reflexivity.
  - split; [cbn [ordered rstart rend]; repeat split; try lia; exact I1|].
    intros k. cbn [fmt_at rfmt]. rewrite I2. unfold covers; cbn [rstart rend].
    replace ((0 <=? k) && (k <? rend r - o)) with
      ((rstart r <=? k + o) && (k + o <? rend r)) by lia. reflexivity.
Qed.

Lemma split_right_maximal lo runs o :
  ordered lo runs -> maximal runs -> maximal (split_runs_right runs o).
Proof.
  revert lo; induction runs as [|r rest IH]; intros lo; cbn [ordered split_runs_right]; [auto|].
  intros (H1 & H2 & H3) Hm. specialize (IH _ H3 (maximal_tail _ _ Hm)).
  destruct (rend r <=? o) eqn:E; [exact IH|].
  destruct rest as [|r2 rest].
  - destruct (o <=? rstart r); cbn; auto.
  - cbn [ordered] in H3. destruct H3 as (H4 & H5 & H6).
    cbn [maximal] in Hm. destruct Hm as [Hm _].
    cbn [split_runs_right] in IH |- *.
    replace (rend r2 <=? o) with false in * by lia.
    replace (o <=? rstart r2) with true in * by lia.
    destruct (o <=? rstart r); (cbn [maximal]; split; [|exact IH]);
      cbn [rend rstart rfmt]; intros (Ha & Hb); apply Hm; split; (lia || congruence).
Qed.

Lemma splice_left_maximal lo runs o :
  ordered lo runs -> maximal runs -> maximal (splice_left runs o).
Proof.
  revert lo; induction runs as [|r rest IH]; intros lo; cbn [ordered splice_left]; [auto|].
  intros (H1 & H2 & H3) Hm. specialize (IH _ H3 (maximal_tail _ _ Hm)).
  destruct (rend r <=? o) eqn:E.
  - destruct rest as [|r2 rest]; [cbn; auto|].
    cbn [maximal] in Hm. destruct Hm as [Hm _]. cbn [ordered] in H3. destruct H3 as (H4 & H5 & H6).
    cbn [splice_left] in IH |- *. destruct (rend r2 <=? o) eqn:E2.
    + cbn [maximal]. split; auto.
    + destruct (rstart r2 <? o) eqn:E3.
      * cbn [maximal]. split; auto.
      * destruct (splice_left rest o) as [|x xs] eqn:S; [cbn; auto|].
        exfalso. assert (Hx : In x (splice_left rest o)) by (rewrite S; left; reflexivity).
        pose proof (ordered_in _ _ _ (splice_left_ordered _ _ o H6) Hx).
        pose proof (proj1 (Forall_forall _ _) (splice_left_bound rest o) x Hx). cbn in *. lia.
  - assert (Hnil : splice_left rest o = []).
    { destruct (splice_left rest o) as [|x xs] eqn:S; [reflexivity|].
      exfalso. assert (Hx : In x (splice_left rest o)) by (rewrite S; left; reflexivity).
      pose proof (ordered_in _ _ _ (splice_left_ordered _ _ o H3) Hx).
      pose proof (proj1 (Forall_forall _ _) (splice_left_bound rest o) x Hx). cbn in *. lia. }
    rewrite Hnil. destruct (rstart r <? o); cbn; auto.
Qed.

(** Attributes of a format after a request. *)
Lemma set_merge_attrs f q :
  let g := set_merge f q in
  let takes := fun A (new old now : option A) => (forall v, new = Some v -> now = Some v) /\ (new = None -> now = old) in
  takes _ (q_font_family q) (font_family f) (font_family g)
  /\ takes _ (q_font_point_size q) (font_point_size f) (font_point_size g)
  /\ takes _ (q_font_weight q) (font_weight f) (font_weight g)
  /\ takes _ (q_font_bold q) (font_bold f) (font_bold g)
  /\ takes _ (q_font_italic q) (font_italic f) (font_italic g)
  /\ takes _ (q_font_underline q) (font_underline f) (font_underline g)
  /\ takes _ (q_font_overline q) (font_overline f) (font_overline g)
  /\ takes _ (q_font_strikeout q) (font_strikeout f) (font_strikeout g)
  /\ takes _ (q_letter_spacing q) (letter_spacing f) (letter_spacing g)
  /\ takes _ (q_word_spacing q) (word_spacing f) (word_spacing g)
  /\ takes _ (q_underline_style q) (underline_style f) (underline_style g)
  /\ takes _ (q_vertical_alignment q) (vertical_alignment f) (vertical_alignment g)
  /\ anchor_href g = anchor_href f /\ anchor_names g = anchor_names f /\ is_anchor g = is_anchor f /\ tooltip g = tooltip f.
Proof.
  cbv zeta. destruct q as [? ? ? ? ? ? ? ? ? ? ? ?], f as [? ? ? ? ? ? ? ? ? ? ? ? ? ? ? ?]; cbn.
  repeat (match goal with |- _ /\ _ => split end);
    try (intros v ->; reflexivity); try (intros ->; reflexivity); reflexivity.
Qed.
Lemma merge_merge_attrs f q :
  let g := merge_merge f q in
  let takes := fun A (new old now : option A) => (forall v, new = Some v -> now = Some v) /\ (new = None -> now = old) in
  (q_font_family q <> Some [] -> takes _ (q_font_family q) (font_family f) (font_family g))
  /\ takes _ (q_font_bold q) (font_bold f) (font_bold g)
  /\ takes _ (q_font_italic q) (font_italic f) (font_italic g)
  /\ takes _ (q_font_underline q) (font_underline f) (font_underline g)
  /\ takes _ (q_font_strikeout q) (font_strikeout f) (font_strikeout g)
  /\ font_point_size g = font_point_size f /\ font_weight g = font_weight f /\ font_overline g = font_overline f
  /\ letter_spacing g = letter_spacing f /\ word_spacing g = word_spacing f
  /\ underline_style g = underline_style f /\ vertical_alignment g = vertical_alignment f
  /\ anchor_href g = anchor_href f /\ anchor_names g = anchor_names f /\ is_anchor g = is_anchor f /\ tooltip g = tooltip f.
Proof.
  cbv zeta. destruct q as [qf ? ? ? ? ? ? ? ? ? ? ?], f as [? ? ? ? ? ? ? ? ? ? ? ? ? ? ? ?]; cbn.
  split; [intros H; split; [intros v ->; destruct v; [now elim H|reflexivity]|intros ->; reflexivity]|].
  repeat (match goal with |- _ /\ _ => split end);
    try (intros v ->; reflexivity); try (intros ->; reflexivity); reflexivity.
Qed.
