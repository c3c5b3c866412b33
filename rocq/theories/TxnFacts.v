(** Facts on transactions. *)
From Coq Require Import List NArith Bool Lia. Import ListNotations.
From Verif Require Import Base TxnModel TxnSpec.

Section Facts.
Context {D Ev : Type} (refresh : D -> D).
Implicit Types (u : uow D Ev) (o : uow_op D Ev) (os : list (uow_op D Ev)).
Notation step := (uow_step refresh).
Notation run := (uow_run refresh).

Definition keys_ok (s : store (D := D)) : Prop := Forall (fun x => (fst x < next_save s)%N) (saves s).
Lemma find_gt (l : list (N * (D * counters))) k n : Forall (fun x => (fst x < n)%N) l -> find (fun x => (fst x =? k)%N) l <> None -> (k < n)%N.
Proof.
  intros F H. destruct (find _ l) as [x|] eqn:E; [|easy]. apply find_some in E. destruct E as [E1 E2]. apply N.eqb_eq in E2.
  rewrite Forall_forall in F. specialize (F _ E1). lia.
Qed.
Lemma keys_lt n (l : list (N * (D * counters))) : Forall (fun x => (fst x < n)%N) l -> Forall (fun x => (fst x < n + 1)%N) l.
Proof. intros H. eapply Forall_impl; [|exact H]. cbn. lia. Qed.
Lemma restore_facts (s : store (D := D)) sp s' : restore_savepoint s sp = Ok s' ->
  saves s' = saves s /\ next_save s' = next_save s
  /\ find (fun x => (fst x =? sp)%N) (saves s) = Some (sp, (tables s', cnts s')).
Proof.
  unfold restore_savepoint. destruct (find _ (saves s)) as [[k [t c]]|] eqn:E; [|easy]. intros [= <-]. cbn.
  pose proof (find_some _ _ E) as [_ E2]. apply N.eqb_eq in E2. cbn in E2. now subst k.
Qed.
Lemma step_keys u o u' : keys_ok (st u) -> step u o = Ok u' -> keys_ok (st u').
Proof.
  intros K. unfold keys_ok in *. assert (K1 : Forall (fun x => (fst x < next_save (st u) + 1)%N) ((next_save (st u), (tables (st u), cnts (st u))) :: saves (st u))).
  { constructor; [cbn; lia|]. now apply keys_lt. }
  destruct o; cbn [uow_step create_savepoint]; unfold in_txn.
  - destruct (drop_txn _ (txn u)) as [s| |] eqn:E; cbn [bind]; try easy. intros [= <-]. cbn.
    destruct (txn u); cbn in E; [|injection E as <-; exact K1]. apply restore_facts in E. destruct E as (-> & -> & _). exact K1.
  - destruct (txn u); [|easy]. now intros [= <-].
  - destruct (txn u); [|easy]. cbn. now intros [= <-].
  - destruct (txn u); [|easy]. now intros [= <-].
  - destruct (txn u); [|easy]. intros [= <-]. exact K1.
  - destruct (txn u); [|easy]. destruct (restore_savepoint _ _) as [s| |] eqn:E; cbn [bind]; try easy. intros [= <-]. cbn.
    apply restore_facts in E. destruct E as (-> & -> & _). exact K.
  - destruct (txn u); [|easy]. now intros [= <-].
  - destruct (txn u); [|easy]. intros [= <-]. cbn. rewrite Forall_forall in *. intros x Hx. apply filter_In in Hx. now apply K.
  - destruct (txn u); [|easy]. destruct (restore_savepoint _ _) as [s| |] eqn:E; cbn [bind]; try easy. intros [= <-]. cbn.
    apply restore_facts in E. destruct E as (-> & -> & _). exact K.
  - destruct (drop_txn _ (txn u)) as [s| |] eqn:E; cbn [bind]; try easy. intros [= <-]. cbn.
    destruct (txn u); cbn in E; [|injection E as <-; exact K]. apply restore_facts in E. destruct E as (-> & -> & _). exact K.
Qed.
Lemma run_keys os : forall u u', keys_ok (st u) -> run u os = Ok u' -> keys_ok (st u').
Proof.
  induction os as [|o os IH]; intros u u' K; cbn; [intros [= <-]; easy|].
  destruct (step u o) as [v| |] eqn:E; cbn [bind]; try easy. apply IH. eapply step_keys; eauto.
Qed.
Lemma start_keys d : keys_ok (st (@uow_start D Ev d)). Proof. constructor. Qed.
Lemma run_app os1 : forall os2 u, run u (os1 ++ os2) = let! v := run u os1 in run v os2.
Proof. induction os1 as [|o os1 IH]; intros os2 u; cbn; [easy|]. destruct (step u o); cbn [bind]; auto. Qed.

(** ** Failing changes nothing *)
Definition guarded u sp (t : D) (c : counters) : Prop :=
  keys_ok (st u) /\ txn u = Some sp /\ (sp < next_save (st u))%N /\ find (fun x => (fst x =? sp)%N) (saves (st u)) = Some (sp, (t, c)).
Lemma guarded_step u o u' sp t c : guarded u sp t c -> inner_op o -> step u o = Ok u' ->
  guarded u' sp t c /\ kept_ids u' = kept_ids u /\ (no_restore_to o -> hub u' = hub u).
Proof.
  intros (K & T & L & F) Hi E. pose proof (step_keys u o u' K E) as K'. unfold guarded.
  destruct o; try easy; cbn [uow_step create_savepoint next_id] in E; unfold in_txn in E; rewrite T in E.
  - injection E as <-. cbn in *. try rewrite T. auto 10.
  - injection E as <-. cbn in *. try rewrite T. auto 10.
  - injection E as <-. cbn in *. try rewrite T. auto 10.
  - injection E as <-. cbn in *. try rewrite T. rewrite (proj2 (N.eqb_neq (next_save (st u)) sp)) by lia.
    split; [|auto]. split; [easy|]. split; [easy|]. split; [lia|easy].
  - destruct (restore_savepoint _ _) as [s| |] eqn:Er; cbn [bind] in E; try easy. injection E as <-. cbn in *. try rewrite T.
    apply restore_facts in Er. destruct Er as (-> & -> & _). split; [auto 10|]. split; [easy|]. intros [].
  - injection E as <-. cbn in *. try rewrite T. auto 10.
Qed.
Lemma guarded_run body : forall u u' sp t c, guarded u sp t c -> Forall inner_op body -> run u body = Ok u' ->
  guarded u' sp t c /\ kept_ids u' = kept_ids u /\ (Forall no_restore_to body -> hub u' = hub u).
Proof.
  induction body as [|o body IH]; intros u u' sp t c Gd F E; cbn in E; [injection E as <-; auto|].
  inversion F as [|? ? F1 F2]; subst. destruct (step u o) as [v| |] eqn:Es; cbn [bind] in E; try easy.
  destruct (guarded_step _ _ _ _ _ _ Gd F1 Es) as (G1 & K1 & H1). destruct (IH _ _ _ _ _ G1 F2 E) as (G2 & K2 & H2).
  split; [easy|]. split; [congruence|]. intros R. inversion R; subst. rewrite H2 by easy. now apply H1.
Qed.
Lemma failed_theorem d os u body u1 fin : run (uow_start d) os = Ok u -> txn u = None ->
  Forall inner_op body -> run u (Begin :: body) = Ok u1 -> fin = Rollback \/ fin = Abandon ->
  exists u2, step u1 fin = Ok u2 /\ txn u2 = None /\ same_store (st u2) (st u) /\ kept_ids u2 = kept_ids u
   /\ (Forall no_restore_to body -> hub u2 = hub u).
Proof.
  intros R T Hb E Hf. pose proof (run_keys os _ _ (start_keys d) R) as K.
  change (run u (Begin :: body)) with (let! v := step u Begin in run v body) in E.
  cbn [uow_step create_savepoint] in E. rewrite T in E. cbn [drop_txn bind] in E.
  assert (Gd : guarded (mk_uow (mk_store (tables (st u)) (cnts (st u)) ((next_save (st u), (tables (st u), cnts (st u))) :: saves (st u)) (next_save (st u) + 1))
     (Some (next_save (st u))) true [] (hub u) [] (kept_ids u)) (next_save (st u)) (tables (st u)) (cnts (st u))).
  { split; [|split; [easy|]; split; cbn; [lia|now rewrite N.eqb_refl]]. unfold keys_ok. cbn. constructor; [cbn; lia|now apply keys_lt]. }
  destruct (guarded_run body _ _ _ _ _ Gd Hb E) as ((_ & T1 & _ & F1) & K1 & H1).
  assert (Q : restore_savepoint (st u1) (next_save (st u)) = Ok (mk_store (tables (st u)) (cnts (st u)) (saves (st u1)) (next_save (st u1)))).
  { unfold restore_savepoint. now rewrite F1. }
  destruct Hf as [-> | ->]; cbn [uow_step]; unfold in_txn; rewrite T1; cbn [drop_txn]; rewrite Q; cbn [bind]; eexists;
    (split; [reflexivity|]); (split; [easy|]); (split; [split; easy|]); split; easy.
Qed.

(** ** Publishing *)
Lemma publish_run os : forall u u', Forall no_restore_to os -> run u os = Ok u' ->
  (txn u <> None -> buffering u = true) -> (txn u = None -> buffer u = []) ->
  hub u' = hub u ++ map Some (published (buffer u) os).
Proof.
  induction os as [|o os IH]; intros u u' F E Hb Hn; cbn in E; [injection E as <-; cbn; now rewrite app_nil_r|].
  inversion F as [|? ? F1 F2]; subst. destruct (step u o) as [v| |] eqn:Es; cbn [bind] in E; try easy. specialize (IH v u' F2 E).
  destruct o; cbn [uow_step create_savepoint next_id] in Es; unfold in_txn in Es; try (now destruct F1).
  - destruct (drop_txn _ _) as [s| |]; cbn [bind] in Es; try easy. injection Es as <-. now apply IH.
  - destruct (txn u) eqn:T; [|easy]. injection Es as <-. cbn in IH. try rewrite T in IH. now apply IH.
  - destruct (txn u) eqn:T; [|easy]. injection Es as <-. cbn in IH. try rewrite T in IH. now apply IH.
  - destruct (txn u) eqn:T; [|easy]. injection Es as <-. cbn in IH. try rewrite T in IH; rewrite (Hb ltac:(easy)) in IH. now apply IH.
  - destruct (txn u) eqn:T; [|easy]. injection Es as <-. cbn in IH. try rewrite T in IH. now apply IH.
  - destruct (txn u) eqn:T; [|easy]. injection Es as <-. cbn in IH. try rewrite T in IH. now apply IH.
  - destruct (txn u) eqn:T; [|easy]. injection Es as <-. cbn in IH. cbn. rewrite IH by easy. rewrite map_app, app_assoc. easy.
  - destruct (txn u) eqn:T; [|easy]. destruct (restore_savepoint _ _) as [s| |]; cbn [bind] in Es; try easy. injection Es as <-. now apply IH.
  - destruct (drop_txn _ _) as [s| |]; cbn [bind] in Es; try easy. injection Es as <-. now apply IH.
Qed.
Lemma publish_theorem d os u : Forall no_restore_to os -> run (uow_start d) os = Ok u -> hub u = map Some (published [] os).
Proof. intros F E. now apply (publish_run os _ _ F E). Qed.

(** ** Ids *)
Definition value (c : counters) (name : N) : N := match counter c name with Some v => v | None => 1%N end.
Definition below (c : counters) (l : list (N * N)) : Prop := Forall (fun x => (snd x < value c (fst x))%N) l.
Definition ids_ok u : Prop :=
  keys_ok (st u) /\ NoDup (kept_ids u ++ fresh_ids u) /\ below (cnts (st u)) (kept_ids u ++ fresh_ids u)
  /\ match txn u with
     | Some sp => exists t c, find (fun x => (fst x =? sp)%N) (saves (st u)) = Some (sp, (t, c)) /\ below c (kept_ids u)
     | None => fresh_ids u = []
     end.
Lemma value_next c name n : value ((name, (value c name + 1)%N) :: c) n = if (name =? n)%N then (value c name + 1)%N else value c n.
Proof. unfold value at 1, counter. cbn. destruct (N.eqb_spec name n); easy. Qed.
Lemma NoDup_app_l {A} (a b : list A) : NoDup (a ++ b) -> NoDup a.
Proof. induction a as [|x a IH]; cbn; [constructor|]. intros H. inversion H; subst. constructor; [rewrite in_app_iff in *; tauto|auto]. Qed.
Lemma NoDup_snoc {A} (l : list A) x : NoDup l -> ~ In x l -> NoDup (l ++ [x]).
Proof.
  induction l as [|y l IH]; cbn; intros H Hx; [repeat constructor; easy|]. inversion H; subst. constructor.
  - rewrite in_app_iff. cbn. intros [|[|[]]]; [tauto|subst; tauto].
  - apply IH; [easy|tauto].
Qed.
Lemma ids_step u o u' : ids_ok u -> no_restore_to o -> (o = Begin -> txn u = None) -> step u o = Ok u' -> ids_ok u'.
Proof.
  intros (K & N0 & B & T0) Hr Hb E. pose proof (step_keys u o u' K E) as K'. unfold ids_ok in *. split; [exact K'|]. clear K'.
  destruct o; cbn [uow_step create_savepoint next_id] in E; unfold in_txn in E; try (now destruct Hr).
  - rewrite (Hb eq_refl) in *. cbn [drop_txn bind] in E. injection E as <-. cbn. rewrite T0, app_nil_r in N0, B. rewrite app_nil_r.
    split; [easy|]. split; [easy|]. rewrite N.eqb_refl. eauto.
  - destruct (txn u) eqn:T; [|easy]. injection E as <-. cbn. try rewrite T. easy.
  - destruct (txn u) as [sp|] eqn:T; [|easy]. injection E as <-. cbn. fold (value (cnts (st u)) name). try rewrite T; rewrite app_assoc.
    split; [|split; [|easy]].
    + apply NoDup_snoc; [easy|]. intros H. unfold below in B. rewrite Forall_forall in B. specialize (B _ H). cbn in B. lia.
    + unfold below in *. rewrite Forall_forall in *. intros x Hx. rewrite value_next. apply in_app_iff in Hx. destruct Hx as [Hx|[<-|[]]].
      * specialize (B x Hx). destruct (N.eqb_spec name (fst x)) as [->|]; lia.
      * cbn. rewrite N.eqb_refl. lia.
  - destruct (txn u) eqn:T; [|easy]. injection E as <-. cbn. try rewrite T. easy.
  - destruct (txn u) as [sp|] eqn:T; [|easy]. injection E as <-. cbn. try rewrite T. destruct T0 as (t & c & F & Bc). split; [easy|]. split; [easy|].
    assert (sp < next_save (st u))%N by (apply (find_gt _ _ _ K); congruence). rewrite (proj2 (N.eqb_neq (next_save (st u)) sp)) by lia. eauto.
  - destruct (txn u) eqn:T; [|easy]. injection E as <-. cbn. try rewrite T. easy.
  - destruct (txn u) eqn:T; [|easy]. injection E as <-. cbn. rewrite app_nil_r. easy.
  - destruct (txn u) as [sp|] eqn:T; [|easy]. destruct (restore_savepoint _ _) as [s| |] eqn:Er; cbn [bind] in E; try easy. injection E as <-. cbn.
    apply restore_facts in Er. destruct Er as (_ & _ & F). destruct T0 as (t & c & F' & Bc). rewrite F in F'. injection F' as Et Ec; subst t c.
    rewrite app_nil_r. split; [now apply NoDup_app_l in N0|]. easy.
  - destruct (txn u) as [sp|] eqn:T; cbn [drop_txn] in E.
    + destruct (restore_savepoint _ _) as [s| |] eqn:Er; cbn [bind] in E; try easy. injection E as <-. cbn.
      apply restore_facts in Er. destruct Er as (_ & _ & F). destruct T0 as (t & c & F' & Bc). rewrite F in F'. injection F' as Et Ec; subst t c.
      rewrite app_nil_r. split; [now apply NoDup_app_l in N0|]. easy.
    + cbn [bind] in E. injection E as <-. cbn. rewrite T0 in N0, B. easy.
Qed.
Lemma txn_open u o u' : step u o = Ok u' -> match o with Begin => txn u' <> None | Commit | Rollback | Abandon => txn u' = None | _ => txn u' = txn u end.
Proof.
  destruct o; cbn [uow_step create_savepoint next_id]; unfold in_txn; try (destruct (txn u) eqn:T; [|easy]); intros E;
    try (injection E as <-; cbn; congruence);
    try (destruct (restore_savepoint _ _); cbn [bind] in E; try easy; injection E as <-; cbn; congruence);
    try (destruct (drop_txn _ _); cbn [bind] in E; try easy; injection E as <-; cbn; congruence).
  all: try (now injection E as <-).
  all: destruct (drop_txn _ (Some _)); cbn [bind] in E; try easy; injection E as <-; cbn; congruence.
Qed.
Lemma ids_run os : forall u u' open, ids_ok u -> Forall no_restore_to os -> closed_first open os ->
  (open = false -> txn u = None) -> run u os = Ok u' -> ids_ok u'.
Proof.
  induction os as [|o os IH]; intros u u' open I F C Ho E; cbn [uow_run] in E; [injection E as <-; easy|].
  inversion F as [|? ? F1 F2]; subst. destruct (step u o) as [v| |] eqn:Es; cbn [bind] in E; try easy.
  pose proof (txn_open u o v Es) as T.
  assert (Iv : ids_ok v). { apply (ids_step u o v I F1); [|easy]. intros ->. destruct C as [-> _]. now apply Ho. }
  destruct o; cbn in C; try (apply (IH v u' open Iv F2 C); [|easy]; intros H; rewrite T; now apply Ho).
  - destruct C as [_ C]. now apply (IH v u' true Iv F2 C).
  - now apply (IH v u' false Iv F2 C).
  - now apply (IH v u' false Iv F2 C).
  - now apply (IH v u' false Iv F2 C).
Qed.
Lemma ids_theorem d os u : Forall no_restore_to os -> closed_first false os -> run (uow_start d) os = Ok u ->
  NoDup (kept_ids u ++ fresh_ids u).
Proof.
  intros F C E. apply (ids_run os (uow_start d) u false); try easy. split; [constructor|]. split; [constructor|]. split; [constructor|easy].
Qed.
End Facts.

(** ** Counterexamples *)
Lemma restored_events_lost : exists u : uow unit nat,
  uow_run (fun d => d) (uow_start tt) [Begin; MakeSavepoint; RestoreTo 1%N; Emit 5; Commit] = Ok u /\ hub u = [None].
Proof. eexists. split; vm_compute; reflexivity. Qed.
Lemma savepoint_recycles : exists u : uow unit nat,
  uow_run (fun d => d) (uow_start tt)
    [Begin; MakeSavepoint; Commit; Begin; NewId 0%N; Commit; Begin; RestoreTo 1%N; Commit; Begin; NewId 0%N; Commit] = Ok u
  /\ kept_ids u = [(0, 1); (0, 1)]%N.
Proof. eexists. split; vm_compute; reflexivity. Qed.
