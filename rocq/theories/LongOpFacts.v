(** Proofs about long operations. *)
From Coq Require Import List NArith Bool Lia. Import ListNotations.
From Verif Require Import Base LongOpModel LongOpSpec.

Section Facts.
Context {D T R X : Type} (text : D -> T) (cancelled : X).
Notation state := (state D T R X). Notation label := (label D R X). Notation act := (act D R X).
Notation step := (step (R := R) text cancelled). Notation exec := (exec (R := R) text cancelled).
Notation start := (start (D := D) (T := T) (R := R) (X := X)).

Lemma exec_app a : forall s b, exec s (a ++ b) = match exec s a with Some s' => exec s' b | None => None end.
Proof. induction a as [|l a IH]; intros s b; cbn; [easy|]. destruct (step s l); auto. Qed.

Lemma exec_inv (P : state -> Prop) : (forall s l s', P s -> step s l = Some s' -> P s') ->
  forall ls s s', P s -> exec s ls = Some s' -> P s'.
Proof.
  intros Hs. induction ls as [|l ls IH]; intros s s' H; cbn; [now intros [= <-]|].
  destruct (step s l) as [s1|] eqn:E; [|easy]. eauto.
Qed.

Lemma upd_same {A} (f : N -> A) i x : upd f i x i = x.
Proof. unfold upd. now rewrite N.eqb_refl. Qed.
Lemma upd_other {A} (f : N -> A) i x j : j <> i -> upd f i x j = f j.
Proof. intros H. unfold upd. now destruct (N.eqb_spec j i). Qed.

(** ** The invariant *)
Definition quiet (x : status X) : Prop := x = Running \/ x = Cancelled.
Definition good (o : option (cell X)) (r : option R) (p : pc D R X) : Prop :=
  match o with
  | None => r = None /\ p = PGone
  | Some c =>
      match p with
      | PStart _ | PWork _ | PPassed _ | PReturned _ | PStoring _ =>
          r = None /\ quiet (c_status c) /\ (c_status c = Cancelled -> c_flag c = true)
      | PDecided x | PAnnounced x =>
          x <> Running /\ (x = Completed <-> r <> None) /\ (x = Cancelled -> c_flag c = true)
          /\ quiet (c_status c) /\ (c_status c = Cancelled -> c_flag c = true)
      | PGone => c_status c <> Running /\ (c_status c = Completed <-> r <> None) /\ (c_status c = Cancelled -> c_flag c = true)
      end
  end.
Record inv (s : state) : Prop := {
  i_good : forall i, good (s_cells s i) (s_results s i) (s_pcs s i);
  i_new : forall i, (s_next s < i)%N -> s_cells s i = None;
  i_cancel : forall i, s_cancelling s = Some i -> exists x, s_cells s i = Some (mk_cell true x);
  i_listed : forall i, s_listed s i = true -> s_cells s i <> None
}.
Lemma inv_start d : inv (start d).
Proof. constructor; cbn; try easy. Qed.

(** What a worker's step does to its own operation. *)
Lemma work_other (s : state) i a (s' : state) : work cancelled s i a = Some s' ->
  (forall j, j <> i -> s_cells s' j = s_cells s j /\ s_results s' j = s_results s j /\ s_pcs s' j = s_pcs s j)
  /\ s_next s' = s_next s /\ s_cancelling s' = s_cancelling s /\ s_listed s' = s_listed s /\ s_undo s' = s_undo s
  /\ s_cache s' = s_cache s.
Proof.
  unfold work. intros H.
  destruct (s_pcs s i) as [im|[sv|]|[sv|]|r|r|x|x|] eqn:Ep, a; try discriminate; try (destruct (flag_of s i) eqn:Ef); try discriminate;
    injection H as <-; (split; [intros j Hj|]); cbn; rewrite ?upd_other by easy; easy.
Qed.
Lemma work_good (s : state) i a (s' : state) : inv s -> work cancelled s i a = Some s' ->
  good (s_cells s' i) (s_results s' i) (s_pcs s' i)
  /\ (exists c c', s_cells s i = Some c /\ s_cells s' i = Some c' /\ c_flag c' = c_flag c).
Proof.
  intros I H. pose proof (i_good _ I i) as G. destruct (s_cells s i) as [c|] eqn:Ec.
  2:{ destruct G as [_ Ep]. unfold work in H. rewrite Ep in H. now destruct a. }
  assert (Hf : flag_of s i = c_flag c) by (unfold flag_of; now rewrite Ec).
  unfold work in H. rewrite Hf in H.
  destruct (s_pcs s i) as [im|[sv|]|[sv|]|r|r|x|x|] eqn:Ep, a; try discriminate; try (destruct (c_flag c) eqn:Ef); try discriminate;
    injection H as <-; cbn in G; cbn; rewrite ?upd_same, ?Ec;
    (split; [|first [exists c, c; easy | eexists c, _; split; [reflexivity|]; split; [reflexivity|]; cbn; congruence]]);
    cbn; rewrite ?Ef; try easy; try tauto.
  all: rewrite ?Ep, ?Ef in *; try (destruct r as [v|e]); cbn; rewrite ?Ef; intuition congruence.
Qed.

Lemma step_inv (s : state) l (s' : state) : inv s -> step s l = Some s' -> inv s'.
Proof.
  intros I H. destruct l as [im|i| | |f| |i a]; cbn in H.
  - destruct (s_cancelling s) as [k|] eqn:Ec; [easy|]. injection H as <-.
    assert (Hn : s_cells s (N.succ (s_next s)) = None) by (apply (i_new _ I); lia).
    constructor; cbn.
    + intros j. destruct (N.eq_dec j (N.succ (s_next s))) as [->|Hj].
      * rewrite !upd_same. cbn. pose proof (i_good _ I (N.succ (s_next s))) as G. rewrite Hn in G. destruct G as [-> _].
        repeat split; [now left|easy].
      * rewrite !upd_other by easy. apply (i_good _ I).
    + intros j Hj. rewrite upd_other by lia. apply (i_new _ I). lia.
    + easy.
    + intros j. destruct (N.eq_dec j (N.succ (s_next s))) as [->|Hj].
      * now rewrite !upd_same.
      * rewrite !upd_other by easy. apply (i_listed _ I).
  - destruct (s_cancelling s) as [k|] eqn:Ec; [easy|]. destruct (s_listed s i) eqn:El; [|now injection H as <-].
    destruct (s_cells s i) as [c|] eqn:Ei; [|easy]. injection H as <-. constructor; cbn.
    + intros j. destruct (N.eq_dec j i) as [->|Hj].
      * rewrite upd_same. pose proof (i_good _ I i) as G. rewrite Ei in G. destruct c as [fl x]. cbn in *.
        destruct (s_pcs s i); tauto.
      * rewrite upd_other by easy. apply (i_good _ I).
    + intros j Hj. rewrite upd_other; [now apply (i_new _ I)|]. intros ->. pose proof (i_new _ I _ Hj). congruence.
    + intros j [= <-]. rewrite upd_same. now exists (c_status c).
    + intros j Hj. destruct (N.eq_dec j i) as [->|Hn]; [now rewrite upd_same|]. rewrite upd_other by easy. now apply (i_listed _ I).
  - destruct (s_cancelling s) as [i|] eqn:Ec; [|easy]. destruct (i_cancel _ I i Ec) as (x & Ei). rewrite Ei in H. injection H as <-.
    constructor; cbn.
    + intros j. destruct (N.eq_dec j i) as [->|Hj].
      * rewrite upd_same. pose proof (i_good _ I i) as G. rewrite Ei in G. cbn in *. unfold quiet in *.
        destruct (s_pcs s i), x; intuition congruence.
      * rewrite upd_other by easy. apply (i_good _ I).
    + intros j Hj. rewrite upd_other; [now apply (i_new _ I)|]. intros ->. pose proof (i_new _ I _ Hj). congruence.
    + easy.
    + intros j Hj. destruct (N.eq_dec j i) as [->|Hn]; [now rewrite upd_same|]. rewrite upd_other by easy. now apply (i_listed _ I).
  - destruct (s_cancelling s) as [k|] eqn:Ec; [easy|]. injection H as <-. constructor; cbn; try apply I; try easy.
    intros j Hj. apply andb_prop in Hj as [Hj _]. now apply (i_listed _ I).
  - injection H as <-. constructor; cbn; apply I.
  - injection H as <-. constructor; cbn; apply I.
  - destruct (work_other _ _ _ _ H) as (O & On & Oc & Ol & _). destruct (work_good _ _ _ _ I H) as (G & c & c' & E1 & E2 & E3).
    constructor.
    + intros j. destruct (N.eq_dec j i) as [->|Hj]; [easy|]. destruct (O j Hj) as (-> & -> & ->). apply (i_good _ I).
    + intros j Hj. rewrite On in Hj. pose proof (i_new _ I _ Hj) as Hn. assert (j <> i) by congruence.
      destruct (O j ltac:(easy)) as (-> & _). easy.
    + rewrite Oc. intros j Hj. destruct (i_cancel _ I j Hj) as (x & Ej). destruct (N.eq_dec j i) as [->|Hji].
      * exists (c_status c'). rewrite E2. destruct c', c. cbn in *. congruence.
      * exists x. destruct (O j Hji) as (-> & _). easy.
    + intros j Hj. rewrite Ol in Hj. pose proof (i_listed _ I _ Hj). destruct (N.eq_dec j i) as [->|Hji]; [congruence|].
      destruct (O j Hji) as (-> & _). easy.
Qed.
Lemma exec_good d ls s : exec (start d) ls = Some s -> inv s.
Proof. apply exec_inv; [apply step_inv|apply inv_start]. Qed.

(** ** What never changes again *)
Definition told (s : state) (i : N) (x : status X) : Prop :=
  s_pcs s i = PGone /\ option_map c_status (s_cells s i) = Some x.
Lemma step_told (s : state) l (s' : state) i x : inv s -> x <> Running -> step s l = Some s' -> told s i x -> told s' i x.
Proof.
  intros I Hx H [Ep Es]. destruct (s_cells s i) as [c|] eqn:Ei; [|easy]. cbn in Es. injection Es as <-.
  unfold told. destruct l as [im|k| | |f| |k a]; cbn in H.
  - destruct (s_cancelling s) as [k|] eqn:Ec; [easy|]. injection H as <-. cbn.
    assert (i <> N.succ (s_next s)). { intros ->. rewrite (i_new _ I) in Ei; [easy|lia]. }
    rewrite !upd_other by easy. now rewrite Ei.
  - destruct (s_cancelling s) as [j|] eqn:Ec; [easy|]. destruct (s_listed s k) eqn:El; [|injection H as <-; now rewrite Ei].
    destruct (s_cells s k) as [c'|] eqn:Ek; [|easy]. injection H as <-. cbn. destruct (N.eq_dec i k) as [->|Hn].
    + rewrite upd_same. cbn. split; congruence.
    + rewrite upd_other by easy. now rewrite Ei.
  - destruct (s_cancelling s) as [k|] eqn:Ec; [|easy]. destruct (s_cells s k) as [c'|] eqn:Ek; [|easy]. injection H as <-. cbn.
    destruct (N.eq_dec i k) as [->|Hn].
    + rewrite upd_same. cbn. assert (c' = c) as -> by congruence. now destruct (c_status c).
    + rewrite upd_other by easy. now rewrite Ei.
  - destruct (s_cancelling s) as [k|] eqn:Ec; [easy|]. injection H as <-. cbn. now rewrite Ei.
  - injection H as <-. cbn. now rewrite Ei.
  - injection H as <-. cbn. now rewrite Ei.
  - destruct (N.eq_dec i k) as [->|Hn]; [|destruct (work_other _ _ _ _ H) as (O & _); destruct (O i Hn) as (-> & _ & ->); now rewrite Ei].
    unfold work in H. rewrite Ep in H. now destruct a.
Qed.
Lemma exec_told i x : x <> Running -> forall ls (s s' : state), inv s -> told s i x -> exec s ls = Some s' -> told s' i x.
Proof.
  intros Hx ls s s' I H E. apply (exec_inv (fun s => inv s /\ told s i x)) with (ls := ls) (s := s) in E; [easy| |easy].
  intros s1 l s2 [I1 T1] S. split; [now apply step_inv with (2 := S)|now apply step_told with (3 := S)].
Qed.
Lemma status_told (s : state) i x : inv s -> x <> Running -> x <> Cancelled -> operation_status s i = Some x -> told s i x.
Proof.
  intros I H1 H2 H. unfold operation_status in H. destruct (s_listed s i); [|easy].
  destruct (s_cells s i) as [c|] eqn:Ei; [|easy]. cbn in H. injection H as <-. pose proof (i_good _ I i) as G. rewrite Ei in G.
  cbn in G. unfold told. rewrite Ei. split; [|easy]. unfold quiet in G. destruct (s_pcs s i); intuition congruence.
Qed.

Lemma step_result (s : state) l (s' : state) i r : inv s -> step s l = Some s' -> s_results s i = Some r -> s_results s' i = Some r.
Proof.
  intros I H E. destruct l as [im|k| | |f| |k a]; cbn in H.
  - destruct (s_cancelling s) as [k|] eqn:Ec; [easy|]. now injection H as <-.
  - destruct (s_cancelling s) as [j|] eqn:Ec; [easy|]. destruct (s_listed s k) eqn:El; [|now injection H as <-].
    destruct (s_cells s k) as [c'|] eqn:Ek; [|easy]. now injection H as <-.
  - destruct (s_cancelling s) as [k|] eqn:Ec; [|easy]. destruct (s_cells s k) as [c'|] eqn:Ek; [|easy]. now injection H as <-.
  - destruct (s_cancelling s) as [k|] eqn:Ec; [easy|]. now injection H as <-.
  - now injection H as <-.
  - now injection H as <-.
  - destruct (N.eq_dec i k) as [->|Hn]; [|destruct (work_other _ _ _ _ H) as (O & _); now destruct (O i Hn) as (_ & -> & _)].
    pose proof (i_good _ I k) as G. unfold work in H.
    destruct (s_cells s k) as [c|] eqn:Ei; [|cbn in G; destruct G; congruence].
    destruct (s_pcs s k) as [im|[sv|]|[sv|]|y|y|x|x|] eqn:Ep, a; try discriminate; try (destruct (flag_of s k) eqn:Ef); try discriminate;
    injection H as <-; cbn; try easy; cbn in G; destruct G; congruence.
Qed.
Lemma exec_result i r : forall ls (s s' : state), inv s -> s_results s i = Some r -> exec s ls = Some s' -> s_results s' i = Some r.
Proof.
  intros ls s s' I H E. apply (exec_inv (fun s => inv s /\ s_results s i = Some r)) with (ls := ls) (s := s) in E; [easy| |easy].
  intros s1 l s2 [I1 T1] S. split; [now apply step_inv with (2 := S)|now apply step_result with (2 := S)].
Qed.

(** ** Cancelling before the worker's last look at the flag *)
Definition before (p : pc D R X) : Prop :=
  match p with PStart _ | PWork _ | PPassed _ | PReturned _ => True | _ => False end.
Definition early (s : state) (i : N) : Prop :=
  exists x, s_cells s i = Some (mk_cell true x) /\ s_results s i = None
  /\ (x = Cancelled \/ s_cancelling s = Some i)
  /\ (before (s_pcs s i) \/ s_pcs s i = PDecided Cancelled \/ s_pcs s i = PAnnounced Cancelled \/ (s_pcs s i = PGone /\ x = Cancelled)).
Lemma step_early (s : state) l (s' : state) i : inv s -> step s l = Some s' -> early s i -> early s' i.
Proof.
  intros I H (x & Ei & Er & Ec' & Ep). unfold early. destruct l as [im|k| | |f| |k a]; cbn in H.
  - destruct (s_cancelling s) as [k|] eqn:Ec; [easy|]. injection H as <-. cbn.
    assert (i <> N.succ (s_next s)). { intros ->. rewrite (i_new _ I) in Ei; [easy|lia]. }
    rewrite !upd_other by easy. exists x. intuition congruence.
  - destruct (s_cancelling s) as [j|] eqn:Ec; [easy|]. destruct (s_listed s k) eqn:El; [|injection H as <-; exists x; rewrite Ec; now repeat split].
    destruct (s_cells s k) as [c'|] eqn:Ek; [|easy]. injection H as <-. cbn. destruct (N.eq_dec i k) as [->|Hn].
    + rewrite upd_same. exists x. assert (c' = mk_cell true x) as -> by congruence. cbn. intuition.
    + rewrite upd_other by easy. exists x. intuition congruence.
  - destruct (s_cancelling s) as [k|] eqn:Ec; [|easy]. destruct (s_cells s k) as [c'|] eqn:Ek; [|easy]. injection H as <-. cbn.
    destruct (N.eq_dec i k) as [->|Hn].
    + rewrite upd_same. assert (c' = mk_cell true x) as -> by congruence. cbn. eexists. split; [reflexivity|].
      split; [easy|]. pose proof (i_good _ I k) as G. rewrite Ei in G.
      assert (x = Running \/ x = Cancelled) as Q.
      { destruct Ec' as [->|_]; [now right|]. cbn in G. unfold quiet in G.
        destruct Ep as [B|[B|[B|[B Bx]]]]; [destruct (s_pcs s k); try easy; tauto|rewrite B in G; tauto|rewrite B in G; tauto|now right]. }
      split; [left; destruct Q as [-> | ->]; easy|].
      destruct Ep as [B|[B|[B|[B Bx]]]]; [now left|right; now left|right; right; now left|right; right; right; subst x; now split].
    + rewrite upd_other by easy. exists x. intuition congruence.
  - destruct (s_cancelling s) as [k|] eqn:Ec; [easy|]. injection H as <-. cbn. exists x. intuition congruence.
  - injection H as <-. cbn. exists x. intuition.
  - injection H as <-. cbn. exists x. intuition.
  - destruct (work_other _ _ _ _ H) as (O & _ & Oc & _). rewrite Oc.
    destruct (N.eq_dec i k) as [->|Hn]; [|destruct (O i Hn) as (-> & -> & ->); now exists x].
    assert (Hf : flag_of s k = true) by (unfold flag_of; now rewrite Ei).
    unfold work in H. rewrite Hf in H.
    destruct (s_pcs s k) as [im|[sv|]|[sv|]|r|r|y|y|] eqn:Epc, a; try discriminate; injection H as <-; cbn; rewrite ?upd_same, ?Epc;
    try (exists x; cbn; now intuition); cbn in Ep;
    try (destruct Ep as [[]|[Ep|[Ep|[Ep _]]]]; try easy; injection Ep as ->).
    + exists x. cbn. intuition.
    + exists Cancelled. cbn. now intuition.
Qed.
Lemma exec_early i : forall ls (s s' : state), inv s -> early s i -> exec s ls = Some s' -> early s' i.
Proof.
  intros ls s s' I H E. apply (exec_inv (fun s => inv s /\ early s i)) with (ls := ls) (s := s) in E; [easy| |easy].
  intros s1 l s2 [I1 T1] S. split; [now apply step_inv with (2 := S)|now apply step_early with (2 := S)].
Qed.

(** Cells appear only when an operation begins, and never disappear. *)
Lemma step_shape (s : state) l (s' : state) i : step s l = Some s' ->
  (exists im, l = Begin im /\ i = N.succ (s_next s) /\ s_pcs s' i = PStart im
     /\ s_cells s' i = Some (mk_cell false Running) /\ s_results s' i = s_results s i)
  \/ (exists a, l = Worker i a)
  \/ (s_pcs s' i = s_pcs s i /\ s_results s' i = s_results s i /\ (s_cells s i = None <-> s_cells s' i = None)
      /\ (forall c, s_cells s i = Some c -> c_flag c = true -> exists x, s_cells s' i = Some (mk_cell true x))).
Proof.
  intros H. destruct l as [im|k| | |f| |k a]; cbn in H.
  - destruct (s_cancelling s) as [k|] eqn:Ec; [easy|]. injection H as <-. cbn. destruct (N.eq_dec i (N.succ (s_next s))) as [->|Hn].
    + left. exists im. now rewrite !upd_same.
    + right; right. rewrite !upd_other by easy. repeat split; try easy. intros [f x] E Hf. cbn in Hf. subst f. now exists x.
  - right; right. destruct (s_cancelling s) as [j|] eqn:Ec; [easy|]. destruct (s_listed s k) eqn:El.
    2:{ injection H as <-. repeat split; try easy. intros [f x] E Hf. cbn in Hf. subst f. now exists x. }
    destruct (s_cells s k) as [c'|] eqn:Ek; [|easy]. injection H as <-. cbn. destruct (N.eq_dec i k) as [->|Hn].
    + rewrite upd_same, Ek. repeat split; try easy. intros c [= ->] _. now eexists.
    + rewrite upd_other by easy. repeat split; try easy. intros [f x] E Hf. cbn in Hf. subst f. now exists x.
  - right; right. destruct (s_cancelling s) as [k|] eqn:Ec; [|easy]. destruct (s_cells s k) as [c'|] eqn:Ek; [|easy]. injection H as <-. cbn.
    destruct (N.eq_dec i k) as [->|Hn].
    + rewrite upd_same, Ek. repeat split; try easy. intros c [= ->] ->. now eexists.
    + rewrite upd_other by easy. repeat split; try easy. intros [f x] E Hf. cbn in Hf. subst f. now exists x.
  - right; right. destruct (s_cancelling s) as [k|] eqn:Ec; [easy|]. injection H as <-. cbn. repeat split; try easy.
    intros [f x] E Hf. cbn in Hf. subst f. now exists x.
  - right; right. injection H as <-. cbn. repeat split; try easy. intros [g x] E Hf. cbn in Hf. subst g. now exists x.
  - right; right. injection H as <-. cbn. repeat split; try easy. intros [f x] E Hf. cbn in Hf. subst f. now exists x.
  - destruct (N.eq_dec i k) as [->|Hn]; [right; left; now exists a|]. right; right.
    destruct (work_other _ _ _ _ H) as (O & _). destruct (O i Hn) as (-> & -> & ->). repeat split; try easy.
    intros [f x] E Hf. cbn in Hf. subst f. now exists x.
Qed.

Lemma step_before (s : state) l (s' : state) i : inv s -> step s l = Some s' -> l <> Worker i ALoad ->
  (s_cells s i <> None -> before (s_pcs s i)) -> (s_cells s' i <> None -> before (s_pcs s' i)).
Proof.
  intros I H Hl B. destruct (step_shape _ _ _ i H) as [(im & -> & Ei & -> & _)|[(a & ->)|(-> & _ & E & _)]]; [easy| |tauto].
  intros _. destruct (work_good _ _ _ _ I H) as (_ & c & _ & Ei & _). rewrite Ei in B. specialize (B ltac:(easy)).
  cbn in H. unfold work in H.
  destruct (s_pcs s i) as [im|[sv|]|[sv|]|y|y|x|x|] eqn:Ep, a; try discriminate; try (destruct (flag_of s i) eqn:Ef); try discriminate;
    try easy; injection H as <-; cbn; rewrite ?upd_same; rewrite ?Ep; try easy.
Qed.
Lemma exec_before i : forall ls (s s' : state), inv s -> exec s ls = Some s' -> ~ In (Worker i ALoad) ls ->
  (s_cells s i <> None -> before (s_pcs s i)) -> (s_cells s' i <> None -> before (s_pcs s' i)).
Proof.
  induction ls as [|l ls IH]; intros s s' I; cbn; [now intros [= <-]|].
  destruct (step s l) as [s1|] eqn:E; [|easy]. intros H Hn B. apply (IH s1 s'); [now apply step_inv with (2 := E)|easy|tauto|].
  apply step_before with (2 := E); [easy| |easy]. intros ->. tauto.
Qed.

(** ** Cancelling before the last check inside the import *)
Definition unchecked (p : pc D R X) : Prop := match p with PStart _ | PWork _ => True | _ => False end.
Lemma step_unchecked (s : state) l (s' : state) i : inv s -> step s l = Some s' -> l <> Worker i APass ->
  (forall sv, s_pcs s i <> PPassed sv) -> (forall sv, s_pcs s' i <> PPassed sv).
Proof.
  intros I H Hl B. destruct (step_shape _ _ _ i H) as [(im & -> & Ei & -> & _)|[(a & ->)|(-> & _ & E & _)]]; [easy| |easy].
  cbn in H. unfold work in H.
  destruct (s_pcs s i) as [im|[sv|]|[sv|]|y|y|x|x|] eqn:Ep, a; try discriminate; try (destruct (flag_of s i) eqn:Ef); try discriminate;
    try easy; injection H as <-; cbn; rewrite ?upd_same, ?Ep; try easy; now destruct y.
Qed.
Lemma exec_unchecked i : forall ls (s s' : state), inv s -> exec s ls = Some s' -> ~ In (Worker i APass) ls ->
  (forall sv, s_pcs s i <> PPassed sv) -> (forall sv, s_pcs s' i <> PPassed sv).
Proof.
  induction ls as [|l ls IH]; intros s s' I; cbn; [now intros [= <-]|].
  destruct (step s l) as [s1|] eqn:E; [|easy]. intros H Hn B. apply (IH s1 s'); [now apply step_inv with (2 := E)|easy|tauto|].
  apply step_unchecked with (2 := E); [easy| |easy]. intros ->. tauto.
Qed.
Definition flagged (s : state) (i : N) : Prop := exists x, s_cells s i = Some (mk_cell true x).
Lemma step_flagged (s : state) l (s' : state) i : inv s -> step s l = Some s' -> flagged s i -> flagged s' i.
Proof.
  intros I H (x & Ei). destruct (step_shape _ _ _ i H) as [(im & -> & E & _)|[(a & ->)|(_ & _ & _ & F)]].
  - subst i. rewrite (i_new _ I) in Ei; [easy|lia].
  - destruct (work_good _ _ _ _ I H) as (_ & c & c' & E1 & E2 & E3). exists (c_status c').
    rewrite E2. destruct c'. cbn in *. assert (c = mk_cell true x) as -> by congruence. now cbn in E3; subst.
  - now apply (F _ Ei).
Qed.
Lemma no_commit i : forall ls (s s' : state), inv s -> flagged s i -> (forall sv, s_pcs s i <> PPassed sv) -> exec s ls = Some s' ->
  forall r, ~ In (Worker i (ACommit r)) ls.
Proof.
  induction ls as [|l ls IH]; intros s s' I F P; cbn; [easy|].
  destruct (step s l) as [s1|] eqn:E; [|easy]. intros H r [->|Hin].
  - cbn in E. unfold work in E. destruct (s_pcs s i) as [im|[sv|]|[sv|]|y|y|x|x|] eqn:Ep; try discriminate. now apply (P (Some sv)).
  - revert Hin. apply (IH s1 s'); [now apply step_inv with (2 := E)|now apply step_flagged with (2 := E)| |easy].
    apply step_unchecked with (2 := E); [easy| |easy]. intros ->. destruct F as (x & Ei).
    assert (Hf : flag_of s i = true) by (unfold flag_of; now rewrite Ei).
    cbn in E. unfold work in E. rewrite Hf in E. now destruct (s_pcs s i) as [im|[sv|]|[sv|]|y|y|z|z|].
Qed.

End Facts.
