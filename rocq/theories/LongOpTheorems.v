(** Long operations: the theorems, for every schedule. *)
From Coq Require Import List NArith Bool Lia. Import ListNotations.
From Verif Require Import Base LongOpModel LongOpSpec LongOpFacts.

Section Theorems.
Context {D T R X : Type} (text : D -> T) (cancelled : X).
Notation state := (state D T R X). Notation label := (label D R X).
Notation step := (step (R := R) text cancelled). Notation exec := (exec (R := R) text cancelled).
Notation start := (start (D := D) (T := T) (R := R) (X := X)).
Notation exec_good := (exec_good text cancelled).

Lemma status_kept_fact d a b s s' i x : exec (start d) a = Some s -> exec s b = Some s' ->
  operation_status s i = Some x -> x = Completed \/ (exists e, x = Failed e) ->
  operation_status s' i = Some x \/ operation_status s' i = None.
Proof.
  intros Ha Hb Hs Hx. pose proof (exec_good _ _ _ Ha) as I.
  assert (x <> Running /\ x <> Cancelled) as [H1 H2] by (destruct Hx as [->|[e ->]]; easy).
  pose proof (status_told _ _ _ I H1 H2 Hs) as Tl. pose proof (exec_told _ _ _ _ H1 _ _ _ I Tl Hb) as [_ Tl'].
  unfold operation_status. destruct (s_listed s' i); tauto.
Qed.

Lemma result_kept_fact d a b s s' i r : exec (start d) a = Some s -> exec s b = Some s' ->
  operation_result s i = Some r -> operation_result s' i = Some r.
Proof. intros Ha Hb Hr. apply (exec_result text cancelled) with (ls := b) (s := s); [now apply exec_good in Ha|easy|easy]. Qed.

Lemma completed_result_fact d ls s i : exec (start d) ls = Some s -> operation_status s i = Some Completed ->
  exists r, operation_result s i = Some r.
Proof.
  intros Ha H. pose proof (exec_good _ _ _ Ha) as I.
  pose proof (status_told s i Completed I ltac:(easy) ltac:(easy) H) as [Ep Es]. pose proof (i_good _ I i) as G. rewrite Ep in G.
  destruct (s_cells s i) as [c|]; [|easy]. cbn in Es. injection Es as Es. cbn in G. rewrite Es in G. unfold operation_result.
  destruct (s_results s i) as [r|]; [now exists r|]. exfalso. tauto.
Qed.

(** A result, once there, means the status will be Completed. *)
Lemma result_completed_fact d ls s i r : exec (start d) ls = Some s -> operation_result s i = Some r ->
  s_pcs s i = PGone -> operation_status s i = Some Completed \/ operation_status s i = None.
Proof.
  intros Ha H Ep. pose proof (exec_good _ _ _ Ha) as I. pose proof (i_good _ I i) as G. rewrite Ep in G.
  unfold operation_result in H. unfold operation_status. destruct (s_listed s i); [|now right]. left.
  destruct (s_cells s i) as [c|]; [|destruct G; congruence]. cbn in *. f_equal. rewrite H in G. destruct G as (_ & G & _). now apply G.
Qed.

Lemma cancel_early_fact d a b s0 s i : exec (start d) a = Some s0 -> ~ In (Worker i ALoad) a -> operation_status s0 i <> None ->
  exec s0 (CancelFlag i :: b) = Some s ->
  operation_result s i = None /\
  (s_cancelling s <> Some i -> operation_status s i = Some Cancelled \/ operation_status s i = None).
Proof.
  intros Ha Hn Hs Hb. pose proof (exec_good _ _ _ Ha) as I.
  unfold operation_status in Hs. destruct (s_listed s0 i) eqn:El; [|easy].
  destruct (s_cells s0 i) as [c|] eqn:Ei; [|easy].
  assert (B : before (s_pcs s0 i)).
  { apply (exec_before text cancelled i a (start d) s0); auto using inv_start; try easy. congruence. }
  cbn [LongOpModel.exec] in Hb. destruct (step s0 (CancelFlag i)) as [s1|] eqn:E; [|easy].
  assert (I1 : inv s1) by now apply step_inv with (2 := E).
  cbn in E. destruct (s_cancelling s0); [easy|]. rewrite El, Ei in E. injection E as <-.
  pose proof (i_good _ I i) as G. rewrite Ei in G.
  assert (Ey : early (set_cancelling (set_cell s0 i (mk_cell true (c_status c))) (Some i)) i).
  { exists (c_status c). cbn. rewrite upd_same. repeat split; [|now right|now left]. cbn in G. destruct (s_pcs s0 i); try easy; tauto. }
  pose proof (exec_early text cancelled i _ _ _ I1 Ey Hb) as (x & Ex & Er & Ec & _). split; [easy|].
  intros Hc. unfold operation_status. rewrite Ex. destruct (s_listed s i); [|now right]. left. cbn. destruct Ec; congruence.
Qed.

Lemma cancel_no_commit_fact d a b s0 s i : exec (start d) a = Some s0 -> ~ In (Worker i APass) a -> operation_status s0 i <> None ->
  exec s0 (CancelFlag i :: b) = Some s -> forall r, ~ In (Worker i (ACommit r)) b.
Proof.
  intros Ha Hn Hs Hb. pose proof (exec_good _ _ _ Ha) as I.
  unfold operation_status in Hs. destruct (s_listed s0 i) eqn:El; [|easy].
  destruct (s_cells s0 i) as [c|] eqn:Ei; [|easy].
  assert (B : forall sv, s_pcs s0 i <> PPassed sv).
  { apply (exec_unchecked text cancelled i a (start d) s0); auto using inv_start; easy. }
  cbn [LongOpModel.exec] in Hb. destruct (step s0 (CancelFlag i)) as [s1|] eqn:E; [|easy].
  assert (I1 : inv s1) by now apply step_inv with (2 := E).
  cbn in E. destruct (s_cancelling s0); [easy|]. rewrite El, Ei in E. injection E as <-.
  apply (no_commit text cancelled i b _ s I1); [|easy|easy].
  exists (c_status c). cbn. now rewrite upd_same.
Qed.

(** ** Rolling back *)
Definition saved (d : D) (p : pc D R X) : Prop :=
  match p with PWork sv | PPassed sv => sv = Some d | PStart _ => False | _ => True end.
Lemma step_saved d (s : state) l (s' : state) i : inv s -> s_cells s i <> None -> step s l = Some s' ->
  saved d (s_pcs s i) -> saved d (s_pcs s' i) /\ s_cells s' i <> None.
Proof.
  intros I C H B. destruct (step_shape text cancelled _ _ _ i H) as [(im & -> & Ei & _)|[(a & ->)|(-> & _ & E & _)]]; [|  |tauto].
  - subst i. exfalso. apply C, (i_new _ I). lia.
  - destruct (work_good text cancelled _ _ _ _ I H) as (_ & c & c' & _ & -> & _). split; [|easy].
    cbn in H. unfold work in H.
    destruct (s_pcs s i) as [im|[sv|]|[sv|]|y|y|x|x|] eqn:Ep, a; try discriminate; try (destruct (flag_of s i) eqn:Ef); try discriminate;
    try easy; injection H as <-; cbn; rewrite ?upd_same, ?Ep; try easy; now destruct y.
Qed.
Lemma exec_saved d i : forall ls (s s' : state), inv s -> s_cells s i <> None -> saved d (s_pcs s i) -> exec s ls = Some s' ->
  saved d (s_pcs s' i).
Proof.
  intros ls s s' I C H E.
  apply (exec_inv text cancelled (fun s => inv s /\ s_cells s i <> None /\ saved d (s_pcs s i))) with (ls := ls) (s := s) in E; [easy| |easy].
  intros s1 l s2 (I1 & C1 & T1) S. split; [now apply step_inv with (2 := S)|].
  apply and_comm. now apply step_saved with (3 := S).
Qed.
Lemma import_undone_fact d a b s s' i x : exec (start d) a = Some s -> s_pcs s i = PStart true ->
  x = AAbort \/ (exists e, x = AFail e) ->
  exec s (Worker i ABegin :: b ++ [Worker i x]) = Some s' -> s_doc s' = s_doc s.
Proof.
  intros Ha Ep Hx Hb. pose proof (exec_good _ _ _ Ha) as I. cbn [LongOpModel.exec] in Hb.
  destruct (step s (Worker i ABegin)) as [s1|] eqn:E; [|easy]. assert (I1 : inv s1) by now apply step_inv with (2 := E).
  destruct (work_good text cancelled _ _ _ _ I E) as (_ & c & c' & _ & Ec & _).
  cbn in E. unfold work in E. rewrite Ep in E. injection E as <-. rewrite exec_app in Hb.
  destruct (exec (set_pc s i (PWork (Some (s_doc s)))) b) as [s2|] eqn:E2; [|easy].
  assert (S2 : saved (s_doc s) (s_pcs s2 i)).
  { eapply exec_saved; [exact I1| |  |exact E2]; [cbn in *; congruence|]. cbn. now rewrite upd_same. }
  cbn [LongOpModel.exec] in Hb. destruct (step s2 (Worker i x)) as [s3|] eqn:E3; [|easy]. injection Hb as <-.
  cbn in E3. unfold work in E3. destruct Hx as [->|[e ->]]; destruct (s_pcs s2 i) as [im|[sv|]|[sv|]|y|y|z|z|]; try discriminate; try easy;
    cbn in S2; try (destruct (flag_of s2 i)); try discriminate; injection E3 as <-; cbn; congruence.
Qed.

(** ** The cached text *)
Definition fresh_cache (s : state) : Prop := forall t, s_cache s = Some t -> t = text (s_doc s) /\ no_import s.
Lemma step_cache (s : state) l (s' : state) : fresh_cache s -> step s l = Some s' -> (l = ReadText -> no_import s) -> fresh_cache s'.
Proof.
  intros F H Hr. unfold fresh_cache. destruct l as [im|k| | |f| |k a]; cbn in H.
  - destruct (s_cancelling s) as [k|] eqn:Ec; [easy|]. injection H as <-. cbn. destruct im; [easy|]. intros t Ht.
    destruct (F t Ht) as [-> NI]. split; [easy|]. intros j. cbn. unfold upd. destruct (N.eqb j _); [easy|]. apply NI.
  - destruct (s_cancelling s) as [j|] eqn:Ec; [easy|]. destruct (s_listed s k) eqn:El; [|now injection H as <-].
    destruct (s_cells s k) as [c'|] eqn:Ek; [|easy]. now injection H as <-.
  - destruct (s_cancelling s) as [k|] eqn:Ec; [|easy]. destruct (s_cells s k) as [c'|] eqn:Ek; [|easy]. now injection H as <-.
  - destruct (s_cancelling s) as [k|] eqn:Ec; [easy|]. now injection H as <-.
  - now injection H as <-.
  - injection H as <-. cbn. intros t Ht. specialize (Hr eq_refl). destruct (s_cache s) as [t'|] eqn:Et.
    + injection Ht as ->. destruct (F t Et). split; [easy|]. exact Hr.
    + injection Ht as <-. split; [easy|exact Hr].
  - destruct (work_other cancelled _ _ _ _ H) as (O & _ & _ & _ & _ & Ech). rewrite Ech. intros t Ht. destruct (F t Ht) as [-> NI].
    assert (K : s_doc s' = s_doc s /\ ~ importing (s_pcs s' k)).
    { specialize (NI k). unfold work in H.
      destruct (s_pcs s k) as [[]|[sv|]|[sv|]|y|y|x|x|] eqn:Ep, a; try discriminate; try (destruct (flag_of s k) eqn:Ef); try discriminate;
      cbn in NI; try tauto; injection H as <-; cbn; rewrite ?upd_same; try (now cbn); destruct y; now cbn. }
    destruct K as [-> K2]. split; [easy|]. intros j. destruct (N.eq_dec j k) as [->|Hj]; [easy|]. destruct (O j Hj) as (_ & _ & ->). apply NI.
Qed.
Lemma text_current_fact d ls s : exec (start d) ls = Some s ->
  (forall a b s1, ls = a ++ ReadText :: b -> exec (start d) a = Some s1 -> no_import s1) ->
  plain_text text s = text (s_doc s).
Proof.
  intros H Hr. assert (F : fresh_cache s).
  { revert s H. induction ls as [|l ls IH] using rev_ind; intros s H.
    - injection H as <-. easy.
    - rewrite exec_app in H. destruct (exec (start d) ls) as [s1|] eqn:E; [|easy]. cbn in H.
      destruct (step s1 l) as [s2|] eqn:E2; [|easy]. injection H as <-.
      assert (F1 : fresh_cache s1).
      { apply IH; [|easy]. intros a b s0 -> Ha. apply (Hr a (b ++ [l]) s0); [|easy]. now rewrite <- app_assoc. }
      apply step_cache with (2 := E2); [easy|]. intros ->. now apply (Hr ls [] s1). }
  unfold plain_text. destruct (s_cache s) as [t|] eqn:Et; [|easy]. now destruct (F t Et).
Qed.

(** ** Final events *)
Lemma events_send (s : state) k x i : events_of (send s k x) i = events_of s i ++ (if N.eqb k i then [x] else []).
Proof. unfold events_of, send. cbn. rewrite filter_app, map_app. cbn. now destruct (N.eqb k i). Qed.
Definition announced (s : state) (i : N) : Prop :=
  match s_cells s i with
  | None => events_of s i = []
  | Some c => c_flag c = false /\
     match s_pcs s i with
     | PDecided x => x <> Cancelled /\ c_status c = Running /\ events_of s i = []
     | PAnnounced x => x <> Cancelled /\ c_status c = Running /\ events_of s i = [x]
     | PGone => c_status c <> Cancelled /\ events_of s i = [c_status c]
     | _ => c_status c = Running /\ events_of s i = []
     end
  end.
Lemma step_announced (s : state) l (s' : state) i : inv s -> step s l = Some s' -> l <> CancelFlag i -> announced s i -> announced s' i.
Proof.
  intros I H Hl A. unfold announced. destruct l as [im|k| | |f| |k a]; cbn in H.
  - destruct (s_cancelling s) as [k|] eqn:Ec; [easy|]. injection H as <-. cbn. change (events_of _ i) with (events_of s i).
    destruct (N.eq_dec i (N.succ (s_next s))) as [->|Hn].
    + rewrite !upd_same. cbn. unfold announced in A. rewrite (i_new _ I) in A by lia. easy.
    + rewrite !upd_other by easy. exact A.
  - destruct (s_cancelling s) as [j|] eqn:Ec; [easy|]. destruct (s_listed s k) eqn:El; [|now injection H as <-].
    destruct (s_cells s k) as [c'|] eqn:Ek; [|easy]. injection H as <-. cbn. change (events_of _ i) with (events_of s i).
    rewrite upd_other by congruence. exact A.
  - destruct (s_cancelling s) as [k|] eqn:Ec; [|easy]. destruct (i_cancel _ I k Ec) as (x & Ek). rewrite Ek in H. injection H as <-.
    rewrite events_send. cbn. assert (i <> k). { intros ->. unfold announced in A. rewrite Ek in A. now destruct A. }
    rewrite upd_other by easy. replace (N.eqb k i) with false by (symmetry; apply N.eqb_neq; congruence). rewrite app_nil_r.
    exact A.
  - destruct (s_cancelling s) as [k|] eqn:Ec; [easy|]. now injection H as <-.
  - now injection H as <-.
  - now injection H as <-.
  - destruct (N.eq_dec i k) as [->|Hn].
    + destruct (work_good text cancelled _ _ _ _ I H) as (G & c & c' & Ec & _). unfold announced in A. rewrite Ec in A. destruct A as [Af A].
      assert (Hf : flag_of s k = false) by (unfold flag_of; now rewrite Ec).
      unfold work in H. rewrite Hf in H.
      destruct (s_pcs s k) as [im|[sv|]|[sv|]|y|y|x|x|] eqn:Ep, a; try discriminate; try (injection H as <-);
      rewrite ?events_send; cbn in *; rewrite ?upd_same, ?Ec, ?Ep; try (split; [easy|]); try exact A; cbn; rewrite ?N.eqb_refl;
      try (destruct y); try (cbn; destruct A as [A1 A2]; repeat split; easy).
      change (map snd _) with (events_of (send s k x) k). rewrite events_send, N.eqb_refl.
        destruct A as (A1 & A2 & A3). rewrite A3. easy.
    + destruct (work_other cancelled _ _ _ _ H) as (O & _). destruct (O i Hn) as (-> & _ & ->).
      assert (Eo : events_of s' i = events_of s i).
      { cbn in H. unfold work in H.
        destruct (s_pcs s k) as [im|[sv|]|[sv|]|y|y|x|x|] eqn:Ep, a; try discriminate; try (destruct (flag_of s k) eqn:Ef); try discriminate;
        injection H as <-; try easy; change (events_of (send s k x) i = events_of s i); rewrite events_send;
        replace (N.eqb k i) with false by (symmetry; apply N.eqb_neq; congruence); now rewrite app_nil_r. }
      rewrite Eo. exact A.
Qed.
Lemma exec_announced i : forall ls (s s' : state), inv s -> exec s ls = Some s' -> ~ In (CancelFlag i) ls -> announced s i -> announced s' i.
Proof.
  induction ls as [|l ls IH]; intros s s' I; cbn; [now intros [= <-]|].
  destruct (step s l) as [s1|] eqn:E; [|easy]. intros H Hn B. apply (IH s1 s'); [now apply step_inv with (2 := E)|easy|tauto|].
  apply step_announced with (2 := E); [easy| |easy]. intros ->. tauto.
Qed.
Lemma final_events_fact d ls s i : exec (start d) ls = Some s -> ~ In (CancelFlag i) ls ->
  length (events_of s i) <= 1 /\
  (forall x, operation_status s i = Some x -> x <> Running -> x <> Cancelled /\ events_of s i = [x]).
Proof.
  intros H Hn. assert (A : announced s i) by (apply (exec_announced i ls (start d) s); auto using inv_start; easy).
  unfold announced in A. split.
  - destruct (s_cells s i) as [c|]; [|rewrite A; cbn; lia]. destruct A as [_ A].
    destruct (s_pcs s i); repeat match goal with HH : _ /\ _ |- _ => destruct HH end;
      match goal with HH : events_of s i = _ |- _ => rewrite HH end; cbn; lia.
  - intros x Hx Hr. unfold operation_status in Hx. destruct (s_listed s i); [|easy]. destruct (s_cells s i) as [c|]; [|easy].
    cbn in Hx. injection Hx as <-. destruct A as [_ A]. destruct (s_pcs s i); intuition congruence.
Qed.

(** ** Operations do not disturb each other *)
Lemma others_fact d ls s l s' i : exec (start d) ls = Some s -> operation_status s i <> None -> step s l = Some s' ->
  (forall a, l <> Worker i a) -> l <> CancelFlag i -> s_cancelling s <> Some i ->
  operation_result s' i = operation_result s i /\
  (operation_status s' i = operation_status s i \/ (l = Cleanup /\ operation_status s i <> Some Running /\ operation_status s' i = None)).
Proof.
  intros Hx Ho H H1 H2 H3. pose proof (exec_good _ _ _ Hx) as I.
  unfold operation_status in *. destruct (s_listed s i) eqn:El; [|easy]. destruct (s_cells s i) as [c|] eqn:Ei; [|easy]. clear Ho.
  unfold operation_result. destruct l as [im|k| | |f| |k a]; cbn in H.
  - destruct (s_cancelling s) as [k|] eqn:Ec; [easy|]. injection H as <-. cbn. split; [easy|]. left.
    assert (i <> N.succ (s_next s)). { intros ->. rewrite (i_new _ I) in Ei; [easy|lia]. }
    rewrite !upd_other by easy. now rewrite El, Ei.
  - destruct (s_cancelling s) as [j|] eqn:Ec; [easy|]. destruct (s_listed s k) eqn:Elk; [|injection H as <-; rewrite El, Ei; auto].
    destruct (s_cells s k) as [c'|] eqn:Ek; [|easy]. injection H as <-. cbn. rewrite upd_other by congruence. rewrite El, Ei. auto.
  - destruct (s_cancelling s) as [k|] eqn:Ec; [|easy]. destruct (s_cells s k) as [c'|] eqn:Ek; [|easy]. injection H as <-. cbn.
    rewrite upd_other by congruence. rewrite El, Ei. auto.
  - destruct (s_cancelling s) as [k|] eqn:Ec; [easy|]. injection H as <-. cbn. rewrite El, Ei. cbn. split; [easy|].
    destruct (c_status c) eqn:Es; cbn; [now left| | |]; right; repeat split; try easy; congruence.
  - injection H as <-. cbn. rewrite El, Ei. auto.
  - injection H as <-. cbn. rewrite El, Ei. auto.
  - assert (i <> k) by (intros ->; now apply (H1 a)).
    destruct (work_other cancelled _ _ _ _ H) as (O & _ & _ & -> & _). destruct (O i ltac:(easy)) as (-> & -> & _). rewrite El, Ei. auto.
Qed.
Lemma begin_fact d ls s im s' : exec (start d) ls = Some s -> step s (Begin im) = Some s' ->
  operation_status s (s_next s') = None /\ operation_result s (s_next s') = None
  /\ operation_status s' (s_next s') = Some Running /\ operation_result s' (s_next s') = None.
Proof.
  intros Hx H. pose proof (exec_good _ _ _ Hx) as I. cbn in H. destruct (s_cancelling s); [easy|]. injection H as <-. cbn.
  assert (Hn : s_cells s (N.succ (s_next s)) = None) by (apply (i_new _ I); lia).
  pose proof (i_good _ I (N.succ (s_next s))) as G. rewrite Hn in G. destruct G as [G _].
  unfold operation_status, operation_result. cbn. rewrite !upd_same, Hn, G. cbn. repeat split; try easy. now destruct (s_listed s _).
Qed.

(** ** A worker that returned always gets to the end *)
Lemma finishes_fact d ls s i x : exec (start d) ls = Some s -> s_pcs s i = PReturned x ->
  exists acts s', exec s (map (Worker i) acts) = Some s' /\ s_pcs s' i = PGone /\ s_doc s' = s_doc s
    /\ (operation_status s i <> None -> operation_status s' i = Some
         (if flag_of s i then Cancelled else match x with inl _ => Completed | inr e => Failed e end))
    /\ operation_result s' i = (if flag_of s i then None else match x with inl r => Some r | inr _ => None end).
Proof.
  intros Hx Ep. pose proof (exec_good _ _ _ Hx) as I. pose proof (i_good _ I i) as G. rewrite Ep in G.
  destruct (s_cells s i) as [c|] eqn:Ei; [|now destruct G]. destruct G as (Gr & _).
  assert (Hl : operation_status s i <> None -> s_listed s i = true).
  { unfold operation_status. now destruct (s_listed s i). }
  assert (Hf : flag_of s i = c_flag c) by (unfold flag_of; now rewrite Ei).
  destruct (c_flag c) eqn:Ef; [|destruct x as [r|e]].
  - exists [ALoad; AAnnounce; ASet]. rewrite Hf.
    unfold operation_result. cbn. repeat (unfold work; cbn; rewrite ?Ep, ?upd_same, ?Hf; cbn).
    eexists. split; [reflexivity|]. cbn. rewrite !upd_same. repeat split; [|easy].
    intros Ho. unfold operation_status. cbn. rewrite (Hl Ho), upd_same. easy.
  - exists [ALoad; AStore; AAnnounce; ASet]. rewrite Hf.
    unfold operation_result. cbn. repeat (unfold work; cbn; rewrite ?Ep, ?upd_same, ?Hf; cbn).
    eexists. split; [reflexivity|]. cbn. rewrite !upd_same. repeat split.
    intros Ho. unfold operation_status. cbn. rewrite (Hl Ho), upd_same. easy.
  - exists [ALoad; AAnnounce; ASet]. rewrite Hf.
    unfold operation_result. cbn. repeat (unfold work; cbn; rewrite ?Ep, ?upd_same, ?Hf; cbn).
    eexists. split; [reflexivity|]. cbn. rewrite !upd_same. repeat split; [|easy].
    intros Ho. unfold operation_status. cbn. rewrite (Hl Ho), upd_same. easy.
Qed.

(** A worker gone without Completed never gets a result. *)
Lemma no_result_later d a s i x : exec (start d) a = Some s -> s_pcs s i = PGone -> option_map c_status (s_cells s i) = Some x ->
  x <> Completed -> forall b s', exec s b = Some s' -> operation_result s' i = None.
Proof.
  intros Ha Ep Ex Hx b s' Hb. pose proof (exec_good _ _ _ Ha) as I.
  assert (Hr : x <> Running).
  { pose proof (i_good _ I i) as G. rewrite Ep in G. destruct (s_cells s i) as [c|]; [|easy]. cbn in *. injection Ex as <-. tauto. }
  destruct (exec_told text cancelled i x Hr b s s' I (conj Ep Ex) Hb) as [Ep' Ex'].
  assert (I' : inv s') by (apply (exec_inv text cancelled) with (ls := b) (s := s); auto; intros; now apply step_inv with (2 := H0)).
  pose proof (i_good _ I' i) as G. rewrite Ep' in G. unfold operation_result. destruct (s_cells s' i) as [c|]; [|easy].
  cbn in *. injection Ex' as Ex'. destruct (s_results s' i) as [r|]; [|easy]. exfalso. apply Hx. rewrite <- Ex'. apply G. easy.
Qed.
End Theorems.

(** For running a schedule without writing the state out. *)
Lemma ran {S} (o : option S) (P : S -> Prop) : match o with Some s => P s | None => False end -> exists s, o = Some s /\ P s.
Proof. destruct o as [s|]; [|easy]. intros H. now exists s. Qed.
Lemma ran2 {S} (o : option S) (f : S -> option S) (P : S -> S -> Prop) :
  match o with Some s => match f s with Some s' => P s s' | None => False end | None => False end ->
  exists s s', o = Some s /\ f s = Some s' /\ P s s'.
Proof. destruct o as [s|]; [|easy]. destruct (f s) as [s'|] eqn:E; [|easy]. intros H. now exists s, s'. Qed.

From Verif Require DocModel HistModel UndoModel UndoFacts SessionModel.
Lemma set_text_clears_fact : forall (s : SessionModel.session) t, exists s',
  SessionModel.s_step s (SessionModel.SetText t) = Ok s'
  /\ UndoModel.can_undo (snd s') SessionModel.here = false /\ UndoModel.can_redo (snd s') SessionModel.here = false.
Proof.
  intros [d m] t. eexists. split; [reflexivity|]. cbn [snd]. unfold UndoModel.can_undo, UndoModel.can_redo, UndoModel.m_clear, SessionModel.here.
  change (UndoModel.sid (Some 1%N)) with 1%N. destruct (UndoModel.get_stack m 1) as [[us rs]|] eqn:E.
  - now rewrite !UndoFacts.get_set.
  - now rewrite E.
Qed.
Lemma set_text_in_block_fact : exists cs s, SessionModel.s_run SessionModel.new_session cs = Ok s
  /\ (exists c, cs = c ++ [SessionModel.SetText [97; 98]%N; SessionModel.EndBlock])
  /\ UndoModel.can_undo (snd s) SessionModel.here = true.
Proof.
  exists ([SessionModel.BeginBlock; SessionModel.Edit (HistModel.EInsert 0 0 [120]%N) 0%N] ++ [SessionModel.SetText [97; 98]%N; SessionModel.EndBlock]).
  eexists. split; [vm_compute; reflexivity|]. split; [now eexists|]. vm_compute. reflexivity.
Qed.
