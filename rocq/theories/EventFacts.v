(** Facts on event delivery. *)
From Coq Require Import List Arith Lia Bool Permutation. Import ListNotations.
From Verif Require Import Base DiffFacts EventModel EventSpec.

Local Arguments for_sub : simpl never.

Section Facts.
Context {E : Type}.
Implicit Types (w : world E) (m : mailbox E) (os : list (event_op E)).

Lemma flat_map_nil {A B} (l : list A) : flat_map (fun _ => @nil B) l = [].
Proof. induction l; [easy|]. cbn. easy. Qed.
Definition bounded m : Prop := callback_cursor m <= length (pending m) /\ poll_cursor m <= length (pending m).
Lemma trim_facts m : bounded m -> bounded (trim m)
  /\ skipn (callback_cursor (trim m)) (pending (trim m)) = skipn (callback_cursor m) (pending m)
  /\ skipn (poll_cursor (trim m)) (pending (trim m)) = skipn (poll_cursor m) (pending m)
  /\ callbacks (trim m) = callbacks m
  /\ length (pending (trim m)) = length (pending m) - Nat.min (callback_cursor m) (poll_cursor m).
Proof.
  intros [B1 B2]. unfold trim. set (k := Nat.min _ _). destruct (Nat.ltb_spec 0 k) as [Hk|Hk].
  - unfold bounded. cbn. rewrite skipn_length. repeat split; try lia.
    + rewrite skipn_skipn. f_equal. lia.
    + rewrite skipn_skipn. f_equal. lia.
  - repeat split; try easy; lia.
Qed.
Lemma drain_facts m : bounded m -> let (m', es) := drain_poll m in
  bounded m' /\ es = skipn (poll_cursor m) (pending m) /\ skipn (poll_cursor m') (pending m') = []
  /\ skipn (callback_cursor m') (pending m') = skipn (callback_cursor m) (pending m) /\ callbacks m' = callbacks m
  /\ pending m' = skipn (callback_cursor m) (pending m).
Proof.
  intros B. pose proof B as [B1 B2]. unfold drain_poll. destruct (Nat.leb_spec (length (pending m)) (poll_cursor m)) as [H|H].
  - destruct (trim_facts m B) as (T1 & T2 & T3 & T4 & T5). split; [easy|]. split; [now rewrite skipn_all2|].
    split; [rewrite T3; now apply skipn_all2|]. split; [easy|]. split; [easy|].
    unfold trim. rewrite Nat.min_l by lia. destruct (Nat.ltb_spec 0 (callback_cursor m)); [easy|].
    replace (callback_cursor m) with 0 by lia. easy.
  - set (m2 := mk_mailbox _ _ _ _). assert (B' : bounded m2) by (split; cbn; lia).
    destruct (trim_facts m2 B') as (T1 & T2 & T3 & T4 & T5).
    assert (P2 : poll_cursor m2 = length (pending m2)) by reflexivity. rewrite P2 in T3.
    split; [easy|]. split; [easy|]. split; [rewrite T3; now apply skipn_all2|]. split; [exact T2|]. split; [exact T4|].
    unfold trim, m2. cbn [pending callback_cursor poll_cursor callbacks]. rewrite Nat.min_l by lia. destruct (Nat.ltb_spec 0 (callback_cursor m)); [easy|].
    replace (callback_cursor m) with 0 by lia. easy.
Qed.
Lemma take_facts m : bounded m -> let (m', q) := take_queued m in
  bounded m' /\ poll_cursor m' = poll_cursor m /\ pending m' = pending m
  /\ skipn (callback_cursor m') (pending m') = []
  /\ (callbacks m' = callbacks m \/ callbacks m' = filter snd (callbacks m))
  /\ calls q = flat_map (fun e => map (fun x => (fst x, e)) (filter snd (callbacks m))) (skipn (callback_cursor m) (pending m)).
Proof.
  intros [B1 B2]. unfold take_queued. destruct (Nat.leb_spec (length (pending m)) (callback_cursor m)) as [H|H].
  - rewrite (skipn_all2 (pending m)) by easy. repeat split; auto.
  - assert (Q : forall l : list nat, calls (map (fun e => (e, l)) (skipn (callback_cursor m) (pending m)))
      = flat_map (fun e => map (fun i => (i, e)) l) (skipn (callback_cursor m) (pending m))).
    { intros l. unfold calls. now rewrite flat_map_concat_map, map_map, <- flat_map_concat_map. }
    assert (Z : skipn (length (pending m)) (pending m) = []) by (now apply skipn_all2).
    destruct (map fst (filter snd (callbacks m))) as [|i l] eqn:El; cbn.
    + split; [split; cbn; lia|]. repeat (split; [easy|]). split; [now right|].
      apply map_eq_nil in El. rewrite El. symmetry. apply flat_map_nil.
    + split; [split; cbn; lia|]. repeat (split; [easy|]). split; [now right|]. rewrite Q.
      rewrite <- El. clear Q. induction (skipn (callback_cursor m) (pending m)) as [|x xs IH]; [easy|]. cbn. rewrite IH, map_map. easy.
Qed.

Lemma step_bounded w o : bounded (mb w) -> bounded (mb (event_step w o)).
Proof.
  intros B. destruct o; cbn [event_step].
  - destruct B. split; cbn; rewrite app_length; lia.
  - pose proof (drain_facts (mb w) B) as H. destruct (drain_poll (mb w)). now destruct H.
  - exact B.
  - exact B.
  - pose proof (take_facts (mb w) B) as H. destruct (take_queued (mb w)). now destruct H.
  - now destruct (pop_at k (flight w)).
  - pose proof (take_facts (mb w) B) as H. destruct (take_queued (mb w)). now destruct H.
Qed.
Lemma run_bounded os : forall w, bounded (mb w) -> bounded (mb (event_run w os)).
Proof. induction os as [|o os IH]; intros w B; cbn; [easy|]. apply IH. now apply step_bounded. Qed.
Lemma start_bounded : bounded (mb (@start E)). Proof. split; cbn; lia. Qed.

(** ** Polling *)
Lemma poll_step w o : bounded (mb w) ->
  polled (event_step w o) ++ not_polled (event_step w o) = polled w ++ not_polled w ++ queued [o].
Proof.
  intros B. unfold not_polled. destruct o; cbn [event_step].
  - cbn. rewrite skipn_app. replace (poll_cursor (mb w) - length (pending (mb w))) with 0 by (destruct B; lia). now rewrite <- ?app_assoc.
  - pose proof (drain_facts (mb w) B) as H. destruct (drain_poll (mb w)) as [m es]. destruct H as (_ & -> & H & _). cbn.
    now rewrite H, <- !app_assoc.
  - cbn. now rewrite app_nil_r.
  - cbn. now rewrite app_nil_r.
  - pose proof (take_facts (mb w) B) as H. destruct (take_queued (mb w)) as [m q]. destruct H as (_ & H1 & H2 & _). cbn. rewrite H1, H2. now rewrite app_nil_r.
  - destruct (pop_at k (flight w)). cbn. now rewrite app_nil_r.
  - pose proof (take_facts (mb w) B) as H. destruct (take_queued (mb w)) as [m q]. destruct H as (_ & H1 & H2 & _). cbn. rewrite H1, H2. now rewrite app_nil_r.
Qed.
Lemma queued_cons o os : queued (o :: os) = queued [o] ++ @queued E os.
Proof. unfold queued. cbn. now rewrite app_nil_r. Qed.
Lemma poll_run os : forall w, bounded (mb w) ->
  polled (event_run w os) ++ not_polled (event_run w os) = polled w ++ not_polled w ++ queued os.
Proof.
  induction os as [|o os IH]; intros w B; [cbn; now rewrite app_nil_r|].
  change (event_run w (o :: os)) with (event_run (event_step w o) os). rewrite IH by (now apply step_bounded).
  rewrite app_assoc, poll_step by easy. rewrite <- !app_assoc. now rewrite (queued_cons o os).
Qed.
Lemma poll_theorem os : let w := event_run start os in
  polled w ++ not_polled w = queued os /\ polled (event_step w Poll) = queued os.
Proof.
  intros w. pose proof (poll_run os start start_bounded) as H. cbn [polled start] in H. fold w in H. unfold not_polled at 2 in H. cbn in H.
  split; [exact H|]. assert (B : bounded (mb w)) by (apply run_bounded, start_bounded). unfold not_polled in H.
  pose proof (drain_facts (mb w) B) as D. cbn [event_step]. destruct (drain_poll (mb w)) as [m es]. destruct D as (_ & -> & _). exact H.
Qed.
Lemma memory_theorem os : let w := event_step (event_run start os) Poll in pending (mb w) = not_taken (event_run (@start E) os).
Proof.
  intros w. unfold w. set (v := event_run start os). assert (B : bounded (mb v)) by (apply run_bounded, start_bounded).
  pose proof (drain_facts (mb v) B) as D. cbn [event_step]. destruct (drain_poll (mb v)) as [m es]. destruct D as (_ & _ & _ & _ & _ & D). exact D.
Qed.

(** ** Callbacks *)
Lemma for_sub_app i (a b : list (nat * E)) : for_sub i (a ++ b) = for_sub i a ++ for_sub i b.
Proof. unfold for_sub. now rewrite filter_app, map_app. Qed.
(** [i] is alive: exactly one live entry. *)
Definition live_once (i : nat) m : Prop :=
  exists a b, filter snd (callbacks m) = a ++ (i, true) :: b /\ ~ In i (map fst a) /\ ~ In i (map fst b).
Lemma for_sub_calls i cbs (es : list E) :
  for_sub i (flat_map (fun e => map (fun x : nat * bool => (fst x, e)) cbs) es)
  = flat_map (fun e => map (fun _ => e) (filter (fun x => fst x =? i) cbs)) es.
Proof.
  induction es as [|e es IH]; cbn [flat_map]; [easy|]. rewrite for_sub_app, IH. f_equal. unfold for_sub. clear IH.
  induction cbs as [|x cbs IH]; cbn; [easy|]. destruct (fst x =? i); cbn; now rewrite IH.
Qed.
Lemma filter_none i (l : list (nat * bool)) : ~ In i (map fst l) -> filter (fun x => fst x =? i) l = [].
Proof.
  induction l as [|x l IH]; cbn; [easy|]. intros H. destruct (Nat.eqb_spec (fst x) i); [tauto|]. apply IH. tauto.
Qed.
Lemma for_sub_live i m (es : list E) : live_once i m ->
  for_sub i (flat_map (fun e => map (fun x : nat * bool => (fst x, e)) (filter snd (callbacks m))) es) = es.
Proof.
  intros (a & b & -> & Ha & Hb). rewrite for_sub_calls, filter_app. cbn. rewrite Nat.eqb_refl, !filter_none by easy. cbn.
  induction es as [|e es IH]; cbn; [easy|]. now rewrite IH.
Qed.
Lemma for_sub_dead i m (es : list E) : ~ In i (map fst (filter snd (callbacks m))) ->
  for_sub i (flat_map (fun e => map (fun x : nat * bool => (fst x, e)) (filter snd (callbacks m))) es) = [].
Proof. intros H. rewrite for_sub_calls, filter_none by easy. apply flat_map_nil. Qed.
Lemma filter_filter (l : list (nat * bool)) : filter snd (filter snd l) = filter snd l.
Proof. induction l as [|[x [|]] l IH]; cbn; [easy| |easy]. now rewrite IH. Qed.
Lemma pop_facts k : forall bs : list (list (nat * E)), let (r, c) := pop_at k bs in Permutation (concat bs) (c ++ concat r).
Proof.
  induction k as [|k IH]; intros [|b bs]; cbn [pop_at].
  - cbn. apply Permutation_refl.
  - destruct b as [|c b]; cbn; apply Permutation_refl.
  - cbn. apply Permutation_refl.
  - specialize (IH bs). destruct b as [|y b]; destruct (pop_at k bs) as [r c].
    + cbn in *. exact IH.
    + cbn [concat]. rewrite IH. rewrite !app_assoc. apply Permutation_app_tail. apply Permutation_app_comm.
Qed.
Lemma for_sub_perm i (a b : list (nat * E)) : Permutation a b -> Permutation (for_sub i a) (for_sub i b).
Proof.
  intros H. unfold for_sub. apply Permutation_map.
  induction H as [|x a b H IH|x y a|a b c H1 IH1 H2 IH2]; cbn.
  - apply Permutation_refl.
  - destruct (fst x =? i); [now apply perm_skip|easy].
  - destruct (fst x =? i), (fst y =? i); try apply Permutation_refl. apply perm_swap.
  - now transitivity (filter (fun x => fst x =? i) b).
Qed.

Lemma callbacks_step i w o : o <> Unsubscribe i -> bounded (mb w) -> next_sub w > i -> live_once i (mb w) -> live_once i (mb (event_step w o)).
Proof.
  intros Ho B Hi (a & b & El & Ha & Hb). destruct o; cbn [event_step].
  - exists a, b. easy.
  - pose proof (drain_facts (mb w) B) as D. destruct (drain_poll (mb w)) as [m es]. destruct D as (_ & _ & _ & _ & D & _).
    exists a, b. cbn. now rewrite D.
  - exists a, (b ++ [(next_sub w, true)]). cbn. rewrite filter_app, El. cbn. rewrite <- app_assoc. split; [easy|]. split; [easy|].
    rewrite map_app, in_app_iff. cbn. intros [H|[H|[]]]; [tauto|lia].
  - assert (Q : forall l : list (nat * bool), filter snd (map (fun x => (fst x, snd x && negb (fst x =? i0))) l)
        = filter (fun x => negb (fst x =? i0)) (filter snd l)).
    { induction l as [|[x [|]] l IH]; cbn; [easy| |easy]. destruct (x =? i0); cbn; now rewrite IH. }
    exists (filter (fun x => negb (fst x =? i0)) a), (filter (fun x => negb (fst x =? i0)) b). cbn. rewrite Q, El, filter_app. cbn.
    destruct (Nat.eqb_spec i i0); [subst; congruence|]. cbn. split; [easy|].
    split; intros H; apply in_map_iff in H; destruct H as (x & Hx & Hin); apply filter_In in Hin; destruct Hin as [Hin _].
    + apply Ha. apply in_map_iff. eauto.
    + apply Hb. apply in_map_iff. eauto.
  - pose proof (take_facts (mb w) B) as D. destruct (take_queued (mb w)) as [m q]. destruct D as (_ & _ & _ & _ & [D|D] & _);
      exists a, b; cbn; rewrite D; [easy|now rewrite filter_filter].
  - destruct (pop_at k (flight w)). exists a, b. easy.
  - pose proof (take_facts (mb w) B) as D. destruct (take_queued (mb w)) as [m q]. destruct D as (_ & _ & _ & _ & [D|D] & _);
      exists a, b; cbn; rewrite D; [easy|now rewrite filter_filter].
Qed.
Lemma next_step w o : next_sub w <= next_sub (event_step w o).
Proof. destruct o; cbn; try lia; [destruct (drain_poll (mb w))|destruct (take_queued (mb w))|destruct (pop_at k (flight w))|destruct (take_queued (mb w))]; cbn; lia. Qed.

Definition total i w : list E := received i w ++ on_the_way i w ++ not_taken w.
Lemma total_step i w o : bounded (mb w) -> live_once i (mb w) -> 
  Permutation (total i (event_step w o)) (total i w ++ queued [o])
  /\ (match o with Take | Call _ => False | _ => True end -> flight (event_step w o) = flight w
      /\ received i (event_step w o) ++ not_taken (event_step w o) = received i w ++ not_taken w ++ queued [o]).
Proof.
  intros B L. unfold total, received, on_the_way, not_taken. destruct o; cbn [event_step].
  - cbn. rewrite skipn_app. replace (callback_cursor (mb w) - length (pending (mb w))) with 0 by (destruct B; lia). cbn.
    rewrite <- !app_assoc. split; [apply Permutation_refl|]. easy.
  - pose proof (drain_facts (mb w) B) as D. destruct (drain_poll (mb w)) as [m es]. destruct D as (_ & _ & _ & D & _). cbn.
    rewrite D, !app_nil_r. split; [apply Permutation_refl|easy].
  - cbn. rewrite !app_nil_r. split; [apply Permutation_refl|easy].
  - cbn. rewrite !app_nil_r. split; [apply Permutation_refl|easy].
  - pose proof (take_facts (mb w) B) as D. destruct (take_queued (mb w)) as [m q]. destruct D as (_ & _ & _ & D & _ & C). cbn.
    rewrite D, C, concat_app, for_sub_app. cbn. rewrite !app_nil_r, for_sub_live by easy.
    split; [|easy]. rewrite <- ?app_assoc. apply Permutation_refl.
  - pose proof (pop_facts k (flight w)) as P. destruct (pop_at k (flight w)) as [f c]. cbn. split; [|easy].
    rewrite for_sub_app, app_nil_r. pose proof (for_sub_perm i _ _ P) as P'. rewrite for_sub_app in P'.
    rewrite <- !app_assoc. apply Permutation_app_head. rewrite app_assoc. apply Permutation_app_tail. now symmetry.
  - pose proof (take_facts (mb w) B) as D. destruct (take_queued (mb w)) as [m q]. destruct D as (_ & _ & _ & D & _ & C). cbn.
    rewrite D, C, for_sub_app, for_sub_live, !app_nil_r by easy. split; [|easy].
    rewrite <- app_assoc. apply Permutation_app_head. apply Permutation_app_comm.
Qed.
Lemma total_run i os : forall w, bounded (mb w) -> live_once i (mb w) -> i < next_sub w -> ~ In (Unsubscribe i) os ->
  Permutation (total i (event_run w os)) (total i w ++ queued os)
  /\ (uninterrupted os -> received i (event_run w os) ++ not_taken (event_run w os) = received i w ++ not_taken w ++ queued os).
Proof.
  induction os as [|o os IH]; intros w B L Hi Ho; [cbn; rewrite !app_nil_r; split; [apply Permutation_refl|easy]|].
  change (event_run w (o :: os)) with (event_run (event_step w o) os).
  assert (Ho' : o <> Unsubscribe i) by (intros ->; apply Ho; now left).
  destruct (IH (event_step w o)) as [P1 P2].
  - now apply step_bounded.
  - apply callbacks_step; try easy.
  - pose proof (next_step w o). lia.
  - intros H. apply Ho. now right.
  - destruct (total_step i w o B L) as [Q1 Q2]. rewrite (queued_cons o os). split.
    + rewrite P1, Q1. now rewrite app_assoc.
    + intros U. inversion U as [|? ? U1 U2]; subst. rewrite (P2 U2), app_assoc. destruct (Q2 U1) as [_ ->]. now rewrite <- !app_assoc.
Qed.
(** A number not used yet has no entry, no call and nothing on the way. *)
Definition unknown i w : Prop := ~ In i (map fst (callbacks (mb w))) /\ received i w = [] /\ on_the_way i w = [].
Lemma in_filter_fst i (l : list (nat * bool)) : In i (map fst (filter snd l)) -> In i (map fst l).
Proof. rewrite !in_map_iff. intros (x & Hx & H). apply filter_In in H. exists x. easy. Qed.
Lemma unknown_step i w o : bounded (mb w) -> i <> next_sub w -> unknown i w -> unknown i (event_step w o).
Proof.
  intros B Hi (U1 & U2 & U3). assert (Q : ~ In i (map fst (filter snd (callbacks (mb w))))) by (intros H; apply U1; now apply in_filter_fst).
  unfold unknown, received, on_the_way in *. destruct o; cbn [event_step].
  - easy.
  - pose proof (drain_facts (mb w) B) as D. destruct (drain_poll (mb w)) as [m es]. destruct D as (_ & _ & _ & _ & D & _). cbn. now rewrite D.
  - cbn. split; [|easy]. rewrite map_app, in_app_iff. cbn. intros [H|[H|[]]]; [tauto|congruence].
  - cbn. split; [|easy]. rewrite map_map. cbn. easy.
  - pose proof (take_facts (mb w) B) as D. destruct (take_queued (mb w)) as [m q]. destruct D as (_ & _ & _ & _ & D & C). cbn.
    split; [destruct D as [-> | ->]; easy|]. split; [easy|]. rewrite concat_app, for_sub_app, U3. cbn. rewrite app_nil_r, C. now apply for_sub_dead.
  - pose proof (pop_facts k (flight w)) as P. destruct (pop_at k (flight w)) as [f c]. cbn. split; [easy|].
    apply (for_sub_perm i) in P. rewrite U3, for_sub_app in P. apply Permutation_nil in P. apply app_eq_nil in P. destruct P as [P1 P2].
    rewrite for_sub_app, U2, P1. easy.
  - pose proof (take_facts (mb w) B) as D. destruct (take_queued (mb w)) as [m q]. destruct D as (_ & _ & _ & _ & D & C). cbn.
    split; [destruct D as [-> | ->]; easy|]. split; [|easy]. rewrite for_sub_app, U2, C. now apply for_sub_dead.
Qed.
Lemma unknown_run os : forall w, bounded (mb w) -> (forall i, next_sub w <= i -> unknown i w) ->
  forall i, next_sub (event_run w os) <= i -> unknown i (event_run w os).
Proof.
  induction os as [|o os IH]; intros w B U i Hi; [now apply U|]. apply (IH (event_step w o)); [now apply step_bounded| |easy].
  intros j Hj. pose proof (next_step w o). destruct (Nat.eq_dec j (next_sub w)) as [->|Hne].
  - assert (o <> Subscribe) by (intros ->; cbn in Hj; lia).
    destruct (U (next_sub w) (Nat.le_refl _)) as (U1 & U2 & U3).
    (* not a subscription: the same argument as for other numbers *)
    clear IH. assert (Q : ~ In (next_sub w) (map fst (filter snd (callbacks (mb w))))) by (intros H'; apply U1; now apply in_filter_fst).
    unfold unknown, received, on_the_way in *. destruct o; cbn [event_step]; try easy.
    + pose proof (drain_facts (mb w) B) as D. destruct (drain_poll (mb w)) as [m es]. destruct D as (_ & _ & _ & _ & D & _). cbn. now rewrite D.
    + cbn. split; [|easy]. rewrite map_map. cbn. easy.
    + pose proof (take_facts (mb w) B) as D. destruct (take_queued (mb w)) as [m q]. destruct D as (_ & _ & _ & _ & D & C). cbn.
      split; [destruct D as [-> | ->]; easy|]. split; [easy|]. rewrite concat_app, for_sub_app, U3. cbn. rewrite app_nil_r, C. now apply for_sub_dead.
    + pose proof (pop_facts k (flight w)) as P. destruct (pop_at k (flight w)) as [f c]. cbn. split; [easy|].
      apply (for_sub_perm (next_sub w)) in P. rewrite U3, for_sub_app in P. apply Permutation_nil in P. apply app_eq_nil in P. destruct P as [P1 P2].
      rewrite for_sub_app, U2, P1. easy.
    + pose proof (take_facts (mb w) B) as D. destruct (take_queued (mb w)) as [m q]. destruct D as (_ & _ & _ & _ & D & C). cbn.
      split; [destruct D as [-> | ->]; easy|]. split; [|easy]. rewrite for_sub_app, U2, C. now apply for_sub_dead.
  - apply unknown_step; [easy|easy|]. apply U. lia.
Qed.

Lemma subscriber_theorem os1 os2 : let w1 := event_run (@start E) os1 in let i := next_sub w1 in
  let w2 := event_run (event_step w1 Subscribe) os2 in ~ In (Unsubscribe i) os2 ->
  Permutation (received i w2 ++ on_the_way i w2 ++ not_taken w2) (not_taken w1 ++ queued os2)
  /\ (uninterrupted os2 -> received i w2 ++ not_taken w2 = not_taken w1 ++ queued os2).
Proof.
  intros w1 i w2 Ho. assert (B : bounded (mb w1)) by (apply run_bounded, start_bounded).
  assert (U : unknown i w1). { apply unknown_run; [apply start_bounded| |easy]. intros j _. split; [easy|split; reflexivity]. }
  destruct U as (U1 & U2 & U3).
  destruct (total_run i os2 (event_step w1 Subscribe)) as [P1 P2].
  - exact B.
  - exists (filter snd (callbacks (mb w1))), []. cbn. rewrite filter_app. cbn. split; [easy|]. split; [|easy].
    intros H. apply U1. now apply in_filter_fst.
  - cbn. fold i. lia.
  - exact Ho.
  - fold w2 in P1, P2.
    assert (N : not_taken (event_step w1 Subscribe) = not_taken w1) by reflexivity.
    assert (N2 : received i (event_step w1 Subscribe) = []) by exact U2.
    assert (N3 : on_the_way i (event_step w1 Subscribe) = []) by exact U3.
    split.
    + unfold total in P1. rewrite N, N2, N3 in P1. exact P1.
    + intros Hu. specialize (P2 Hu). rewrite N, N2 in P2. exact P2.
Qed.

(** After the subscription is dropped nothing new is sent to it. *)
Definition dead i w : Prop := ~ In i (map fst (filter snd (callbacks (mb w)))).
Lemma dead_step i w o : bounded (mb w) -> i < next_sub w -> dead i w ->
  dead i (event_step w o) /\ Permutation (received i (event_step w o) ++ on_the_way i (event_step w o)) (received i w ++ on_the_way i w).
Proof.
  intros B Hi D0. unfold dead, received, on_the_way in *. destruct o; cbn [event_step].
  - split; [easy|apply Permutation_refl].
  - pose proof (drain_facts (mb w) B) as D. destruct (drain_poll (mb w)) as [m es]. destruct D as (_ & _ & _ & _ & D & _). cbn. rewrite D.
    split; [easy|apply Permutation_refl].
  - cbn. split; [|apply Permutation_refl]. rewrite filter_app, map_app, in_app_iff. cbn. intros [H|[H|[]]]; [tauto|lia].
  - cbn. split; [|apply Permutation_refl]. intros H. apply D0. apply in_map_iff in H. destruct H as (x & Hx & H).
    apply filter_In in H. destruct H as [H Hs]. apply in_map_iff in H. destruct H as (y & Hy & H). subst x. cbn in *.
    apply in_map_iff. exists y. split; [easy|]. apply filter_In. split; [easy|]. now destruct (snd y).
  - pose proof (take_facts (mb w) B) as D. destruct (take_queued (mb w)) as [m q]. destruct D as (_ & _ & _ & _ & D & C). cbn.
    split; [destruct D as [-> | ->]; [easy|now rewrite filter_filter]|]. rewrite concat_app, for_sub_app. cbn. rewrite app_nil_r, C, for_sub_dead by easy.
    rewrite app_nil_r. apply Permutation_refl.
  - pose proof (pop_facts k (flight w)) as P. destruct (pop_at k (flight w)) as [f c]. cbn. split; [easy|].
    rewrite for_sub_app, <- app_assoc. apply Permutation_app_head. apply (for_sub_perm i) in P. rewrite for_sub_app in P. now symmetry.
  - pose proof (take_facts (mb w) B) as D. destruct (take_queued (mb w)) as [m q]. destruct D as (_ & _ & _ & _ & D & C). cbn.
    split; [destruct D as [-> | ->]; [easy|now rewrite filter_filter]|]. rewrite for_sub_app, C, for_sub_dead by easy. rewrite app_nil_r. apply Permutation_refl.
Qed.
Lemma dropped_theorem os1 os2 i : let w1 := event_run (@start E) os1 in i < next_sub w1 ->
  let w2 := event_run (event_step w1 (Unsubscribe i)) os2 in
  Permutation (received i w2 ++ on_the_way i w2) (received i w1 ++ on_the_way i w1).
Proof.
  intros w1 Hi w2. assert (B : bounded (mb w1)) by (apply run_bounded, start_bounded).
  assert (Q : forall os w, bounded (mb w) -> i < next_sub w -> dead i w ->
    Permutation (received i (event_run w os) ++ on_the_way i (event_run w os)) (received i w ++ on_the_way i w)).
  { induction os as [|o os IH]; intros w Bw Hw Dw; [apply Permutation_refl|]. destruct (dead_step i w o Bw Hw Dw) as [D1 D2].
    change (event_run w (o :: os)) with (event_run (event_step w o) os). rewrite IH; [exact D2| | |easy].
    - now apply step_bounded.
    - pose proof (next_step w o). lia. }
  unfold w2. rewrite Q; [apply Permutation_refl|exact B|exact Hi|].
  unfold dead. cbn. intros H. apply in_map_iff in H. destruct H as (x & Hx & H). apply filter_In in H. destruct H as [H Hs].
  apply in_map_iff in H. destruct H as (y & Hy & H). subst x. cbn in *. subst i. now rewrite Nat.eqb_refl, andb_false_r in Hs.
Qed.
End Facts.

(** ** Counterexamples *)
Definition nested : list (event_op nat) := [Subscribe; Queue 1; Queue 2; Take; Call 0; Queue 3; Take; Call 1; Call 0].
Lemma nested_order : let w := event_run start nested in
  queued nested = [1; 2; 3] /\ received 0 w = [1; 3; 2] /\ on_the_way 0 w = [] /\ not_taken w = [].
Proof. vm_compute. auto. Qed.
Lemma memory_refuted_w : forall n, exists os : list (event_op nat), let w := event_run start os in
  length (queued os) = n /\ received 0 w = queued os /\ length (pending (mb w)) = n.
Proof.
  intros n. exists (Subscribe :: flat_map (fun e => [Queue e; Dispatch]) (repeat 7 n)).
  set (os := flat_map _ _).
  assert (Q : forall l (w : world nat), callbacks (mb w) = [(0, true)] -> callback_cursor (mb w) = length (pending (mb w)) ->
    let w' := event_run w (flat_map (fun e => [Queue e; Dispatch]) l) in
    queued (flat_map (fun e => [Queue e; Dispatch]) l) = l /\ received 0 w' = received 0 w ++ l /\ length (pending (mb w')) = length (pending (mb w)) + length l).
  { induction l as [|e l IH]; intros w Hc Hl; [cbn; rewrite app_nil_r; split; [easy|]; split; [easy|lia]|].
    cbn [flat_map app].  
    set (w2 := event_step (event_step w (Queue e)) Dispatch).
    assert (E2 : w2 = mk_world (mk_mailbox (pending (mb w) ++ [e]) (S (length (pending (mb w)))) (poll_cursor (mb w)) [(0, true)]) (next_sub w) (flight w) (polled w) (called w ++ [(0, e)])).
    { unfold w2, event_step, take_queued, queue_event. cbn [mb next_sub flight polled called pending callback_cursor callbacks poll_cursor]. rewrite Hc, Hl, app_length.
      cbn [length]. destruct (Nat.leb_spec (length (pending (mb w)) + 1) (length (pending (mb w)))); [lia|]. cbn [filter snd map fst].
      rewrite skipn_app, skipn_all, Nat.sub_diag. cbn. rewrite Nat.add_1_r. easy. }
    destruct (IH w2) as (I1 & I2 & I3); [rewrite E2; easy|rewrite E2; cbn; rewrite app_length; cbn; lia|].
    change (event_run w (Queue e :: Dispatch :: flat_map (fun e0 : nat => [Queue e0; Dispatch]) l)) with (event_run w2 (flat_map (fun e0 : nat => [Queue e0; Dispatch]) l)).
    split; [cbn; f_equal; exact I1|]. rewrite I2, I3, E2. split.
    - unfold received. cbn [called]. rewrite for_sub_app, <- app_assoc. easy.
    - cbn. rewrite app_length. cbn. lia. }
  destruct (Q (repeat 7 n) (event_step start Subscribe) eq_refl eq_refl) as (Q1 & Q2 & Q3).
  change (event_run start (Subscribe :: os)) with (event_run (event_step start Subscribe) os).
  change (queued (Subscribe :: os)) with (queued os). unfold os. cbv zeta. rewrite Q1, Q2, Q3. cbn. rewrite repeat_length. auto.
Qed.
