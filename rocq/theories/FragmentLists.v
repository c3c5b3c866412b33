(** Lists of pasted paragraphs. *)
From Verif Require Import Base BaseFacts RopeModel DocModel ListModel ListDocModel FragmentModel FragmentSpec.

Definition grouper_ok (L : ldoc) (g : grouper) : Prop :=
  forall k i st, nth_error g k = Some (Some (i, st)) ->
    exists e, get_list L i = Some e /\ l_style e = st /\ Z.to_nat (l_indent e) = k.

Lemma put_level_nth x : forall k g j y, nth_error (put_level g k x) j = Some (Some y) ->
  (j = k /\ y = x) \/ nth_error g j = Some (Some y).
Proof.
  induction k as [|k IH]; intros [|z g] [|j] y; cbn [put_level nth_error]; intros H;
    try (now left; injection H as <-); try (now right); try discriminate.
  - destruct j; discriminate.
  - apply IH in H. destruct H as [[-> ->]|H]; [now left|]. destruct j; discriminate.
  - apply IH in H. destruct H as [[-> ->]|H]; [now left|now right].
Qed.
Lemma nth_firstn {A} : forall n (l : list A) k x, nth_error (firstn n l) k = Some x -> nth_error l k = Some x.
Proof. induction n as [|n IH]; intros [|y l] [|k] x; cbn [firstn nth_error]; try easy. apply IH. Qed.

Lemma reuse_ok L g st k : grouper_ok L g ->
  let '(g1, r) := try_reuse g st k in
  grouper_ok L g1
  /\ match r with Some i => exists e, get_list L i = Some e /\ l_style e = st /\ Z.to_nat (l_indent e) = k | None => True end.
Proof.
  intros G. unfold try_reuse. assert (G1 : grouper_ok L (firstn (k + 1) g)).
  { intros j i s H. apply nth_firstn in H. now apply G. }
  split; [exact G1|]. destruct (nth_error (firstn (k + 1) g) k) as [[[i s]|]|] eqn:E; try exact I.
  unfold style_eqb. destruct (style_eq_dec s st) as [->|]; [|exact I]. now apply G1.
Qed.
Lemma register_ok L g i e : grouper_ok L g -> get_list L i = Some e ->
  grouper_ok L (register g i (l_style e) (Z.to_nat (l_indent e))).
Proof.
  intros G E j i' st H. unfold register in H. apply put_level_nth in H. destruct H as [[-> [= -> ->]]|H]; [|now apply G].
  exists e. auto.
Qed.
Lemma grouper_more L L' g : more_lists L L' -> grouper_ok L g -> grouper_ok L' g.
Proof. intros M G k i st H. destruct (G _ _ _ H) as (e & E & H'). exists e. split; [now apply M|exact H']. Qed.
Lemma joins_more L L' e l : more_lists L L' -> joins L e l -> joins L' e l.
Proof. intros M. destruct e as [e|]; [|easy]. intros (i & e' & H1 & H2 & H3). exists i, e'. split; [easy|]. split; [now apply M|easy]. Qed.

Lemma new_list_ok L e : lists_numbered L ->
  more_lists L (fst (new_list L e)) /\ get_list (fst (new_list L e)) (l_next L) = Some e /\ lists_numbered (fst (new_list L e)).
Proof.
  intros F. assert (A : forall i, get_list (fst (new_list L e)) i
     = match get_list L i with Some x => Some x | None => if N.eqb (l_next L) i then Some e else None end).
  { intros i. unfold get_list, new_list. cbn [fst l_lists]. induction (l_lists L) as [|x l IH]; cbn [app find].
    - cbn [fst]. now destruct (N.eqb (l_next L) i).
    - unfold id in *. destruct (N.eqb (fst x) i); [reflexivity|exact IH]. }
  split; [|split].
  - intros i x E. now rewrite A, E.
  - rewrite A, (F (l_next L)) by apply N.le_refl. now rewrite N.eqb_refl.
  - intros i Hi. rewrite A. cbn [fst new_list l_next] in Hi. rewrite F by lia.
    destruct (N.eqb_spec (l_next L) i); [lia|easy].
Qed.
Lemma make_list_ok L e : lists_numbered L ->
  let '(L', l) := make_list L e in more_lists L L' /\ joins L' e l /\ lists_numbered L'.
Proof.
  intros F. destruct e as [e|]; cbn [make_list]; [|now repeat split].
  destruct (new_list_ok L e F) as (A & B & C). cbn [new_list fst] in *. split; [exact A|]. split; [|exact C].
  exists (l_next L), e. auto.
Qed.

Lemma place_lists_ok fbs : forall L g, lists_numbered L -> grouper_ok L g ->
  let '(L', ids) := place_lists L g fbs in
  Forall2 (joins L') (map fb_list fbs) ids /\ more_lists L L' /\ lists_numbered L'.
Proof.
  induction fbs as [|fb fbs IH]; intros L g F G; cbn [place_lists map].
  - split; [constructor|]. now split.
  - destruct (fb_list fb) as [e|].
    + pose proof (reuse_ok L g (l_style e) (Z.to_nat (l_indent e)) G) as Hr.
      destruct (try_reuse g (l_style e) (Z.to_nat (l_indent e))) as [g1 [i|]].
      * destruct Hr as [G1 (e' & E1 & E2 & E3)]. specialize (IH L g1 F G1). destruct (place_lists L g1 fbs) as [L' ids].
        destruct IH as (H1 & H2 & H3). split; [|now split]. constructor; [|exact H1].
        exists i, e'. split; [easy|]. split; [now apply H2|now split].
      * destruct Hr as [G1 _]. destruct (new_list_ok L e F) as (A & B & C).
        destruct (new_list L e) as [L1 i] eqn:En. cbn [fst] in *. assert (Ei : i = l_next L) by (now injection En). subst i.
        assert (G2 : grouper_ok L1 (register g1 (l_next L) (l_style e) (Z.to_nat (l_indent e)))).
        { apply register_ok; [|exact B]. eapply grouper_more; eassumption. }
        specialize (IH L1 _ C G2). destruct (place_lists L1 _ fbs) as [L' ids].
        destruct IH as (H1 & H2 & H3). split; [|split; [|exact H3]].
        -- constructor; [|exact H1]. exists (l_next L), e. split; [easy|]. split; [now apply H2|easy].
        -- intros j x Hx. now apply H2, A.
    + specialize (IH L (reset g) F). destruct (place_lists L (reset g) fbs) as [L' ids].
      destruct IH as (H1 & H2 & H3); [now intros [|k] i st H|]. split; [|now split]. now constructor.
Qed.

Lemma first_grouper_ok L over l : grouper_ok L (first_grouper L over l).
Proof.
  assert (E0 : grouper_ok L []) by (intros [|k] i st H; discriminate). unfold first_grouper.
  destruct over; [exact E0|]. destruct l as [i|]; [|exact E0]. destruct (get_list L i) as [e|] eqn:E; [|exact E0].
  now apply register_ok.
Qed.

Lemma get_list_same L L' l : l_lists L' = l_lists L -> get_list L' l = get_list L l.
Proof. intros E. unfold get_list. now rewrite E. Qed.
Lemma lists_same L L1 L' es ls : l_lists L' = l_lists L1 -> l_next L' = l_next L1 ->
  Forall2 (joins L1) es ls /\ more_lists L L1 /\ lists_numbered L1 ->
  Forall2 (joins L') es ls /\ more_lists L L' /\ lists_numbered L'.
Proof.
  intros E1 E2 (A & B & C). assert (M : more_lists L1 L') by (intros i e H; now rewrite (get_list_same _ _ i E1)).
  split; [|split].
  - induction A; constructor; [|easy]. eapply joins_more; eassumption.
  - intros i e H. now apply M, B.
  - intros l Hl. rewrite (get_list_same _ _ l E1). apply C. now rewrite <- E2.
Qed.
