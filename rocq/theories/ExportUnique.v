(** A source of a page has one reading. *)
From Coq Require Import Ascii String.
From Verif Require Import Base FormatRunsModel EscapeModel EscapeSpec EscapeFacts ExportSpec.

Definition lt_ : char := 60%N.
Definition stop (r : str) : Prop := r = [] \/ exists r', r = txt "</" ++ r'.

(** A name is as long as it can be. *)
Lemma name_span n1 : forall n2 x1 x2, Forall (fun c => name_char c = true) n1 -> Forall (fun c => name_char c = true) n2 ->
  (forall c r, x1 = c :: r -> name_char c = false) -> (forall c r, x2 = c :: r -> name_char c = false) ->
  n1 ++ x1 = n2 ++ x2 -> n1 = n2 /\ x1 = x2.
Proof.
  induction n1 as [|a n1 IH]; intros [|b n2] x1 x2 F1 F2 H1 H2 E; cbn in E.
  - easy.
  - subst x1. inversion F2; subst. rewrite (H1 b (n2 ++ x2) eq_refl) in H3. discriminate.
  - subst x2. inversion F1; subst. rewrite (H2 a (n1 ++ x1) eq_refl) in H3. discriminate.
  - injection E as -> E. inversion F1; subst. inversion F2; subst. destruct (IH n2 x1 x2 H4 H6 H1 H2 E) as [-> ->]. easy.
Qed.

(** The text of an attribute ends at the quote. *)
Lemma ref_head k c a r : In (k, c) html_codes -> k = a :: r -> a = 38%N.
Proof. intros H ->. cbn in H. intuition congruence. Qed.
Lemma reads_quote e1 v1 : reads html_codes html_active e1 v1 -> forall e2 v2 x1 x2, reads html_codes html_active e2 v2 ->
  e1 ++ 34%N :: x1 = e2 ++ 34%N :: x2 -> e1 = e2 /\ v1 = v2 /\ x1 = x2.
Proof.
  assert (Q : In 34%N html_active) by (cbn; tauto).
  induction 1 as [|c e t N H IH|k c e t K H IH]; intros e2 v2 x1 x2 H2 E.
  - inversion H2 as [|c' e' t' N' H' E'|k' c' e' t' K' H' E']; subst; cbn in E.
    + injection E as ->. easy.
    + injection E as <- E. contradiction.
    + destruct (code_head _ _ html_codes_ok _ _ K') as (a & r & -> & A). cbn in E. injection E as <- E.
      now apply (fun H => ref_head _ _ _ _ H eq_refl) in K'.
  - inversion H2 as [|c' e' t' N' H' E'|k' c' e' t' K' H' E']; subst; cbn in E.
    + injection E as -> E. contradiction.
    + injection E as -> E. destruct (IH _ _ _ _ H' E) as (-> & -> & ->). easy.
    + destruct (code_head _ _ html_codes_ok _ _ K') as (a & r & -> & A). cbn in E. injection E as -> E. contradiction.
  - destruct (code_head _ _ html_codes_ok _ _ K) as (a & r & Ek & A). rewrite <- app_assoc in E.
    inversion H2 as [|c' e' t' N' H' E'|k' c' e' t' K' H' E']; subst e2 v2; rewrite <- ?app_assoc in E.
    + rewrite Ek in E. cbn in E. injection E as -> E. now apply (fun H => ref_head _ _ _ _ H Ek) in K.
    + rewrite Ek in E. cbn in E. injection E as -> E. contradiction.
    + destruct (code_same _ _ html_codes_ok _ _ _ _ _ _ K K' E) as [-> E2].
      destruct (IH _ _ _ _ H' E2) as (-> & -> & ->). apply app_inv_tail in E. now subst.
Qed.

(** The attributes end where no name follows a space. *)
Definition attrs_end (r : str) : Prop := (exists r', r = txt ">" ++ r') \/ exists r', r = txt " />" ++ r'.
Lemma attrs_unique a1 l1 : attrs_source a1 l1 -> forall a2 l2 x1 x2, attrs_source a2 l2 -> attrs_end x1 -> attrs_end x2 ->
  a1 ++ x1 = a2 ++ x2 -> a1 = a2 /\ l1 = l2 /\ x1 = x2.
Proof.
  assert (Z : forall n e (rest : str) x, is_name n -> attrs_end x -> x = txt " " ++ n ++ txt "=""" ++ e ++ txt """" ++ rest -> False).
  { intros n e rest x [Hn F] [[r ->]|[r ->]] E; [discriminate|]. cbn in E. destruct n as [|c n]; [easy|]. injection E as <- _.
    inversion F; subst. discriminate. }
  induction 1 as [|n e v rest l Hn Hr H IH]; intros a2 l2 x1 x2 H2 X1 X2 E.
  - destruct H2 as [|n e v rest l Hn Hr H]; [easy|]. exfalso. cbn [app] in E. rewrite <- !app_assoc in E.
    now apply (Z n e (rest ++ x2) x1).
  - destruct H2 as [|n' e' v' rest' l' Hn' Hr' H'].
    + exfalso. cbn [app] in E. rewrite <- !app_assoc in E. symmetry in E. now apply (Z n e (rest ++ x1) x2).
    + rewrite <- !app_assoc in E. cbn in E. injection E as E.
      assert (S1 : forall c r y, 61%N :: 34%N :: y = c :: r -> name_char c = false) by (intros c r y [= <- _]; reflexivity).
      destruct (name_span n n' _ _ (proj2 Hn) (proj2 Hn') (fun c r => S1 c r _) (fun c r => S1 c r _) E) as [-> E2].
      injection E2 as E2. destruct (reads_quote _ _ Hr _ _ _ _ Hr' E2) as (-> & -> & E3).
      destruct (IH _ _ _ _ H' X1 X2 E3) as (-> & -> & ->). easy.
Qed.

Lemma void_name n : In n void_names -> is_name n.
Proof. intros [<-|[<-|[<-|[]]]]; (split; [discriminate|]; repeat constructor). Qed.
(** What follows the name of an element. *)
Lemma attrs_head a l x : attrs_source a l -> attrs_end x -> forall c r, a ++ x = c :: r -> name_char c = false.
Proof.
  intros H X c r E. destruct H as [|n e v rest l Hn Hr H].
  - cbn in E. destruct X as [[r' ->]|[r' ->]]; injection E as <- _; reflexivity.
  - injection E as <- _. reflexivity.
Qed.
Lemma end_gt r : attrs_end (txt ">" ++ r). Proof. left. eauto. Qed.
Lemma end_void e r : e = txt ">" \/ e = txt " />" -> attrs_end (e ++ r).
Proof. intros [-> | ->]; [left|right]; eauto. Qed.

Lemma stop_end x : stop (txt "</" ++ x). Proof. right. eauto. Qed.
Lemma html_stop e l r : html e l -> stop r -> stop (e ++ r) -> e = [] /\ l = [].
Proof.
  intros H S1 S2. assert (LT : In 60%N html_active) by (cbn; tauto).
  assert (N47 : forall n, is_name n -> forall y z, n ++ y = 47%N :: z -> False).
  { intros n [Hn F] y z E. destruct n as [|c n]; [easy|]. injection E as -> _. inversion F; subst. discriminate. }
  destruct H as [|c rest l N H|k c rest l K H|n a attrs inner kids rest l Hn Hv Ha Hi H|n a attrs e rest l Hv Ha He H]; [easy| | | |]; exfalso;
    destruct S2 as [S2|[r' S2]].
  - discriminate.
  - injection S2 as -> _. contradiction.
  - destruct (code_head _ _ html_codes_ok _ _ K) as (a & s & -> & A). discriminate.
  - destruct (code_head _ _ html_codes_ok _ _ K) as (a & s & -> & A). cbn in S2. injection S2 as -> _.
    now apply (fun H => ref_head _ _ _ _ H eq_refl) in K.
  - discriminate.
  - rewrite <- !app_assoc in S2. injection S2 as S2. now apply (N47 n Hn) in S2.
  - discriminate.
  - rewrite <- !app_assoc in S2. injection S2 as S2. now apply (N47 n (void_name n Hv)) in S2.
Qed.

Lemma html_unique_go e1 l1 : html e1 l1 -> forall e2 l2 x1 x2, html e2 l2 -> stop x1 -> stop x2 ->
  e1 ++ x1 = e2 ++ x2 -> e1 = e2 /\ l1 = l2.
Proof.
  assert (LT : In 60%N html_active) by (cbn; tauto).
  induction 1 as [|c rest l N H IH|k c rest l K H IH|n a attrs inner kids rest l Hn Hv Ha Hi IHi H IH|n a attrs e rest l Hv Ha He H IH];
    intros e2 l2 x1 x2 H2 X1 X2 E.
  - cbn in E. subst x1. destruct (html_stop _ _ _ H2 X2 X1) as [-> ->]. easy.
  - destruct H2 as [|c' rest' l' N' H'|k' c' rest' l' K' H'|n' a' attrs' inner' kids' rest' l' Hn' Hv' Ha' Hi' H'|n' a' attrs' e' rest' l' Hv' Ha' He' H'].
    + exfalso. cbn in E. destruct (html_stop (c :: rest) (Ch c :: l) x1) as [? _]; [now constructor|easy|cbn; now rewrite E|easy].
    + cbn in E. injection E as -> E. destruct (IH _ _ _ _ H' X1 X2 E) as [-> ->]. easy.
    + destruct (code_head _ _ html_codes_ok _ _ K') as (a & s & -> & A). cbn in E. injection E as -> E. contradiction.
    + injection E as -> _. contradiction.
    + injection E as -> _. contradiction.
  - rewrite <- app_assoc in E. destruct (code_head _ _ html_codes_ok _ _ K) as (b & s & Ek & A).
    destruct H2 as [|c' rest' l' N' H'|k' c' rest' l' K' H'|n' a' attrs' inner' kids' rest' l' Hn' Hv' Ha' Hi' H'|n' a' attrs' e' rest' l' Hv' Ha' He' H'].
    + exfalso. cbn in E. destruct (html_stop (k ++ rest) (Ch c :: l) x1) as [E' _]; [now constructor|easy|rewrite <- app_assoc; now rewrite E|].
      now rewrite Ek in E'.
    + rewrite Ek in E. injection E as -> _. contradiction.
    + rewrite <- app_assoc in E. destruct (code_same _ _ html_codes_ok _ _ _ _ _ _ K K' E) as [-> E2].
      destruct (IH _ _ _ _ H' X1 X2 E2) as [-> ->]. rewrite E2 in E. apply app_inv_tail in E. now subst.
    + rewrite Ek in E. injection E as Eb _. apply (fun H => ref_head _ _ _ _ H Ek) in K. subst b. discriminate.
    + rewrite Ek in E. injection E as Eb _. apply (fun H => ref_head _ _ _ _ H Ek) in K. subst b. discriminate.
  - destruct H2 as [|c' rest' l' N' H'|k' c' rest' l' K' H'|n' a' attrs' inner' kids' rest' l' Hn' Hv' Ha' Hi' H'|n' a' attrs' e' rest' l' Hv' Ha' He' H'].
    + exfalso. cbn [app] in E.
      destruct (html_stop _ _ x1 (h_elem n a attrs inner kids rest l Hn Hv Ha Hi H) X1) as [E' _]; [now rewrite E|discriminate].
    + injection E as <- _. contradiction.
    + destruct (code_head _ _ html_codes_ok _ _ K') as (b & s & Ek & A). rewrite Ek in E. injection E as Eb _.
      apply (fun H => ref_head _ _ _ _ H Ek) in K'. subst b. discriminate.
    + rewrite <- !app_assoc in E. injection E as E.
      destruct (name_span n n' _ _ (proj2 Hn) (proj2 Hn') (attrs_head _ _ _ Ha (end_gt _)) (attrs_head _ _ _ Ha' (end_gt _)) E) as [<- E2].
      destruct (attrs_unique _ _ Ha _ _ _ _ Ha' (end_gt _) (end_gt _) E2) as (<- & <- & E3).
      injection E3 as E3. change (60%N :: 47%N :: n ++ 62%N :: rest ++ x1) with (txt "</" ++ n ++ txt ">" ++ rest ++ x1) in E3.
      destruct (IHi _ _ _ _ Hi' (stop_end _) (stop_end _) E3) as [<- <-].
      apply app_inv_head in E3. injection E3 as E3. apply app_inv_head in E3. injection E3 as E3.
      destruct (IH _ _ _ _ H' X1 X2 E3) as [<- <-]. easy.
    + exfalso. rewrite <- !app_assoc in E. injection E as E.
      destruct (name_span n n' _ _ (proj2 Hn) (proj2 (void_name _ Hv')) (attrs_head _ _ _ Ha (end_gt _)) (attrs_head _ _ _ Ha' (end_void _ _ He')) E) as [<- _].
      contradiction.
  - destruct H2 as [|c' rest' l' N' H'|k' c' rest' l' K' H'|n' a' attrs' inner' kids' rest' l' Hn' Hv' Ha' Hi' H'|n' a' attrs' e' rest' l' Hv' Ha' He' H'].
    + exfalso. cbn [app] in E.
      destruct (html_stop _ _ x1 (h_void n a attrs e rest l Hv Ha He H) X1) as [E' _]; [now rewrite E|discriminate].
    + injection E as <- _. contradiction.
    + destruct (code_head _ _ html_codes_ok _ _ K') as (b & s & Ek & A). rewrite Ek in E. injection E as Eb _.
      apply (fun H => ref_head _ _ _ _ H Ek) in K'. subst b. discriminate.
    + exfalso. rewrite <- !app_assoc in E. injection E as E.
      destruct (name_span n n' _ _ (proj2 (void_name _ Hv)) (proj2 Hn') (attrs_head _ _ _ Ha (end_void _ _ He)) (attrs_head _ _ _ Ha' (end_gt _)) E) as [<- _].
      contradiction.
    + rewrite <- !app_assoc in E. injection E as E.
      destruct (name_span n n' _ _ (proj2 (void_name _ Hv)) (proj2 (void_name _ Hv')) (attrs_head _ _ _ Ha (end_void _ _ He)) (attrs_head _ _ _ Ha' (end_void _ _ He')) E) as [<- E2].
      destruct (attrs_unique _ _ Ha _ _ _ _ Ha' (end_void _ _ He) (end_void _ _ He') E2) as (<- & <- & E3).
      assert (Ee : e = e' /\ rest ++ x1 = rest' ++ x2) by (destruct He as [-> | ->], He' as [-> | ->]; injection E3 as E3; easy).
      destruct Ee as [<- E4]. destruct (IH _ _ _ _ H' X1 X2 E4) as [<- <-]. easy.
Qed.
Theorem html_one_reading e l1 l2 : html e l1 -> html e l2 -> l1 = l2.
Proof. intros H1 H2. destruct (html_unique_go e l1 H1 e l2 [] [] H2) as [_ E]; try (now left); easy. Qed.
