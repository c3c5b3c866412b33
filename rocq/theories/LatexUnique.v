(** A LaTeX source has one reading. *)
From Coq Require Import Ascii String.
From Verif Require Import Base FormatRunsModel EscapeModel EscapeSpec EscapeFacts ExportSpec LatexSpec.

(** No two beginnings of codes, commands and marks are prefixes of each other. *)
Definition tokens : list (str * char) :=
  latex_codes ++ map (fun n => (txt "\" ++ n, 1000%N)) commands0 ++ map (fun n => (txt "\" ++ n ++ txt "{", 1001%N)) commands1
  ++ map (fun n => (txt "\" ++ n ++ txt "{", 1002%N)) commands2
  ++ [(txt "\begin{", 1003%N); (txt "\end{", 1004%N); (txt "\item ", 1005%N)].
Lemma tokens_ok : codes_ok tokens latex_active = true.
Proof. vm_compute. reflexivity. Qed.
Lemma tok_code k c : In (k, c) latex_codes -> In (k, c) tokens.
Proof. intros H. unfold tokens. now apply in_or_app; left. Qed.
Lemma tok0 n : In n commands0 -> In (txt "\" ++ n, 1000%N) tokens.
Proof. intros H. unfold tokens. rewrite !in_app_iff. right; left. apply in_map_iff. eauto. Qed.
Lemma tok1 n : In n commands1 -> In (txt "\" ++ n ++ txt "{", 1001%N) tokens.
Proof. intros H. unfold tokens. rewrite !in_app_iff. right; right; left. apply in_map_iff. eauto. Qed.
Lemma tok2 n : In n commands2 -> In (txt "\" ++ n ++ txt "{", 1002%N) tokens.
Proof. intros H. unfold tokens. rewrite !in_app_iff. right; right; right; left. apply in_map_iff. eauto. Qed.
Lemma tok_begin : In (txt "\begin{", 1003%N) tokens. Proof. unfold tokens. rewrite !in_app_iff. do 4 right. cbn. tauto. Qed.
Lemma tok_end : In (txt "\end{", 1004%N) tokens. Proof. unfold tokens. rewrite !in_app_iff. do 4 right. cbn. tauto. Qed.
Lemma tok_item : In (txt "\item ", 1005%N) tokens. Proof. unfold tokens. rewrite !in_app_iff. do 4 right. cbn. tauto. Qed.
Lemma code_small k c : In (k, c) latex_codes -> (c < 1000)%N.
Proof.
  assert (F : forallb (fun p => (snd p <? 1000)%N) latex_codes = true) by reflexivity. rewrite forallb_forall in F.
  intros H. specialize (F _ H). now apply N.ltb_lt in F.
Qed.
Lemma tok_same k c k' c' a b : In (k, c) tokens -> In (k', c') tokens -> k ++ a = k' ++ b -> c = c' /\ k = k' /\ a = b.
Proof.
  intros H H' E. destruct (code_same _ _ tokens_ok _ _ _ _ _ _ H H' E) as [-> ->]. split; [easy|]. split; [now apply app_inv_tail in E|easy].
Qed.
Lemma tok_head k c : In (k, c) tokens -> exists r, k = 92%N :: r.
Proof.
  assert (F : forallb (fun p => match fst p with a :: _ => (a =? 92)%N | [] => false end) tokens = true) by (vm_compute; reflexivity).
  rewrite forallb_forall in F. intros H. specialize (F _ H). cbn [fst] in F. destruct k as [|a r]; [discriminate|]. apply N.eqb_eq in F. subst. eauto.
Qed.

(** Where a source without line breaks ends. *)
Definition ends (x : str) : Prop := x = [] \/ (exists r, x = 125%N :: r) \/ (exists r, x = NL :: r) \/ (exists r, x = txt "\end{" ++ r).

(** How a source that is not empty begins: with a character, a brace or a token. *)
Lemma latex_begin e l : latex e l -> e = [] /\ l = []
  \/ (exists c r, e = c :: r /\ ~ In c latex_active /\ c <> NL)
  \/ (exists r, e = 123%N :: r)
  \/ (exists k c r, e = k ++ r /\ In (k, c) tokens /\ (c < 1003)%N).
Proof.
  intros H. destruct H.
  - now left.
  - right; left. eauto.
  - right; right; right. exists k, c, rest. split; [easy|]. split; [now apply tok_code|]. apply code_small in H. lia.
  - right; right; left. eexists. reflexivity.
  - right; right; right. exists (txt "\" ++ n), 1000%N, rest. split; [now rewrite app_assoc|]. split; [now apply tok0|lia].
  - right; right; right. exists (txt "\" ++ n ++ txt "{"), 1001%N, (e ++ txt "}" ++ rest). split; [now rewrite <- !app_assoc|]. split; [now apply tok1|lia].
  - right; right; right. exists (txt "\" ++ n ++ txt "{"), 1002%N, (e ++ txt "}{" ++ e' ++ txt "}" ++ rest).
    split; [now rewrite <- !app_assoc|]. split; [now apply tok2|lia].
Qed.
Lemma active_in c : existsb (N.eqb c) latex_active = true -> In c latex_active.
Proof. apply in_active. Qed.
Lemma latex_ends e l x : latex e l -> ends (e ++ x) -> e = [] /\ l = [].
Proof.
  intros H S. destruct (latex_begin _ _ H) as [?|[(c & r & -> & A & N)|[(r & ->)|(k & c & r & -> & K & C)]]]; [easy| | |]; exfalso.
  - destruct S as [S|[(q & S)|[(q & S)|(q & S)]]]; cbn in S; try discriminate; injection S as -> _; try easy; apply A; now apply active_in.
  - destruct S as [S|[(q & S)|[(q & S)|(q & S)]]]; cbn in S; discriminate.
  - destruct (tok_head _ _ K) as (k' & E). rewrite <- app_assoc in S. destruct S as [S|[(q & S)|[(q & S)|(q & S)]]].
    + now rewrite E in S.
    + now rewrite E in S.
    + now rewrite E in S.
    + destruct (tok_same _ _ _ _ _ _ K tok_end S) as [-> _]. lia.
Qed.

Lemma one_inv a b : txt "\" ++ a ++ txt "{" = txt "\" ++ b ++ txt "{" -> a = b.
Proof. intros E. apply app_inv_head in E. now apply app_inv_tail in E. Qed.
Lemma brace_ends r : ends (txt "}" ++ r). Proof. right; left. now exists r. Qed.
Lemma bracket_ends r : ends (txt "}{" ++ r). Proof. right; left. now eexists. Qed.

Ltac toks := match goal with
  | K : In (?k, ?c) latex_codes |- In (?k, _) tokens => exact (tok_code _ _ K)
  | K : In ?n commands0 |- In (txt "\" ++ ?n, _) tokens => exact (tok0 _ K)
  | K : In ?n commands1 |- In (txt "\" ++ ?n ++ txt "{", _) tokens => exact (tok1 _ K)
  | K : In ?n commands2 |- In (txt "\" ++ ?n ++ txt "{", _) tokens => exact (tok2 _ K)
  end.
Lemma no_char c r k cl s : ~ In c latex_active -> In (k, cl) tokens -> c :: r = k ++ s -> False.
Proof. intros A K E. destruct (tok_head _ _ K) as (k' & ->). injection E as -> _. apply A. now apply active_in. Qed.
Lemma no_group r k cl s : In (k, cl) tokens -> txt "{" ++ r = k ++ s -> False.
Proof. intros K E. destruct (tok_head _ _ K) as (k' & ->). discriminate. Qed.
Lemma no_tok k cl s k' cl' s' : In (k, cl) tokens -> In (k', cl') tokens -> cl <> cl' -> k ++ s = k' ++ s' -> False.
Proof. intros K K' N E. destruct (tok_same _ _ _ _ _ _ K K' E) as [? _]. contradiction. Qed.

Lemma latex_go e1 l1 : latex e1 l1 -> forall e2 l2 x1 x2, latex e2 l2 -> ends x1 -> ends x2 ->
  e1 ++ x1 = e2 ++ x2 -> e1 = e2 /\ l1 = l2.
Proof.
  assert (G1 : forall n a, txt "\" ++ n ++ txt "{" ++ a = (txt "\" ++ n ++ txt "{") ++ a) by (intros; now rewrite <- !app_assoc).
  assert (G2 : forall n a, txt "\" ++ n ++ a = (txt "\" ++ n) ++ a) by (intros; now rewrite <- !app_assoc).
  induction 1 as [|c rest l A N H IH|k c rest l K H IH|e g rest l He IHe H IH|n rest l K Hn H IH|n e g rest l K He IHe H IH
    |n e g e' g' rest l K He IHe He' IHe' H IH]; intros e2 l2 x1 x2 H2 X1 X2 E.
  - cbn in E. subst x1. destruct (latex_ends _ _ _ H2 X1) as [-> ->]. easy.
  - inversion H2 as [|c' rest' l' A' N' H'|k' c' rest' l' K' H'|f h rest' l' Hf H'|m rest' l' K' Hm H'|m f h rest' l' K' Hf H'|m f h f' h' rest' l' K' Hf Hf' H']; subst e2 l2; try (clear H2).
    + exfalso. cbn in E. destruct (latex_ends (c :: rest) (TChar c :: l) x1) as [? _]; [now constructor|cbn; now rewrite E|easy].
    + cbn in E. injection E as -> E. destruct (IH _ _ _ _ H' X1 X2 E) as [-> ->]. easy.
    + exfalso. rewrite <- !app_assoc in E. eapply no_char; [exact A| |exact E]; toks.
    + exfalso. cbn in E. injection E as -> _. apply A. now apply active_in.
    + exfalso. rewrite <- !app_assoc, G2 in E. eapply no_char; [exact A| |exact E]; toks.
    + exfalso. rewrite <- !app_assoc, G1 in E. eapply no_char; [exact A| |exact E]; toks.
    + exfalso. rewrite <- !app_assoc, G1 in E. eapply no_char; [exact A| |exact E]; toks.
  - pose proof (code_small _ _ K) as Sm.
    inversion H2 as [|c' rest' l' A' N' H'|k' c' rest' l' K' H'|f h rest' l' Hf H'|m rest' l' K' Hm H'|m f h rest' l' K' Hf H'|m f h f' h' rest' l' K' Hf Hf' H']; subst e2 l2; try (clear H2).
    + exfalso. cbn in E. destruct (latex_ends (k ++ rest) (TChar c :: l) x1) as [E' _]; [now constructor|now rewrite E|].
      destruct (tok_head _ _ (tok_code _ _ K)) as (? & ->). discriminate.
    + exfalso. rewrite <- !app_assoc in E. symmetry in E. eapply no_char; [exact A'| |exact E]; toks.
    + rewrite <- !app_assoc in E. destruct (tok_same _ _ _ _ _ _ (tok_code _ _ K) (tok_code _ _ K') E) as (-> & -> & E2).
      destruct (IH _ _ _ _ H' X1 X2 E2) as [-> ->]. easy.
    + exfalso. rewrite <- !app_assoc in E. symmetry in E. eapply no_group; [|exact E]. toks.
    + exfalso. rewrite <- !app_assoc, G2 in E. eapply no_tok; [| | |exact E]; [toks|toks|lia].
    + exfalso. rewrite <- !app_assoc, G1 in E. eapply no_tok; [| | |exact E]; [toks|toks|lia].
    + exfalso. rewrite <- !app_assoc, G1 in E. eapply no_tok; [| | |exact E]; [toks|toks|lia].
  - inversion H2 as [|c' rest' l' A' N' H'|k' c' rest' l' K' H'|f h rest' l' Hf H'|m rest' l' K' Hm H'|m f h rest' l' K' Hf H'|m f h f' h' rest' l' K' Hf Hf' H']; subst e2 l2; try (clear H2).
    + exfalso. cbn [app] in E. destruct (latex_ends _ _ x1 (x_group e g rest l He H)) as [E' _]; [now rewrite E|discriminate].
    + exfalso. cbn in E. injection E as <- _. apply A'. now apply active_in.
    + exfalso. rewrite <- !app_assoc in E. eapply no_group; [|exact E]. toks.
    + rewrite <- !app_assoc in E. apply app_inv_head in E. destruct (IHe _ _ _ _ Hf (brace_ends _) (brace_ends _) E) as [<- <-].
      apply app_inv_head in E. apply app_inv_head in E. destruct (IH _ _ _ _ H' X1 X2 E) as [-> ->]. easy.
    + exfalso. rewrite <- !app_assoc, G2 in E. eapply no_group; [|exact E]. toks.
    + exfalso. rewrite <- !app_assoc, G1 in E. eapply no_group; [|exact E]. toks.
    + exfalso. rewrite <- !app_assoc, G1 in E. eapply no_group; [|exact E]. toks.
  - inversion H2 as [|c' rest' l' A' N' H'|k' c' rest' l' K' H'|f h rest' l' Hf H'|m rest' l' K' Hm H'|m f h rest' l' K' Hf H'|m f h f' h' rest' l' K' Hf Hf' H']; subst e2 l2; try (clear H2).
    + exfalso. cbn [app] in E. destruct (latex_ends _ _ x1 (x_word n rest l K Hn H)) as [E' _]; [now rewrite E|discriminate].
    + exfalso. symmetry in E. rewrite <- !app_assoc, G2 in E. eapply no_char; [exact A'| |exact E]; toks.
    + exfalso. rewrite <- !app_assoc, G2 in E. pose proof (code_small _ _ K'). eapply no_tok; [| | |exact E]; [toks|toks|lia].
    + exfalso. symmetry in E. rewrite <- !app_assoc, G2 in E. eapply no_group; [|exact E]. toks.
    + rewrite <- !app_assoc, !G2 in E. destruct (tok_same _ _ _ _ _ _ (tok0 _ K) (tok0 _ K') E) as (_ & En & E2).
      apply app_inv_head in En. subst m. destruct (IH _ _ _ _ H' X1 X2 E2) as [-> ->]. easy.
    + exfalso. rewrite <- !app_assoc, G1, G2 in E. eapply no_tok; [| | |exact E]; [toks|toks|lia].
    + exfalso. rewrite <- !app_assoc, G1, G2 in E. eapply no_tok; [| | |exact E]; [toks|toks|lia].
  - inversion H2 as [|c' rest' l' A' N' H'|k' c' rest' l' K' H'|f h rest' l' Hf H'|m rest' l' K' Hm H'|m f h rest' l' K' Hf H'|m f h f' h' rest' l' K' Hf Hf' H']; subst e2 l2; try (clear H2).
    + exfalso. cbn [app] in E. destruct (latex_ends _ _ x1 (x_one n e g rest l K He H)) as [E' _]; [now rewrite E|discriminate].
    + exfalso. symmetry in E. rewrite <- !app_assoc, G1 in E. eapply no_char; [exact A'| |exact E]; toks.
    + exfalso. rewrite <- !app_assoc, G1 in E. pose proof (code_small _ _ K'). eapply no_tok; [| | |exact E]; [toks|toks|lia].
    + exfalso. symmetry in E. rewrite <- !app_assoc, G1 in E. eapply no_group; [|exact E]. toks.
    + exfalso. symmetry in E. rewrite <- !app_assoc, G1, G2 in E. eapply no_tok; [| | |exact E]; [toks|toks|lia].
    + rewrite <- !app_assoc, !G1 in E. destruct (tok_same _ _ _ _ _ _ (tok1 _ K) (tok1 _ K') E) as (_ & En & E2). apply one_inv in En. subst m.
      destruct (IHe _ _ _ _ Hf (brace_ends _) (brace_ends _) E2) as [<- <-].
      apply app_inv_head in E2. apply app_inv_head in E2. destruct (IH _ _ _ _ H' X1 X2 E2) as [-> ->]. easy.
    + exfalso. rewrite <- !app_assoc, !G1 in E. eapply no_tok; [| | |exact E]; [toks|toks|lia].
  - inversion H2 as [|c' rest' l' A' N' H'|k' c' rest' l' K' H'|f h rest' l' Hf H'|m rest' l' K' Hm H'|m f h rest' l' K' Hf H'|m f h f' h' rest' l' K' Hf Hf' H']; subst e2 l2; try (clear H2).
    + exfalso. cbn [app] in E. destruct (latex_ends _ _ x1 (x_two n e g e' g' rest l K He He' H)) as [E' _]; [now rewrite E|discriminate].
    + exfalso. symmetry in E. rewrite <- !app_assoc, G1 in E. eapply no_char; [exact A'| |exact E]; toks.
    + exfalso. rewrite <- !app_assoc, G1 in E. pose proof (code_small _ _ K'). eapply no_tok; [| | |exact E]; [toks|toks|lia].
    + exfalso. symmetry in E. rewrite <- !app_assoc, G1 in E. eapply no_group; [|exact E]. toks.
    + exfalso. symmetry in E. rewrite <- !app_assoc, G1, G2 in E. eapply no_tok; [| | |exact E]; [toks|toks|lia].
    + exfalso. rewrite <- !app_assoc, !G1 in E. eapply no_tok; [| | |exact E]; [toks|toks|lia].
    + rewrite <- !app_assoc, !G1 in E. destruct (tok_same _ _ _ _ _ _ (tok2 _ K) (tok2 _ K') E) as (_ & En & E2). apply one_inv in En. subst m.
      destruct (IHe _ _ _ _ Hf (bracket_ends _) (bracket_ends _) E2) as [<- <-].
      apply app_inv_head in E2. apply app_inv_head in E2. destruct (IHe' _ _ _ _ Hf' (brace_ends _) (brace_ends _) E2) as [<- <-].
      apply app_inv_head in E2. apply app_inv_head in E2. destruct (IH _ _ _ _ H' X1 X2 E2) as [-> ->]. easy.
Qed.
Lemma latex_same e l1 l2 : latex e l1 -> latex e l2 -> l1 = l2.
Proof. intros H1 H2. destruct (latex_go e l1 H1 e l2 [] [] H2) as [_ E]; try (now left); easy. Qed.

(** *** Items *)
Lemma first_of (c : char) a1 : forall a2 x1 x2, ~ In c a1 -> ~ In c a2 -> a1 ++ c :: x1 = a2 ++ c :: x2 -> a1 = a2 /\ x1 = x2.
Proof.
  induction a1 as [|y a1 IH]; intros [|z a2] x1 x2 H1 H2 E; cbn in E.
  - now injection E.
  - injection E as <- _. exfalso. apply H2. now left.
  - injection E as -> _. exfalso. apply H1. now left.
  - injection E as -> E. destruct (IH a2 x1 x2) as [-> ->]; try easy; intros I; [apply H1|apply H2]; now right.
Qed.
Lemma nl_ends r : ends (NL :: r). Proof. right; right; left. eauto. Qed.
Lemma item_go e1 i1 e2 i2 r1 r2 : item_source e1 i1 -> item_source e2 i2 -> e1 ++ NL :: r1 = e2 ++ NL :: r2 -> e1 = e2 /\ i1 = i2.
Proof.
  assert (Z : forall e r a b, (forall r, e <> 91%N :: r) -> txt "\item " ++ e ++ NL :: r = txt "\item [" ++ a ++ b -> False).
  { intros e r a b N E. change (txt "\item [" ++ a ++ b) with (txt "\item " ++ 91%N :: a ++ b) in E. apply app_inv_head in E.
    destruct e as [|c e]; [discriminate|]. injection E as -> _. now apply (N e). }
  intros [e l H N|a la e l Ha Hn H] [e' l' H' N'|a' la' e' l' Ha' Hn' H'] E; rewrite <- !app_assoc in E.
  - apply app_inv_head in E. destruct (latex_go _ _ H _ _ _ _ H' (nl_ends _) (nl_ends _) E) as [<- <-]. easy.
  - now apply Z in E.
  - symmetry in E. now apply Z in E.
  - apply app_inv_head in E. destruct (first_of 93%N a a' _ _ Hn Hn' E) as [<- E2].
    destruct (latex_go _ _ H _ _ _ _ H' (nl_ends _) (nl_ends _) E2) as [<- <-]. rewrite (latex_same _ _ _ Ha Ha'). easy.
Qed.
Lemma items_begin e l : items_source e l -> exists r, e = txt "\item " ++ r.
Proof.
  assert (K : forall e i, item_source e i -> exists r, e = txt "\item " ++ r).
  { intros f i [e' l' H N|a la e' l' Ha Hn H]; [eauto|]. change (txt "\item [" ++ a ++ txt "]" ++ e') with (txt "\item " ++ 91%N :: a ++ txt "]" ++ e'). eauto. }
  intros [f i H|f i rest m H _]; apply K in H as (r & ->); [eauto|]. rewrite <- app_assoc. eauto.
Qed.
Lemma items_go e1 l1 : items_source e1 l1 -> forall e2 l2 r1 r2, items_source e2 l2 ->
  e1 ++ NL :: txt "\end{" ++ r1 = e2 ++ NL :: txt "\end{" ++ r2 -> e1 = e2 /\ l1 = l2.
Proof.
  assert (Z : forall e l a b, items_source e l -> txt "\end{" ++ a = e ++ b -> False).
  { intros e l a b H E. destruct (items_begin _ _ H) as (r & ->). rewrite <- app_assoc in E. discriminate. }
  induction 1 as [e i H|e i rest l H Hr IH]; intros e2 l2 r1 r2 [e' i' H'|e' i' rest' l' H' Hr'] E.
  - destruct (item_go _ _ _ _ _ _ H H' E) as [<- <-]. easy.
  - rewrite <- !app_assoc in E. change ([NL] ++ ?x) with (NL :: x) in E. destruct (item_go _ _ _ _ _ _ H H' E) as [<- <-].
    apply app_inv_head in E. injection E as E. now apply (Z _ _ _ _ Hr') in E.
  - rewrite <- !app_assoc in E. change ([NL] ++ ?x) with (NL :: x) in E. destruct (item_go _ _ _ _ _ _ H H' E) as [<- <-].
    apply app_inv_head in E. injection E as E. symmetry in E. now apply (Z _ _ _ _ Hr) in E.
  - rewrite <- !app_assoc in E. change ([NL] ++ ?x) with (NL :: x) in E. destruct (item_go _ _ _ _ _ _ H H' E) as [<- <-].
    apply app_inv_head in E. injection E as E. destruct (IH _ _ _ _ Hr' E) as [<- <-]. easy.
Qed.

(** *** Verbatim texts *)
Lemma app_cut {A} (a b x y : list A) : a ++ x = b ++ y -> length a <= length b -> exists u, b = a ++ u /\ x = u ++ y.
Proof.
  revert b. induction a as [|c a IH]; intros b E L; [now exists b|]. destruct b as [|d b]; [cbn in L; lia|].
  cbn in E. injection E as -> E. destruct (IH b E) as (u & -> & Eu); [cbn in L; lia|]. exists u. split; [easy|exact Eu].
Qed.
Lemma mark_go t1 t2 x1 x2 : ~ contains t1 end_verbatim -> ~ contains t2 end_verbatim ->
  t1 ++ [NL] ++ end_verbatim ++ x1 = t2 ++ [NL] ++ end_verbatim ++ x2 -> t1 = t2 /\ x1 = x2.
Proof.
  assert (Z : forall t1 t2 x1 x2, length t1 <= length t2 -> ~ contains t2 end_verbatim ->
    t1 ++ [NL] ++ end_verbatim ++ x1 = t2 ++ [NL] ++ end_verbatim ++ x2 -> t1 = t2 /\ x1 = x2).
  { clear. intros t1 t2 x1 x2 L N E. destruct (app_cut _ _ _ _ E L) as (u & -> & Eu). destruct u as [|c u].
    - rewrite app_nil_r. cbn in Eu. injection Eu as <-. easy.
    - exfalso. change ([NL] ++ end_verbatim ++ x1) with (NL :: (end_verbatim ++ x1)) in Eu. change ((c :: u) ++ ?z) with (c :: (u ++ z)) in Eu.
      assert (Ec : c = NL) by (apply (f_equal (hd 0%N)) in Eu; now cbn [hd] in Eu). subst c. apply (f_equal (@tl char)) in Eu. cbn [tl] in Eu. destruct (Nat.le_gt_cases (length end_verbatim) (length u)) as [Lu|Lu].
      + destruct (app_cut _ _ _ _ Eu Lu) as (w & -> & _). apply N. exists (t1 ++ [NL]), w. now rewrite <- !app_assoc.
      + symmetry in Eu. rewrite app_assoc in Eu.
        destruct (app_cut _ _ _ _ Eu) as (w & Ew & _); [rewrite app_length; cbn [length]; lia|].
        assert (I : In NL end_verbatim) by (rewrite Ew, !in_app_iff; left; right; now left).
        vm_compute in I. intuition discriminate. }
  intros N1 N2 E. destruct (Nat.le_gt_cases (length t1) (length t2)); [now apply Z|].
  destruct (Z t2 t1 x2 x1) as [-> ->]; [lia|easy|easy|easy].
Qed.

(** *** Parts *)
Definition part_ends (x : str) : Prop := x = [] \/ (exists r, x = NL :: NL :: r) \/ (exists r, x = txt "\end{" ++ r).
Lemma part_ends_ends x : part_ends x -> ends x.
Proof. intros [->|[(r & ->)|(r & ->)]]; [now left|right; right; left; eauto|right; right; right; eauto]. Qed.
Lemma text_begin e l x y : latex e l -> e <> [] -> e ++ x = txt "\begin{" ++ y -> False.
Proof.
  intros H N E. destruct (latex_begin _ _ H) as [[? _]|[(c & r & -> & A & M)|[(r & ->)|(k & c & r & -> & K & C)]]]; [contradiction| | |].
  - cbn in E. injection E as -> _. apply A. now apply active_in.
  - discriminate.
  - rewrite <- app_assoc in E. destruct (tok_same _ _ _ _ _ _ K tok_begin E) as [-> _]. lia.
Qed.
Lemma part_go e1 p1 e2 p2 x1 x2 : part_source e1 p1 -> part_source e2 p2 -> part_ends x1 -> part_ends x2 ->
  e1 ++ x1 = e2 ++ x2 -> e1 = e2 /\ p1 = p2.
Proof.
  intros H1 H2 X1 X2 E. destruct H1 as [e l H N|t N|o e l H], H2 as [e' l' H' N'|t' N'|o' e' l' H'].
  - destruct (latex_go _ _ H _ _ _ _ H' (part_ends_ends _ X1) (part_ends_ends _ X2) E) as [<- <-]. easy.
  - exfalso. rewrite <- !app_assoc in E. exact (text_begin _ _ _ (txt "verbatim}" ++ [NL] ++ t' ++ [NL] ++ end_verbatim ++ x2) H N E).
  - exfalso. rewrite <- !app_assoc in E. exact (text_begin _ _ _ _ H N E).
  - exfalso. rewrite <- !app_assoc in E. symmetry in E. exact (text_begin _ _ _ (txt "verbatim}" ++ [NL] ++ t ++ [NL] ++ end_verbatim ++ x1) H' N' E).
  - rewrite <- !app_assoc in E. apply app_inv_head in E. apply app_inv_head in E. destruct (mark_go _ _ _ _ N N' E) as [<- _]. easy.
  - exfalso. destruct o'; discriminate.
  - exfalso. rewrite <- !app_assoc in E. symmetry in E. exact (text_begin _ _ _ _ H' N' E).
  - exfalso. destruct o; discriminate.
  - rewrite <- !app_assoc in E. apply app_inv_head in E. assert (o = o') as <- by (destruct o, o'; try easy; discriminate).
    apply app_inv_head in E. do 2 apply app_inv_head in E. change ([NL] ++ ?x) with (NL :: x) in E.
    destruct (items_go _ _ H _ _ _ _ H' E) as [<- <-]. easy.
Qed.
Lemma part_begin e p x : part_source e p -> part_ends (e ++ x) -> False.
Proof.
  intros H X. destruct H as [e l H N|t N|o e l H].
  - destruct (latex_ends _ _ _ H (part_ends_ends _ X)). contradiction.
  - destruct X as [X|[(r & X)|(r & X)]]; rewrite <- ?app_assoc in X; try discriminate.
  - destruct X as [X|[(r & X)|(r & X)]]; rewrite <- ?app_assoc in X; try discriminate.
Qed.
Lemma part_newline e p x r : part_source e p -> e ++ x = NL :: r -> False.
Proof.
  intros H X. destruct H as [e l H N|t N|o e l H]; [|discriminate|discriminate].
  destruct (latex_ends _ _ x H); [rewrite X; right; right; left; eauto|contradiction].
Qed.

(** *** Bodies *)
Definition body_ends (x : str) : Prop := x = [] \/ exists r, x = txt "\end{document}" ++ r.
Lemma body_part_ends x : body_ends x -> part_ends x.
Proof. intros [->|(r & ->)]; [now left|]. right; right. now exists (txt "document}" ++ r). Qed.
Lemma rest_ends rest x : rest = [] \/ (exists r, rest = NL :: NL :: r) -> body_ends x -> part_ends (rest ++ x).
Proof. intros [->|(r & ->)] X; [now apply body_part_ends|]. right; left. now eexists. Qed.
Lemma body_go e1 l1 : body_source e1 l1 -> forall e2 l2 x1 x2, body_source e2 l2 -> body_ends x1 -> body_ends x2 ->
  e1 ++ x1 = e2 ++ x2 -> e1 = e2 /\ l1 = l2.
Proof.
  induction 1 as [|rest l H IH|e p rest l Hp Hr H IH]; intros e2 l2 x1 x2 H2 X1 X2 E.
  - cbn in E. subst x1. destruct H2 as [|rest' l' H'|e' p' rest' l' Hp' Hr' H']; [easy| |]; exfalso.
    + destruct X1 as [X|(r & X)]; discriminate.
    + rewrite <- app_assoc in X1. apply body_part_ends in X1. eapply part_begin; eassumption.
  - destruct H2 as [|rest' l' H'|e' p' rest' l' Hp' Hr' H'].
    + exfalso. cbn in E. subst x2. destruct X2 as [X|(r & X)]; discriminate.
    + cbn in E. injection E as E. destruct (IH _ _ _ _ H' X1 X2 E) as [-> ->]. easy.
    + exfalso. cbn in E. symmetry in E. rewrite <- app_assoc in E. eapply part_newline; eassumption.
  - rewrite <- app_assoc in E. destruct H2 as [|rest' l' H'|e' p' rest' l' Hp' Hr' H'].
    + exfalso. cbn in E. subst x2. apply body_part_ends in X2. eapply part_begin; eassumption.
    + exfalso. cbn in E. eapply part_newline; eassumption.
    + rewrite <- app_assoc in E. destruct (part_go _ _ _ _ _ _ Hp Hp' (rest_ends _ _ Hr X1) (rest_ends _ _ Hr' X2) E) as [<- <-].
      apply app_inv_head in E. destruct (IH _ _ _ _ H' X1 X2 E) as [-> ->]. easy.
Qed.
Theorem body_one e l1 l2 : body_source e l1 -> body_source e l2 -> l1 = l2.
Proof. intros H1 H2. destruct (body_go e l1 H1 e l2 [] [] H2) as [_ E]; try (now left); easy. Qed.

(** *** Files *)
Lemma packages_go e1 l1 : packages_source e1 l1 -> forall e2 l2 x1 x2, packages_source e2 l2 ->
  e1 ++ txt "\begin{document}" ++ x1 = e2 ++ txt "\begin{document}" ++ x2 -> l1 = l2 /\ x1 = x2.
Proof.
  induction 1 as [|n rest l B H IH]; intros e2 l2 x1 x2 [|n' rest' l' B' H'] E.
  - split; [easy|]. exact (app_inv_head (txt "\begin{document}") _ _ E).
  - discriminate.
  - discriminate.
  - rewrite <- !app_assoc in E. apply app_inv_head in E. destruct (first_of 125%N _ _ _ _ B B' E) as [<- E2].
    apply (app_inv_head [NL]) in E2. destruct (IH _ _ _ _ H' E2) as [<- <-]. easy.
Qed.
Theorem file_one s c1 p1 l1 c2 p2 l2 : file_source s c1 p1 l1 -> file_source s c2 p2 l2 -> c1 = c2 /\ p1 = p2 /\ l1 = l2.
Proof.
  intros [class e pkgs body l B P H] H2. inversion H2 as [class' e' pkgs' body' l' B' P' H' E]; subst.
  destruct (first_of 125%N _ _ _ _ B' B E) as [-> E2]. injection E2 as E2.
  destruct (packages_go _ _ P' _ _ (body' ++ txt "\end{document}") (body ++ txt "\end{document}") P E2) as [-> E3].
  destruct (body_go _ _ H' _ _ (txt "\end{document}") (txt "\end{document}") H) as [_ ->]; try easy; right; exists []; now rewrite app_nil_r.
Qed.
