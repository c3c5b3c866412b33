(** Escaped text reads back as the original. *)
From Verif Require Import Base EscapeModel EscapeSpec.

(** No code is a prefix of another one, and each starts with an active character. *)
Fixpoint prefixb (a b : str) : bool :=
  match a, b with
  | [], _ => true
  | x :: a', y :: b' => (x =? y)%N && prefixb a' b'
  | _, [] => false
  end.
Definition pair_ok (p q : str * char) : bool :=
  if prefixb (fst p) (fst q) then (length (fst p) =? length (fst q)) && (snd p =? snd q)%N else true.
Definition codes_ok (codes : list (str * char)) (active : list char) : bool :=
  forallb (fun p => match fst p with c :: _ => existsb (N.eqb c) active | [] => false end
                    && forallb (pair_ok p) codes) codes.

Lemma prefix_app a b x y : a ++ x = b ++ y -> prefixb a b = true \/ prefixb b a = true.
Proof.
  revert b. induction a as [|c a IH]; intros [|e b]; cbn; auto.
  intros [= -> E]. rewrite N.eqb_refl. cbn. destruct (IH _ E) as [->| ->]; auto.
Qed.
Lemma app_same_length {A} (a b x y : list A) : length a = length b -> a ++ x = b ++ y -> x = y.
Proof.
  revert b. induction a as [|c a IH]; intros [|e b]; cbn; try discriminate; auto.
  intros [= L] [= _ E]. eauto.
Qed.
Lemma in_active c active : existsb (N.eqb c) active = true -> In c active.
Proof. rewrite existsb_exists. intros (x & H & E). apply N.eqb_eq in E. now subst. Qed.

Section Reader.
Variables (codes : list (str * char)) (active : list char).
Hypothesis good : codes_ok codes active = true.

Lemma code_head k c : In (k, c) codes -> exists a r, k = a :: r /\ In a active.
Proof.
  intros H. unfold codes_ok in good. rewrite forallb_forall in good. specialize (good _ H). cbn [fst] in good.
  apply andb_true_iff in good as [G _]. destruct k as [|a r]; [discriminate|]. eauto using in_active.
Qed.
Lemma code_same k c k' c' e e' : In (k, c) codes -> In (k', c') codes -> k ++ e = k' ++ e' -> c = c' /\ e = e'.
Proof.
  intros H H' E. unfold codes_ok in good. rewrite forallb_forall in good.
  pose proof (good _ H) as G. pose proof (good _ H') as G'.
  apply andb_true_iff in G as [_ G]. apply andb_true_iff in G' as [_ G'].
  rewrite forallb_forall in G, G'. specialize (G _ H'). specialize (G' _ H).
  unfold pair_ok in *. cbn [fst snd] in *.
  destruct (prefix_app _ _ _ _ E) as [P|P]; rewrite P in *.
  - apply andb_true_iff in G as [L C]. apply Nat.eqb_eq in L. apply N.eqb_eq in C. subst c'.
    split; [reflexivity|]. exact (app_same_length _ _ _ _ L E).
  - apply andb_true_iff in G' as [L C]. apply Nat.eqb_eq in L. apply N.eqb_eq in C. subst c'.
    split; [reflexivity|]. exact (app_same_length _ _ _ _ (eq_sym L) E).
Qed.
Lemma reads_one e t1 t2 : reads codes active e t1 -> reads codes active e t2 -> t1 = t2.
Proof.
  intros H. revert t2. induction H as [|c e t N H IH|k c e t K H IH]; intros t2 H2.
  - inversion H2 as [| |k c e t K H' E]; subst; auto.
    destruct (code_head _ _ K) as (a & r & -> & _). discriminate.
  - inversion H2 as [|c' e' t' N' H' E|k c' e' t' K H' E]; subst; [f_equal; auto|].
    destruct (code_head _ _ K) as (a & r & -> & A). injection E as -> _. contradiction.
  - inversion H2 as [E|c' e' t' N' H' E|k' c' e' t' K' H' E]; subst.
    + destruct (code_head _ _ K) as (a & r & -> & _). discriminate.
    + destruct (code_head _ _ K) as (a & r & -> & A). injection E as -> _. contradiction.
    + destruct (code_same _ _ _ _ _ _ K' K E) as [-> ->]. f_equal. auto.
Qed.
(** A character-wise escape reads back. *)
Definition char_ok (f : char -> str) (c : char) : Prop := f c = [c] /\ ~ In c active \/ In (f c, c) codes.
Lemma reads_flat f s : (forall c, char_ok f c) -> reads codes active (flat_map f s) s.
Proof.
  intros H. induction s as [|c s IH]; cbn; [constructor|].
  destruct (H c) as [[E N]|K]; [rewrite E; now constructor|now constructor].
Qed.
End Reader.

(** Passes one after the other are one pass. *)
Definition html_one (c : char) : str :=
  (if c =? 38 then e_amp else if c =? 60 then e_lt else if c =? 62 then e_gt
   else if c =? 34 then e_quot else if c =? 39 then e_apos else if c =? 13 then e_cr else [c])%N.
Lemma replace_flat c b (f : char -> str) (s : str) : replace_char c b (flat_map f s) = flat_map (fun x => replace_char c b (f x)) s.
Proof.
  induction s as [|x s IH]; cbn [flat_map]; [reflexivity|]. rewrite <- IH. unfold replace_char. apply flat_map_app.
Qed.
Lemma escape_html_flat s : escape_html s = flat_map html_one s.
Proof.
  unfold escape_html. unfold replace_char at 6. rewrite !replace_flat. apply flat_map_ext. intros c.
  unfold html_one.
  destruct (N.eqb_spec c 38); [reflexivity|]. unfold replace_char. cbn [flat_map]. rewrite app_nil_r.
  repeat match goal with |- context [(c =? ?k)%N] =>
    destruct (N.eqb_spec c k); [subst c; try reflexivity|cbn [flat_map app]; rewrite ?app_nil_r] end.
  reflexivity.
Qed.
Lemma escape_html_fragment_flat s : escape_html_fragment s = flat_map html_one s.
Proof.
  unfold escape_html_fragment. apply flat_map_ext. intros c. unfold html_one.
  repeat match goal with |- context [(c =? ?k)%N] => destruct (N.eqb_spec c k); [subst c; reflexivity|] end.
  destruct c as [|p]; [reflexivity|].
  repeat (match goal with |- context [match ?q with xI _ => _ | xO _ => _ | xH => _ end] => destruct q end; try reflexivity; try lia).
Qed.
Lemma html_ok c : char_ok html_codes html_active html_one c.
Proof.
  unfold char_ok, html_one.
  repeat match goal with |- context [(c =? ?k)%N] =>
    destruct (N.eqb_spec c k); [subst c; right; cbn; tauto|] end.
  left. split; [reflexivity|]. cbn. intuition.
Qed.
Lemma html_codes_ok : codes_ok html_codes html_active = true.
Proof. reflexivity. Qed.
Lemma html_reads s :
  reads html_codes html_active (escape_html s) s /\ reads html_codes html_active (escape_html_fragment s) s.
Proof. rewrite escape_html_flat, escape_html_fragment_flat. split; apply reads_flat; apply html_ok. Qed.

Lemma md_codes_ok active : In 92%N active -> codes_ok md_codes active = true.
Proof.
  intros H. unfold codes_ok. rewrite forallb_forall. intros p I.
  assert (E : forallb (fun p => forallb (pair_ok p) md_codes) md_codes = true) by (vm_compute; reflexivity).
  rewrite forallb_forall in E. rewrite (E _ I), andb_true_r.
  unfold md_codes in I. apply in_map_iff in I as (c & <- & _). cbn [fst].
  rewrite existsb_exists. exists 92%N. now rewrite N.eqb_refl.
Qed.
Lemma md_ok set active c : (forall x, In x set -> In x ascii_punctuation) -> (forall x, In x active -> In x set) ->
  char_ok md_codes active (fun c => if existsb (N.eqb c) set then [92%N; c] else [c]) c.
Proof.
  intros S A. unfold char_ok. destruct (existsb (N.eqb c) set) eqn:E.
  - right. apply in_active in E. unfold md_codes. apply in_map_iff. eauto.
  - left. split; [reflexivity|]. intros I. apply A in I.
    assert (existsb (N.eqb c) set = true) by (rewrite existsb_exists; exists c; now rewrite N.eqb_refl). congruence.
Qed.
Lemma subset_by_compute (a b : list char) : forallb (fun x => existsb (N.eqb x) b) a = true -> forall x, In x a -> In x b.
Proof. rewrite forallb_forall. intros H x I. apply in_active. auto. Qed.
Lemma md_export_reads s : reads md_codes md_most (escape_markdown s) s.
Proof.
  apply reads_flat. intros c. apply md_ok; apply subset_by_compute; reflexivity.
Qed.
Lemma md_fragment_reads s : reads md_codes (96%N :: 60%N :: md_most) (escape_markdown_fragment s) s.
Proof.
  apply reads_flat. intros c. apply md_ok; apply subset_by_compute; reflexivity.
Qed.
Lemma reads_single codes active c t : codes_ok codes active = true -> (forall k x, In (k, x) codes -> length k > 1) ->
  In c active -> ~ reads codes active [c] t.
Proof.
  intros G L I H. inversion H as [|x e u N H' E|k x e u K H' E]; subst; [contradiction|].
  specialize (L _ _ K). destruct k as [|a [|b k]]; cbn in *; try lia. discriminate.
Qed.
Lemma md_code_length k x : In (k, x) md_codes -> length k > 1.
Proof. unfold md_codes. intros H. apply in_map_iff in H as (c & [= <- _] & _). cbn. lia. Qed.
Lemma md_backtick_refuted_w : exists s, ~ reads md_codes md_active (escape_markdown s) s.
Proof.
  exists [96%N]. apply (reads_single md_codes md_active 96%N); [apply md_codes_ok|apply md_code_length|]; cbn; tauto.
Qed.
Lemma md_reference_refuted_w : exists s, ~ reads md_codes md_active (escape_markdown_fragment s) s.
Proof.
  exists [38%N]. apply (reads_single md_codes md_active 38%N); [apply md_codes_ok|apply md_code_length|]; cbn; tauto.
Qed.

Definition latex_one (c : char) : str :=
  (if c =? 92 then l_backslash else if c =? 38 then [92; 38] else if c =? 37 then [92; 37] else if c =? 36 then [92; 36]
   else if c =? 35 then [92; 35] else if c =? 95 then [92; 95] else if c =? 123 then [92; 123]
   else if c =? 125 then [92; 125] else if c =? 126 then l_tilde else if c =? 94 then l_circ else [c])%N.
Lemma escape_latex_flat s : escape_latex s = flat_map latex_one s.
Proof.
  unfold escape_latex. apply flat_map_ext. intros c. unfold latex_one.
  repeat match goal with |- context [(c =? ?k)%N] => destruct (N.eqb_spec c k); [subst c; reflexivity|] end.
  destruct c as [|p]; [reflexivity|].
  repeat (match goal with |- context [match ?q with xI _ => _ | xO _ => _ | xH => _ end] => destruct q end; try reflexivity; try lia).
Qed.
Lemma latex_reads s : reads latex_codes latex_active (escape_latex s) s.
Proof.
  rewrite escape_latex_flat. apply reads_flat. intros c. unfold char_ok, latex_one.
  repeat match goal with |- context [(c =? ?k)%N] =>
    destruct (N.eqb_spec c k); [subst c; right; cbn; tauto|] end.
  left. split; [reflexivity|]. cbn. intuition.
Qed.
Lemma latex_codes_ok : codes_ok latex_codes latex_active = true.
Proof. vm_compute. reflexivity. Qed.
