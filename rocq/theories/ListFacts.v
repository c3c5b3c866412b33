(** Proofs about markers, list grouping and reordering. *)
From Coq Require Import Permutation.
From Verif Require Import Base RopeModel ListModel ListSpec.

(** ** Decimal *)
Lemma decimal_value_app s c : decimal_value (s ++ [c]) = (10 * decimal_value s + (c - 48))%N.
Proof. unfold decimal_value. rewrite fold_left_app. reflexivity. Qed.

Lemma decimal_go_app fuel n acc : decimal_go fuel n acc = decimal_go fuel n [] ++ acc.
Proof.
  revert n acc. induction fuel as [|f IH]; intros n acc; cbn [decimal_go]; [reflexivity|].
  destruct (n <? 10)%N; [reflexivity|]. rewrite IH, (IH _ [_]), <- app_assoc. reflexivity.
Qed.
Lemma decimal_go_good fuel n : (n < 10 ^ N.of_nat fuel)%N -> 0 < fuel ->
  let s := decimal_go fuel n [] in
  decimal_value s = n /\ Forall digit s /\ match s with [] => False | c :: rest => c = 48%N -> rest = [] end.
Proof.
  revert n. induction fuel as [|f IH]; intros n L P; [lia|]. cbn [decimal_go].
  assert (M : (n mod 10 < 10)%N) by (apply N.mod_lt; lia).
  destruct (N.ltb_spec n 10) as [Sm|Sm].
  - rewrite N.mod_small in * by lia. cbn zeta. split; [|split].
    + unfold decimal_value. cbn [fold_left]. lia.
    + repeat constructor; unfold digit; lia.
    + auto.
  - rewrite decimal_go_app.
    assert (F : 0 < f). { destruct f; [|lia]. cbn in L. lia. }
    assert (L' : (n / 10 < 10 ^ N.of_nat f)%N).
    { apply N.div_lt_upper_bound; [lia|]. replace (N.of_nat (S f)) with (N.succ (N.of_nat f)) in L by lia.
      rewrite N.pow_succ_r' in L. lia. }
    destruct (IH _ L' F) as (V & D & Z). cbn zeta. split; [|split].
    + rewrite decimal_value_app, V. pose proof (N.div_mod' n 10). lia.
    + apply Forall_app. split; [assumption|]. repeat constructor; unfold digit; lia.
    + destruct (decimal_go f (n / 10) []) as [|c rest] eqn:E; [contradiction|]. cbn [app].
      intros ->. specialize (Z eq_refl). subst rest. cbn in V.
      assert (0 < n / 10)%N by (apply N.div_str_pos; lia). unfold decimal_value in V. cbn in V. lia.
Qed.
Lemma size_pow n : (n < 10 ^ N.of_nat (S (N.to_nat (N.size n))))%N.
Proof.
  destruct n as [|p]; [cbn; lia|].
  assert (H : (N.pos p < 2 ^ N.size (N.pos p))%N).
  { rewrite N.size_log2 by discriminate. apply N.log2_spec. lia. }
  eapply N.lt_le_trans; [exact H|]. rewrite Nat2N.inj_succ, N2Nat.id.
  eapply N.le_trans; [|apply N.pow_le_mono_r; [lia|apply N.le_succ_diag_r]].
  apply N.pow_le_mono_l. lia.
Qed.
Lemma decimal_good n : decimal_value (decimal n) = n /\ plain_decimal (decimal n).
Proof. apply decimal_go_good; [apply size_pow|lia]. Qed.

(** ** Roman *)
Lemma roman_while_thousands fuel n : (n < 1000 * N.of_nat fuel + 1000)%N ->
  roman_while fuel 1000 [77%N] n = (repeat 77%N (N.to_nat (n / 1000)), (n mod 1000)%N).
Proof.
  revert n. induction fuel as [|f IH]; intros n L; cbn [roman_while].
  - rewrite N.div_small, N.mod_small by lia. reflexivity.
  - destruct (N.leb_spec 1000 n) as [G|G].
    + rewrite IH by lia.
      replace (n / 1000)%N with (N.succ ((n - 1000) / 1000))%N.
      2:{ replace n with ((n - 1000) + 1 * 1000)%N at 2 by lia. rewrite N.div_add by lia. lia. }
      rewrite N2Nat.inj_succ. cbn [repeat app]. f_equal.
      replace n with ((n - 1000) + 1 * 1000)%N at 2 by lia. now rewrite N.mod_add by lia.
    + rewrite N.div_small, N.mod_small by lia. reflexivity.
Qed.
Definition below_thousand (r : N) : bool :=
  let t := nth (N.to_nat (r / 100)) roman_hundreds [] ++ nth (N.to_nat (r / 10 mod 10)) roman_tens []
           ++ nth (N.to_nat (r mod 10)) roman_units [] in
  (if list_eq_dec N.eq_dec (roman_for (tl roman_table) r) t then true else false)
  && (roman_value t =? Z.of_N r)%Z
  && (if list_eq_dec N.eq_dec (map to_upper (map ascii_lower t)) t then true else false).
Lemma below_thousand_all : forallb (fun k => below_thousand (N.of_nat k)) (seq 0 1000) = true.
Proof. vm_compute. reflexivity. Qed.
Lemma below r : (r < 1000)%N -> below_thousand r = true.
Proof.
  intros L. pose proof below_thousand_all as H. rewrite forallb_forall in H.
  specialize (H (N.to_nat r)). rewrite N2Nat.id in H. apply H. apply in_seq. lia.
Qed.
Lemma thousand_digits q r : (r < 1000)%N ->
  let n := (r + q * 1000)%N in
  (r / 100 = n / 100 mod 10)%N /\ (r / 10 mod 10 = n / 10 mod 10)%N /\ (r mod 10 = n mod 10)%N.
Proof.
  intros L n. subst n. split; [|split].
  - replace (r + q * 1000)%N with (r + q * 10 * 100)%N by lia. rewrite N.div_add by lia. rewrite N.mod_add by lia.
    rewrite N.mod_small; [reflexivity|]. apply N.div_lt_upper_bound; lia.
  - replace (r + q * 1000)%N with (r + q * 100 * 10)%N by lia. rewrite N.div_add by lia.
    replace (q * 100)%N with (q * 10 * 10)%N by lia. now rewrite N.mod_add by lia.
  - replace (r + q * 1000)%N with (r + q * 100 * 10)%N by lia. now rewrite N.mod_add by lia.
Qed.
Lemma to_roman_form n : to_roman_upper n = roman_numeral n.
Proof.
  change (to_roman_upper n) with
    (let (s, r) := roman_while (N.to_nat n) 1000 [77%N] n in s ++ roman_for (tl roman_table) r).
  rewrite roman_while_thousands by lia. unfold roman_numeral. f_equal.
  assert (L : (n mod 1000 < 1000)%N) by (apply N.mod_lt; lia).
  pose proof (below _ L) as B. unfold below_thousand in B.
  apply andb_true_iff in B as [B _]. apply andb_true_iff in B as [B _].
  destruct (list_eq_dec _ _ _) as [E|]; [|discriminate]. rewrite E.
  destruct (thousand_digits (n / 1000) (n mod 1000) L) as (E1 & E2 & E3).
  replace (n mod 1000 + n / 1000 * 1000)%N with n in * by (pose proof (N.div_mod' n 1000); lia).
  now rewrite E1, E2, E3.
Qed.
Lemma roman_digit_le c : (roman_digit c <= 1000)%Z.
Proof.
  unfold roman_digit. repeat match goal with |- context [if ?b then _ else _] => destruct b end; lia.
Qed.
Lemma roman_value_m k t : roman_value (repeat 77%N k ++ t) = (1000 * Z.of_nat k + roman_value t)%Z.
Proof.
  induction k as [|k IH]; [cbn; lia|]. cbn [repeat app]. cbn [roman_value]. rewrite IH.
  change (roman_digit 77%N) with 1000%Z.
  destruct (repeat 77%N k ++ t) as [|c' r] eqn:E; [lia|].
  pose proof (roman_digit_le c'). destruct (Z.ltb_spec 1000 (roman_digit c')); lia.
Qed.
Lemma roman_value_numeral n : roman_value (roman_numeral n) = Z.of_N n
  /\ map to_upper (map ascii_lower (roman_numeral n)) = roman_numeral n.
Proof.
  rewrite <- to_roman_form. change (to_roman_upper n) with
    (let (s, r) := roman_while (N.to_nat n) 1000 [77%N] n in s ++ roman_for (tl roman_table) r).
  rewrite roman_while_thousands by lia.
  assert (L : (n mod 1000 < 1000)%N) by (apply N.mod_lt; lia).
  pose proof (below _ L) as B. unfold below_thousand in B.
  apply andb_true_iff in B as [B Bu]. apply andb_true_iff in B as [B Bv].
  destruct (list_eq_dec _ _ _) as [E|]; [|discriminate]. rewrite E.
  destruct (list_eq_dec _ _ _) as [U|]; [|discriminate]. apply Z.eqb_eq in Bv. split.
  - rewrite roman_value_m, Bv. pose proof (N.div_mod' n 1000). lia.
  - rewrite !map_app in *. rewrite U. f_equal.
    generalize (N.to_nat (n / 1000)). intros k. induction k as [|k IH]; [reflexivity|]. cbn [repeat map]. rewrite IH. reflexivity.
Qed.

(** ** Markers *)
Lemma alpha_decimal base n : (26 < n)%N -> (58 <= base)%N -> alpha_value base (decimal n) = Z.of_N n.
Proof.
  intros L B. destruct (decimal_good n) as (V & D & _). unfold alpha_value.
  destruct (decimal n) as [|c [|c' r]] eqn:E; rewrite V; auto.
  inversion D as [|? ? Dc _]; subst. unfold digit in Dc.
  destruct (N.leb_spec base c); [lia|]. reflexivity.
Qed.
Lemma marker_body_value st n : numbered st -> (0 < n)%N -> marker_value st (marker_body st n) = Z.of_N n.
Proof.
  intros S P. destruct st; try contradiction; cbn [marker_body marker_value].
  - now rewrite (proj1 (decimal_good n)).
  - destruct (N.leb_spec n 26) as [L|L]; [|now apply alpha_decimal].
    unfold alpha_value. destruct (N.leb_spec 97 (97 + (n - 1))%N); [|lia].
    destruct (N.ltb_spec (97 + (n - 1))%N (97 + 26)%N); [|lia]. cbn [andb]. lia.
  - destruct (N.leb_spec n 26) as [L|L]; [|now apply alpha_decimal].
    unfold alpha_value. destruct (N.leb_spec 65 (65 + (n - 1))%N); [|lia].
    destruct (N.ltb_spec (65 + (n - 1))%N (65 + 26)%N); [|lia]. cbn [andb]. lia.
  - unfold to_roman_lower. rewrite to_roman_form, (proj2 (roman_value_numeral n)). apply roman_value_numeral.
  - rewrite to_roman_form. apply roman_value_numeral.
Qed.
Lemma marker_theorem prefix suffix st k : numbered st ->
  exists body, format_list_marker prefix suffix st k = prefix ++ body ++ suffix
   /\ marker_value st body = (Z.of_N k + 1)%Z.
Proof.
  intros S. exists (marker_body st (k + 1)%N). split; [reflexivity|].
  rewrite marker_body_value by (assumption || lia). lia.
Qed.
Lemma marker_distinct prefix suffix st k1 k2 : numbered st ->
  format_list_marker prefix suffix st k1 = format_list_marker prefix suffix st k2 -> k1 = k2.
Proof.
  intros S E. unfold format_list_marker in E. apply app_inv_head, app_inv_tail in E.
  pose proof (marker_body_value st (k1 + 1)%N S) as A. pose proof (marker_body_value st (k2 + 1)%N S) as B.
  rewrite E, B in A by lia. specialize (A ltac:(lia)). lia.
Qed.
Lemma marker_forms k :
  plain_decimal (marker_body Decimal (k + 1)) /\ marker_body UpperRoman (k + 1) = roman_numeral (k + 1)
  /\ map to_upper (marker_body LowerRoman (k + 1)) = roman_numeral (k + 1)
  /\ (forall st, st = LowerAlpha \/ st = UpperAlpha -> (26 <= k)%N -> marker_body st (k + 1) = marker_body Decimal (k + 1)).
Proof.
  split; [apply decimal_good|]. split; [apply to_roman_form|]. split.
  - cbn [marker_body]. unfold to_roman_lower. rewrite to_roman_form. apply roman_value_numeral.
  - intros st [->| ->] L; cbn [marker_body]; destruct (N.leb_spec (k + 1) 26); try lia; reflexivity.
Qed.

(** ** Grouping *)
Lemma style_eqb_true a b : style_eqb a b = true <-> a = b.
Proof. unfold style_eqb. destruct (style_eq_dec a b); split; congruence. Qed.

(** The list open at level [n] after some pieces, given newest first with the
    lists they got. *)
Fixpoint open_at (done : list (piece * option id)) (n : nat) : option (id * list_style) :=
  match done with
  | (Item st m, Some i) :: rest =>
      if m <? n then None else if m =? n then Some (i, st) else open_at rest n
  | _ => None
  end.
Definition level (g : grouper) (n : nat) : option (id * list_style) :=
  match nth_error g n with Some (Some x) => Some x | _ => None end.

Lemma nth_error_firstn_lt {A} (l : list A) : forall n k, k < n -> nth_error (firstn n l) k = nth_error l k.
Proof.
  induction l as [|x l IH]; intros [|n] [|k] L; cbn; auto; try lia. apply IH. lia.
Qed.
Lemma level_firstn g k n : level (firstn k g) n = if n <? k then level g n else None.
Proof.
  unfold level. destruct (Nat.ltb_spec n k) as [L|L].
  - now rewrite nth_error_firstn_lt by assumption.
  - destruct (nth_error (firstn k g) n) eqn:E; [|reflexivity].
    assert (n < length (firstn k g)) by (apply nth_error_Some; congruence).
    rewrite firstn_length in *. lia.
Qed.
Lemma level_put g k x n : level (put_level g k x) n = if n =? k then Some x else level g n.
Proof.
  unfold level. revert g n. induction k as [|k IH]; intros [|y g] [|n]; cbn [put_level nth_error Nat.eqb]; try reflexivity.
  - now destruct n.
  - rewrite IH. now destruct n.
  - apply IH.
Qed.

(** How one piece is treated, given what came before. *)
Definition treated (done : list (piece * option id)) (p : piece) (o : option id) : Prop :=
  match p with
  | Other => o = None
  | Item st n =>
      exists a, o = Some a
       /\ (open_at done n = Some (a, st)
           \/ (forall b, open_at done n <> Some (b, st)) /\ forall q, In (q, Some a) done -> False)
  end.
Fixpoint all_treated (done : list (piece * option id)) (l : list (piece * option id)) : Prop :=
  match l with
  | [] => True
  | (p, o) :: rest => treated done p o /\ all_treated ((p, o) :: done) rest
  end.

Lemma group_go_length g next ps : length (group_go g next ps) = length ps.
Proof.
  revert g next. induction ps as [|[st n|] ps IH]; intros g next; [reflexivity| |cbn; now rewrite IH].
  cbn [group_go]. destruct (try_reuse g st n) as [g' [i|]]; cbn; now rewrite IH.
Qed.
Lemma group_go_treated ps : forall g next done,
  (forall n, level g n = open_at done n) ->
  (forall q a, In (q, Some a) done -> (a < next)%N) ->
  all_treated done (combine ps (group_go g next ps)).
Proof.
  induction ps as [|[st n|] ps IH]; intros g next done G B; [exact I| |].
  - cbn [group_go]. unfold try_reuse.
    assert (L : nth_error (firstn (n + 1) g) n = nth_error g n) by (apply nth_error_firstn_lt; lia).
    rewrite L. pose proof (G n) as Gn. unfold level in Gn.
    destruct (nth_error g n) as [[[i st']|]|] eqn:E.
    + destruct (style_eqb st' st) eqn:Es.
      * apply style_eqb_true in Es. subst st'. cbn [combine all_treated]. split.
        -- exists i. split; [reflexivity|]. left. auto.
        -- apply IH.
           ++ intros m. rewrite level_firstn. cbn [open_at]. destruct (Nat.ltb_spec n m), (Nat.ltb_spec m (n + 1)); try lia; auto.
              destruct (Nat.eqb_spec n m); [subst m|auto]. rewrite G. auto.
           ++ intros q a [H|H]; [injection H as _ <-|]; [|eauto]. assert (exists q', In (q', Some i) done) as [q' H'].
              { clear -Gn. induction done as [|[[s m|] [j|]] done IH]; cbn [open_at] in Gn; try discriminate.
                destruct (m <? n); [discriminate|]. destruct (m =? n); [injection Gn as <- <-; eexists; now left|].
                destruct (IH Gn) as [q' H]. exists q'. cbn. auto. }
              eauto.
      * cbn [combine all_treated]. split.
        -- exists next. split; [reflexivity|]. right. split.
           ++ intros b Hb. rewrite <- Gn in Hb. injection Hb as -> ->.
              assert (style_eqb st st = true) by now apply style_eqb_true. congruence.
           ++ intros q H. specialize (B _ _ H). lia.
        -- apply IH.
           ++ intros m. unfold register. rewrite level_put, level_firstn. cbn [open_at].
              destruct (Nat.eqb_spec m n), (Nat.ltb_spec n m), (Nat.ltb_spec m (n + 1)), (Nat.eqb_spec n m); try lia; auto.
           ++ intros q a [H|H]; [injection H as _ <-|]; [lia|]. specialize (B _ _ H). lia.
    + cbn [combine all_treated]. split.
      * exists next. split; [reflexivity|]. right. split; [congruence|]. intros q H. specialize (B _ _ H). lia.
      * apply IH.
        -- intros m. unfold register. rewrite level_put, level_firstn. cbn [open_at].
           destruct (Nat.eqb_spec m n), (Nat.ltb_spec n m), (Nat.ltb_spec m (n + 1)), (Nat.eqb_spec n m); try lia; auto.
        -- intros q a [H|H]; [injection H as _ <-|]; [lia|]. specialize (B _ _ H). lia.
    + cbn [combine all_treated]. split.
      * exists next. split; [reflexivity|]. right. split; [congruence|]. intros q H. specialize (B _ _ H). lia.
      * apply IH.
        -- intros m. unfold register. rewrite level_put, level_firstn. cbn [open_at].
           destruct (Nat.eqb_spec m n), (Nat.ltb_spec n m), (Nat.ltb_spec m (n + 1)), (Nat.eqb_spec n m); try lia; auto.
        -- intros q a [H|H]; [injection H as _ <-|]; [lia|]. specialize (B _ _ H). lia.
  - cbn [group_go combine all_treated]. split; [reflexivity|]. apply IH.
    + intros m. cbn. unfold level. now destruct m.
    + intros q a [[=]|H]; eauto.
Qed.

(** Pieces with their lists, in order. *)
Lemma all_treated_nth l : forall done j p o, all_treated done l -> nth_error l j = Some (p, o) ->
  treated (rev (firstn j l) ++ done) p o.
Proof.
  induction l as [|[q oq] l IH]; intros done [|j] p o H E; cbn in *; try discriminate.
  - injection E as -> ->. apply H.
  - rewrite <- app_assoc. cbn. apply IH; tauto.
Qed.
Lemma firstn_S_nth {A} (l : list A) j x : nth_error l j = Some x -> firstn (S j) l = firstn j l ++ [x].
Proof.
  revert j. induction l as [|y l IH]; intros [|j] E; cbn in *; try discriminate.
  - now injection E as ->.
  - f_equal. auto.
Qed.
(** [open_at] in terms of positions. *)
Lemma open_at_found l : forall j n a st, j <= length l -> open_at (rev (firstn j l)) n = Some (a, st) ->
  exists k, k < j /\ nth_error l k = Some (Item st n, Some a)
   /\ forall k', k < k' < j -> exists st' n' o, nth_error l k' = Some (Item st' n', o) /\ n < n'.
Proof.
  induction j as [|j IH]; intros n a st J H; [discriminate|].
  destruct (nth_error l j) as [[p o]|] eqn:E; [|apply nth_error_None in E; lia].
  rewrite (firstn_S_nth _ _ _ E), rev_app_distr in H. cbn [rev app open_at] in H.
  destruct p as [st' m|]; [|discriminate]. destruct o as [i|]; [|discriminate].
  destruct (Nat.ltb_spec m n); [discriminate|]. destruct (Nat.eqb_spec m n) as [->|N].
  - injection H as -> ->. exists j. split; [lia|]. split; [assumption|]. lia.
  - destruct (IH n a st ltac:(lia) H) as (k & K & Ek & F). exists k. split; [lia|]. split; [assumption|].
    intros k' K'. destruct (Nat.eq_dec k' j) as [->|]; [|apply F; lia]. exists st', m, (Some i). split; [assumption|lia].
Qed.
Lemma open_at_here l : forall j k n a st, j <= length l -> k < j -> nth_error l k = Some (Item st n, Some a) ->
  (forall k', k < k' < j -> exists st' n' i, nth_error l k' = Some (Item st' n', Some i) /\ n < n') ->
  open_at (rev (firstn j l)) n = Some (a, st).
Proof.
  induction j as [|j IH]; intros k n a st J K E F; [lia|].
  destruct (Nat.eq_dec k j) as [->|N].
  - rewrite (firstn_S_nth _ _ _ E), rev_app_distr. cbn [rev app open_at].
    rewrite Nat.ltb_irrefl, Nat.eqb_refl. reflexivity.
  - destruct (F j ltac:(lia)) as (st' & n' & i & E' & L).
    rewrite (firstn_S_nth _ _ _ E'), rev_app_distr. cbn [rev app open_at].
    destruct (Nat.ltb_spec n' n); [lia|]. destruct (Nat.eqb_spec n' n); [lia|].
    apply (IH k); auto; [lia|lia|]. intros k' K'. apply F. lia.
Qed.

Definition linked (l : list (piece * option id)) (i j : nat) : Prop :=
  exists st n oi oj, nth_error l i = Some (Item st n, oi) /\ nth_error l j = Some (Item st n, oj)
   /\ forall k, i < k < j -> exists st' n' o, nth_error l k = Some (Item st' n', o) /\ (n < n' \/ n' = n /\ st' = st).

Section Linked.
Variable l : list (piece * option id).
Hypothesis T : all_treated [] l.
Lemma treated_at j p o : nth_error l j = Some (p, o) -> treated (rev (firstn j l)) p o.
Proof. intros E. rewrite <- (app_nil_r (rev _)). now apply all_treated_nth. Qed.
Lemma item_id j st n o : nth_error l j = Some (Item st n, o) -> exists a, o = Some a.
Proof. intros E. destruct (treated_at _ _ _ E) as (a & -> & _). eauto. Qed.
Lemma nth_length j x : nth_error l j = Some x -> j < length l.
Proof. intros E. apply nth_error_Some. congruence. Qed.
Lemma in_before j k p a : nth_error l k = Some (p, Some a) -> k < j -> In (p, Some a) (rev (firstn j l)).
Proof.
  intros E K. apply -> in_rev. apply (nth_error_In _ k). rewrite nth_error_firstn_lt by assumption. exact E.
Qed.
Lemma same_id_linked j : forall i p q a, i < j ->
  nth_error l i = Some (p, Some a) -> nth_error l j = Some (q, Some a) -> linked l i j.
Proof.
  induction j as [j IH] using lt_wf_ind. intros i p q a L Ei Ej.
  destruct q as [st n|]; [|pose proof (treated_at _ _ _ Ej) as X; cbn in X; discriminate].
  destruct (treated_at _ _ _ Ej) as (a' & [= <-] & [O|[_ F]]).
  2:{ exfalso. apply (F p). now apply (in_before j i). }
  pose proof (nth_length _ _ Ej) as Lj.
  destruct (open_at_found l j n a st ltac:(lia) O) as (k & K & Ek & D).
  destruct (lt_eq_lt_dec i k) as [[Ik| ->]|Ki].
  - destruct (IH k K i _ _ a Ik Ei Ek) as (st' & n' & oi & ok & E1 & E2 & M).
    rewrite Ek in E2. injection E2 as <- <- _. rewrite E1 in Ei. injection Ei as <- ->.
    exists st, n, (Some a), (Some a). split; [assumption|]. split; [assumption|].
    intros m Lm. destruct (lt_eq_lt_dec m k) as [[Mk| ->]|Mk].
    + apply M. lia.
    + exists st, n, (Some a). split; [assumption|]. auto.
    + destruct (D m ltac:(lia)) as (s & x & o & Em & X). exists s, x, o. auto.
  - rewrite Ek in Ei. injection Ei as <-. exists st, n, (Some a), (Some a). split; [assumption|]. split; [assumption|].
    intros m Lm. destruct (D m ltac:(lia)) as (s & x & o & Em & X). exists s, x, o. auto.
  - exfalso. destruct (D i ltac:(lia)) as (s & x & o & Em & X).
    destruct (IH i L k _ _ a Ki Ek Ei) as (st' & n' & oi & ok & E1 & E2 & _).
    rewrite Ek in E1. injection E1 as <- <- _. rewrite Em in E2. injection E2 as _ -> _. lia.
Qed.
(** The last piece at level [n] before [j]. *)
Lemma last_at n i : forall j, i < j -> j <= length l ->
  (exists st oi, nth_error l i = Some (Item st n, oi)
    /\ forall k, i < k < j -> exists st' n' o, nth_error l k = Some (Item st' n', o) /\ (n < n' \/ n' = n /\ st' = st)) ->
  exists st k a, i <= k < j /\ nth_error l k = Some (Item st n, Some a) /\ (exists oi, nth_error l i = Some (Item st n, oi))
   /\ forall k', k < k' < j -> exists st' n' b, nth_error l k' = Some (Item st' n', Some b) /\ n < n'.
Proof.
  induction j as [|j IH]; intros L J (st & oi & Ei & M); [lia|].
  destruct (Nat.eq_dec i j) as [->|N].
  - destruct (item_id _ _ _ _ Ei) as [a ->]. exists st, j, a. split; [lia|]. split; [assumption|].
    split; [eauto|]. lia.
  - destruct (M j ltac:(lia)) as (st' & n' & o & Ej & C). destruct (item_id _ _ _ _ Ej) as [b ->].
    destruct (Nat.eq_dec n' n) as [->|N'].
    + destruct C as [C|[_ ->]]; [lia|]. exists st, j, b. split; [lia|]. split; [assumption|]. split; [eauto|]. lia.
    + destruct IH as (s & k & a & K & Ek & Hi & D); [lia|lia| |].
      * exists st, oi. split; [assumption|]. intros m Lm. apply M. lia.
      * exists s, k, a. split; [lia|]. split; [assumption|]. split; [assumption|].
        intros k' K'. destruct (Nat.eq_dec k' j) as [->|]; [|apply D; lia].
        exists st', n', b. split; [assumption|]. destruct C as [C|[C _]]; lia.
Qed.
Lemma linked_same_id j : forall i p q a b, i < j ->
  nth_error l i = Some (p, Some a) -> nth_error l j = Some (q, Some b) -> linked l i j -> a = b.
Proof.
  induction j as [j IH] using lt_wf_ind. intros i p q a b L Ei Ej (st & n & oi & oj & E1 & E2 & M).
  rewrite E1 in Ei. injection Ei as <- ->. rewrite E2 in Ej. injection Ej as <- ->.
  pose proof (nth_length _ _ E2) as Lj.
  destruct (last_at n i j L ltac:(lia)) as (s & k & c & K & Ek & (o & Hi) & D); [eauto|].
  rewrite E1 in Hi. injection Hi as <- <-.
  assert (O : open_at (rev (firstn j l)) n = Some (c, st)) by (apply (open_at_here l j k); auto; lia).
  destruct (treated_at _ _ _ E2) as (b' & [= <-] & [O'|[F _]]); [|now destruct (F c)].
  rewrite O in O'. injection O' as ->.
  destruct (Nat.eq_dec i k) as [->|N]; [rewrite E1 in Ek; now injection Ek|].
  apply (IH k ltac:(lia) i (Item st n) (Item st n)); auto; [lia|].
  exists st, n, (Some a), (Some b). split; [assumption|]. split; [assumption|]. intros m Lm. apply M. lia.
Qed.
End Linked.

Lemma nth_combine {A B} (xs : list A) (ys : list B) k : length xs = length ys ->
  nth_error (combine xs ys) k =
  match nth_error xs k, nth_error ys k with Some x, Some y => Some (x, y) | _, _ => None end.
Proof.
  revert ys k. induction xs as [|x xs IH]; intros [|y ys] [|k] L; cbn in *; try discriminate; auto.
Qed.
Lemma group_theorem first ps i j a b : i < j ->
  nth_error (group_lists first ps) i = Some (Some a) -> nth_error (group_lists first ps) j = Some (Some b) ->
  (a = b <-> same_list ps i j).
Proof.
  intros L Ei Ej. unfold group_lists in *.
  set (out := group_go [] first ps) in *. set (l := combine ps out).
  assert (Len : length ps = length out) by (symmetry; apply group_go_length).
  assert (T : all_treated [] l).
  { apply group_go_treated; [|intros q x []]. intros n. unfold level. now destruct n. }
  assert (X : forall k x, nth_error out k = Some x -> exists p, nth_error ps k = Some p /\ nth_error l k = Some (p, x)).
  { intros k x E. unfold l. rewrite nth_combine by assumption. rewrite E.
    destruct (nth_error ps k) eqn:P; [eauto|]. apply nth_error_None in P.
    assert (k < length out) by (apply nth_error_Some; congruence). lia. }
  destruct (X _ _ Ei) as (p & Pi & Li). destruct (X _ _ Ej) as (q & Pj & Lj).
  assert (Y : linked l i j <-> same_list ps i j).
  { split.
    - intros (st & n & oi & oj & E1 & E2 & M). exists st, n.
      rewrite Li in E1. injection E1 as -> _. rewrite Lj in E2. injection E2 as -> _.
      split; [assumption|]. split; [assumption|]. intros k K. destruct (M k K) as (s & m & o & E & C).
      exists s, m. split; [|assumption]. unfold l in E. rewrite nth_combine in E by assumption.
      destruct (nth_error ps k), (nth_error out k); try discriminate. now injection E as -> _.
    - intros (st & n & E1 & E2 & M). exists st, n, (Some a), (Some b).
      rewrite Pi in E1. injection E1 as ->. rewrite Pj in E2. injection E2 as ->.
      split; [assumption|]. split; [assumption|]. intros k K. destruct (M k K) as (s & m & E & C).
      destruct (nth_error out k) as [o|] eqn:O.
      + exists s, m, o. split; [|assumption]. unfold l. rewrite nth_combine, E, O by assumption. reflexivity.
      + apply nth_error_None in O. assert (k < length ps) by (apply nth_error_Some; congruence). lia. }
  rewrite <- Y. split.
  - intros <-. eapply same_id_linked; eauto.
  - intros H. eapply linked_same_id; eauto.
Qed.
Lemma group_item first ps k : 
  (nth_error ps k = Some Other <-> nth_error (group_lists first ps) k = Some None)
  /\ ((exists st n, nth_error ps k = Some (Item st n)) <-> exists a, nth_error (group_lists first ps) k = Some (Some a)).
Proof.
  unfold group_lists. generalize (@nil (option (id * list_style))). revert first k.
  induction ps as [|[st n|] ps IH]; intros next k g; cbn [group_go].
  - destruct k; cbn; split; split; try discriminate; [intros (? & ? & H)|intros (? & H)|intros (? & ? & H)|intros (? & H)]; discriminate.
  - destruct (try_reuse g st n) as [g' [i|]]; destruct k as [|k]; cbn [nth_error]; try apply IH.
    + split; split; try discriminate; eauto.
    + split; split; try discriminate; eauto.
  - destruct k as [|k]; cbn [nth_error]; [|apply IH].
    split; split; auto; [intros (s & n & H); discriminate|intros (a & H); discriminate].
Qed.

(** ** Reordering *)
Lemma insert_all_split {A} (xs : list A) : forall a b, insert_all (a ++ b) (length a) xs = Ok (a ++ xs ++ b).
Proof.
  induction xs as [|x xs IH]; intros a b; [reflexivity|]. cbn [insert_all]. unfold vec_insert.
  rewrite app_length. destruct (Nat.leb_spec (length a) (length a + length b)); [|lia]. cbn [bind].
  rewrite firstn_app, firstn_all, Nat.sub_diag, skipn_app, skipn_all, Nat.sub_diag. cbn [firstn skipn app].
  rewrite app_nil_r. specialize (IH (a ++ [x]) b). rewrite app_length in IH. cbn [length] in IH.
  rewrite Nat.add_1_r, <- !app_assoc in IH. exact IH.
Qed.
Lemma reorder_exact_w current moved new_index : moved <> [] ->
  let rest := staying moved current in
  reorder current moved new_index
  = Ok (firstn (place new_index rest) rest ++ moved ++ skipn (place new_index rest) rest).
Proof.
  intros N rest. unfold reorder. destruct moved as [|x moved]; [contradiction|]. cbv zeta.
  change (filter _ current) with rest.
  assert (P : (if (new_index <? 0)%Z || (Z.of_nat (length rest) <? new_index)%Z then length rest else Z.to_nat new_index)
              = place new_index rest).
  { unfold place. destruct (Z.ltb_spec new_index 0), (Z.ltb_spec (Z.of_nat (length rest)) new_index),
      (Z.leb_spec 0 new_index), (Z.leb_spec new_index (Z.of_nat (length rest))); cbn; try lia; reflexivity. }
refine (eq_trans (f_equal (fun k => insert_all rest k (x :: moved)) P) _). assert (L : place new_index rest <= length rest).
  { unfold place. destruct (_ && _)%bool eqn:E; lia. }
  pose proof (insert_all_split (x :: moved) (firstn (place new_index rest) rest) (skipn (place new_index rest) rest)) as H.
  rewrite firstn_skipn, firstn_length_le in H by exact L. exact H.
Qed.
Lemma existsb_In i moved : existsb (N.eqb i) moved = true <-> In i moved.
Proof.
  rewrite existsb_exists. split; [intros (x & H & E); apply N.eqb_eq in E; now subst|].
  intros H. exists i. split; [assumption|apply N.eqb_refl].
Qed.
Lemma staying_perm moved : forall current, NoDup moved -> NoDup current -> incl moved current ->
  Permutation (moved ++ staying moved current) current.
Proof.
  intros current Nm Nc I. apply NoDup_Permutation; [|assumption|].
  - assert (D : NoDup (staying moved current)) by (now apply NoDup_filter).
    induction moved as [|x moved IH] using rev_ind; [exact D|].
    clear IH. revert Nm D. generalize (moved ++ [x]) as m. clear. intros m Nm D.
    assert (F : forall i, In i m -> ~ In i (staying m current)).
    { intros i Hi Hs. unfold staying in Hs. apply filter_In in Hs as [_ E]. apply existsb_In in Hi. rewrite Hi in E. discriminate. }
    revert D F. generalize (staying m current) as s. intros s D F. induction m as [|y m IH]; [exact D|].
    cbn. inversion Nm; subst. constructor; [|apply IH; auto; intros i Hi; apply F; now right].
    rewrite in_app_iff. intros [H|H]; [contradiction|]. apply (F y); [now left|assumption].
  - intros i. rewrite in_app_iff. unfold staying. rewrite filter_In. split.
    + intros [H|[H _]]; auto.
    + intros H. destruct (existsb (N.eqb i) moved) eqn:E; [left; now apply existsb_In|right; auto].
Qed.
Lemma reorder_perm_w current moved new_index : NoDup current -> NoDup moved -> incl moved current ->
  exists result, reorder current moved new_index = Ok result /\ Permutation result current /\ NoDup result.
Proof.
  intros Nc Nm I. destruct moved as [|x m] eqn:Em.
  - exists current. split; [reflexivity|]. split; [apply Permutation_refl|assumption].
  - rewrite <- Em in *. eexists. split; [apply reorder_exact_w; now rewrite Em|].
    assert (P : Permutation (firstn (place new_index (staying moved current)) (staying moved current) ++ moved
       ++ skipn (place new_index (staying moved current)) (staying moved current)) current).
    { rewrite Permutation_app_swap_app.
      rewrite firstn_skipn. now apply staying_perm. }
    split; [exact P|]. eapply Permutation_NoDup; [symmetry; exact P|assumption].
Qed.
Lemma reorder_foreign_w : exists current moved new_index result,
  NoDup current /\ NoDup moved /\ reorder current moved new_index = Ok result /\ ~ Permutation result current.
Proof.
  exists [1%N; 2%N], [7%N], 0%Z, [7%N; 1%N; 2%N]. split; [repeat constructor; cbn; lia|]. split; [repeat constructor; cbn; lia|].
  split; [reflexivity|]. intros P. apply Permutation_length in P. discriminate.
Qed.
Lemma reorder_twice_w : exists current moved new_index result,
  NoDup current /\ incl moved current /\ reorder current moved new_index = Ok result /\ ~ NoDup result.
Proof.
  exists [1%N; 2%N], [2%N; 2%N], 0%Z, [2%N; 2%N; 1%N]. split; [repeat constructor; cbn; lia|]. split; [intros i; cbn; tauto|].
  split; [reflexivity|]. intros D. inversion D as [|? ? H _]; subst. apply H. now left.
Qed.
