(** Facts on change reports. *)
From Verif Require Import Base BaseFacts DiffModel DiffSpec.

Lemma skipn_skipn {A} n m (l : list A) : skipn n (skipn m l) = skipn (n + m) l.
Proof. rewrite Nat.add_comm. revert l. induction m as [|m IH]; intros [|x l]; cbn; auto. now destruct n. Qed.

Section Diff.
Context {A : Type} (eqb : A -> A -> bool) (eqb_eq : forall x y, eqb x y = true -> x = y).

Lemma common_le a : forall b, common eqb a b <= length a /\ common eqb a b <= length b.
Proof. induction a as [|x a IH]; intros [|y b]; cbn; try lia. destruct (eqb x y); [|lia]. specialize (IH b). lia. Qed.
Lemma common_firstn a : forall b, firstn (common eqb a b) a = firstn (common eqb a b) b.
Proof.
  induction a as [|x a IH]; intros [|y b]; cbn; try easy. destruct (eqb x y) eqn:E; [|easy].
  apply eqb_eq in E. subst y. cbn. now rewrite IH.
Qed.
Lemma rev_tail (l : list A) k : k <= length l -> rev (firstn k (rev l)) = skipn (length l - k) l.
Proof. intros H. rewrite firstn_rev, rev_involutive. easy. Qed.

(** The texts agree before and after the reported region. *)
Lemma text_edit_facts before after :
  let '(p, r, a) := compute_text_edit eqb before after in
  p + r <= length before /\ p + a <= length after
  /\ firstn p before = firstn p after /\ skipn (p + r) before = skipn (p + a) after.
Proof.
  unfold compute_text_edit. set (p := common eqb before after).
  set (m := Nat.min (length before - p) (length after - p)).
  set (x := firstn m (rev before)). set (y := firstn m (rev after)). set (s := common eqb x y).
  destruct (common_le before after) as [L1 L2]. fold p in L1, L2.
  destruct (common_le x y) as [M1 M2]. fold s in M1, M2.
  assert (Lx : length x = m) by (unfold x; rewrite firstn_length, rev_length; lia).
  assert (Ly : length y = m) by (unfold y; rewrite firstn_length, rev_length; lia).
  split; [lia|]. split; [lia|]. split; [apply common_firstn|].
  replace (p + (length before - p - s)) with (length before - s) by lia.
  replace (p + (length after - p - s)) with (length after - s) by lia.
  rewrite <- !rev_tail by lia. f_equal.
  transitivity (firstn s x); [unfold x; rewrite firstn_firstn; f_equal; lia|].
  rewrite (common_firstn x y : firstn s x = firstn s y). unfold y. rewrite firstn_firstn. f_equal. lia.
Qed.

Lemma text_edit_same l : (forall x, eqb x x = true) -> compute_text_edit eqb l l = (length l, 0, 0).
Proof.
  intros R. unfold compute_text_edit. assert (C : forall l, common eqb l l = length l).
  { induction l0 as [|x l0 IH]; cbn; [easy|]. now rewrite R, IH. }
  rewrite C, Nat.sub_diag. easy.
Qed.

(** What the flow events do to a listener's copy of the list. *)
Lemma flow_facts old new :
  let p := common eqb old new in
  let s := common eqb (rev (skipn p old)) (rev (skipn p new)) in
  p + s <= length old /\ p + s <= length new
  /\ firstn p old = firstn p new /\ skipn (length old - s) old = skipn (length new - s) new.
Proof.
  intros p s. destruct (common_le old new) as [L1 L2]. fold p in L1, L2.
  destruct (common_le (rev (skipn p old)) (rev (skipn p new))) as [M1 M2]. fold s in M1, M2.
  rewrite rev_length, skipn_length in M1, M2.
  split; [lia|]. split; [lia|]. split; [apply common_firstn|].
  assert (Q : forall l : list A, p + s <= length l -> skipn (length l - s) l = rev (firstn s (rev (skipn p l)))).
  { intros l Hl. rewrite rev_tail by (rewrite skipn_length; lia). rewrite skipn_skipn, skipn_length. f_equal. lia. }
  rewrite !Q by lia. f_equal. apply (common_firstn _ _).
Qed.
End Diff.

(** ** Positions *)

Lemma adjust_mono x y e r a : x <= y -> adjust_offset x e r a <= adjust_offset y e r a.
Proof. unfold adjust_offset. intros. destruct (Nat.leb_spec x e), (Nat.leb_spec y e), (Nat.leb_spec x (e + r)), (Nat.leb_spec y (e + r)); lia. Qed.

Lemma adjust_facts {A} (l l' : list A) e r a x :
  e + r <= length l -> e + a <= length l' -> firstn e l = firstn e l' -> skipn (e + r) l = skipn (e + a) l' ->
  let x' := adjust_offset x e r a in
  (x <= e -> x' = x /\ firstn x' l' = firstn x l)
  /\ (e < x -> e + r <= x -> x' + r = x + a /\ skipn x' l' = skipn x l)
  /\ (e < x <= e + r -> x' = e + a)
  /\ (x <= length l -> x' <= length l').
Proof.
  intros H1 H2 Hf Hs x'. unfold x', adjust_offset. assert (Hl : length l + a = length l' + r).
  { pose proof (f_equal (@length A) Hs) as E. rewrite !skipn_length in E. lia. }
  split; [|split; [|split]].
  - intros Hx. rewrite (proj2 (Nat.leb_le _ _) Hx). split; [easy|].
    assert (Hx' : firstn x (firstn e l') = firstn x (firstn e l)) by congruence.
    rewrite !firstn_firstn in Hx'. now rewrite Nat.min_l in Hx' by easy.
  - intros Hx Hr. destruct (Nat.leb_spec x e); [lia|].
    assert (Q : forall y, y + r = x + a -> skipn y l' = skipn x l).
    { intros y Hy. replace y with ((y - (e + a)) + (e + a)) by lia. rewrite <- skipn_skipn, <- Hs, skipn_skipn. f_equal. lia. }
    destruct (Nat.leb_spec x (e + r)); split; try lia; apply Q; lia.
  - intros [Hx Hr]. destruct (Nat.leb_spec x e); [lia|]. now rewrite (proj2 (Nat.leb_le _ _) Hr).
  - intros Hx. destruct (Nat.leb_spec x e); [lia|]. destruct (Nat.leb_spec x (e + r)); lia.
Qed.

(** ** The event after undo and redo *)

Definition lined (ts : list str) : str := flat_map (fun t => t ++ [NL]) ts.
Lemma lined_join t ts : lined (t :: ts) = join_nl (t :: ts) ++ [NL].
Proof.
  revert t. induction ts as [|u ts IH]; intros t.
  - cbn. now rewrite app_nil_r.
  - change (lined (t :: u :: ts)) with ((t ++ [NL]) ++ lined (u :: ts)).
    change (join_nl (t :: u :: ts)) with (t ++ NL :: join_nl (u :: ts)). rewrite IH, <- !app_assoc. reflexivity.
Qed.
Lemma lined_app a b : lined (a ++ b) = lined a ++ lined b. Proof. apply flat_map_app. Qed.
Lemma str_eqb_spec a b : str_eqb a b = true <-> a = b.
Proof. unfold str_eqb. destruct (list_eq_dec N.eq_dec a b); split; congruence. Qed.

(** Region found so far, on texts where every block ends with a line feed. *)
Definition region_ok (r : region) (T T' : str) : Prop :=
  match rg_pos r with
  | None => T = T' /\ rg_old r = 0 /\ rg_new r = 0
  | Some p => exists pre old new suf, T = pre ++ old ++ suf ++ [NL] /\ T' = pre ++ new ++ suf ++ [NL]
      /\ length pre = p /\ length (pre ++ old) = rg_old r /\ length (pre ++ new) = rg_new r
  end.

Section Event.
Context {F : Type}.
Implicit Types (l b : list (bstate F)) (a : bstate F).
Local Notation texts := (map (@bs_text F)).

Lemma placed_app n l : forall m, placed m (n ++ l) -> placed m n /\ placed (m + length (lined (texts n))) l.
Proof.
  induction n as [|s n IH]; intros m; cbn.
  - now rewrite Nat.add_0_r.
  - intros [H1 H2]. destruct (IH _ H2) as [K1 K2]. split; [easy|].
    change (flat_map (fun t0 : str => t0 ++ [NL]) (texts n)) with (lined (texts n)).
    rewrite !app_length. cbn. replace (m + (length (bs_text s) + 1 + length (lined (texts n)))) with (m + length (bs_text s) + 1 + length (lined (texts n))) by lia. easy.
Qed.

Lemma find_state_app P s Q : NoDup (map bs_id (P ++ s :: Q)) -> find_state (P ++ s :: Q) (bs_id s) = Some (s : bstate F).
Proof.
  unfold find_state. induction P as [|x P IH]; cbn; intros N.
  - now rewrite N.eqb_refl.
  - inversion N as [|? ? Hx N']; subst. destruct (N.eqb_spec (bs_id x) (bs_id s)) as [E|_]; [|auto].
    exfalso. apply Hx. rewrite map_app, in_app_iff. right. left. easy.
Qed.

Lemma region_step before P s Q a T' : NoDup (map bs_id before) -> before = P ++ s :: Q -> placed 0 before ->
  bs_id a = bs_id s -> bs_pos a = length T' ->
  forall r, region_ok r (lined (texts P)) T' ->
  region_ok (region_after before r a) (lined (texts (P ++ [s]))) (T' ++ bs_text a ++ [NL]).
Proof.
  intros N E Pl Ei Ep r R. unfold region_after. rewrite Ei, E, find_state_app by (now rewrite <- E).
  rewrite E in Pl. apply placed_app in Pl. destruct Pl as [_ [Hs _]]. cbn in Hs.
  rewrite map_app, lined_app. cbn [map lined flat_map]. rewrite app_nil_r.
  set (T := lined (texts P)) in *. unfold region_ok in *.
  destruct (str_eqb (bs_text s) (bs_text a)) eqn:Et.
  - apply str_eqb_spec in Et. rewrite Et. destruct (rg_pos r) as [p|].
    + destruct R as (pre & old & new & suf & -> & -> & L). exists pre, old, new, (suf ++ [NL] ++ bs_text a).
      rewrite <- !app_assoc. auto.
    + destruct R as (-> & R). auto.
  - cbn [rg_pos earliest rg_old rg_new]. unfold earliest. destruct (rg_pos r) as [p|].
    + destruct R as (pre & old & new & suf & ET & ET' & L1 & L2 & L3).
      exists pre, (old ++ suf ++ [NL] ++ bs_text s), (new ++ suf ++ [NL] ++ bs_text a), [].
      rewrite Hs, Ep, ET, ET'. cbn [app]. rewrite <- !app_assoc. split; [easy|]. split; [easy|].
      rewrite !app_length in *. cbn [length] in *. lia.
    + destruct R as (E1 & R2 & R3). exists T, (bs_text s), (bs_text a), []. cbn [app]. rewrite <- E1. split; [easy|]. split; [easy|].
      rewrite Hs, Ep, !app_length, R2, R3, <- E1. cbn. lia.
Qed.

Lemma region_fold before : NoDup (map bs_id before) -> placed 0 before -> forall after2 P Q r T',
  before = P ++ Q -> map bs_id after2 = map bs_id Q -> placed (length T') after2 -> region_ok r (lined (texts P)) T' ->
  region_ok (fold_left (region_after before) after2 r) (lined (texts before)) (T' ++ lined (texts after2)).
Proof.
  intros N Pl. induction after2 as [|a after2 IH]; intros P Q r T' E Ei Pa R.
  - destruct Q; [|easy]. rewrite app_nil_r in E. subst. cbn. now rewrite app_nil_r.
  - destruct Q as [|s Q]; [easy|]. cbn in Ei. injection Ei as Ei Eis. cbn in Pa. destruct Pa as [Pa Pa2].
    cbn [fold_left map]. replace (T' ++ lined (bs_text a :: texts after2)) with ((T' ++ bs_text a ++ [NL]) ++ lined (texts after2))
      by (cbn; now rewrite <- !app_assoc).
    apply (IH (P ++ [s]) Q).
    + now rewrite <- app_assoc.
    + easy.
    + rewrite !app_length. cbn. replace (length T' + (length (bs_text a) + 1)) with (length T' + length (bs_text a) + 1) by lia. easy.
    + apply (region_step before P s Q a T'); auto.
Qed.

Lemma region_before_none after b : forall r, (forall s, In s b -> In (bs_id s) (map bs_id after)) ->
  fold_left (region_before after) b r = (r : region).
Proof.
  induction b as [|s b IH]; intros r H; cbn; [easy|].
  assert (E : region_before after r s = r).
  { unfold region_before. destruct (find_state after (bs_id s)) eqn:Ef; [easy|]. exfalso.
    destruct (proj1 (in_map_iff _ _ _) (H s (or_introl eq_refl))) as (x & Ex & Hx).
    apply (find_none _ _ Ef) in Hx. cbn in Hx. rewrite Ex, N.eqb_refl in Hx. easy. }
  rewrite E. apply IH. intros x Hx. apply H. now right.
Qed.
End Event.

Lemma undo_event_facts {F} (before after : list (bstate F)) :
  NoDup (map bs_id before) -> map bs_id after = map bs_id before -> placed 0 before -> placed 0 after ->
  match undo_event before after with
  | None => build_doc_text before = build_doc_text after
  | Some (p, r, a, _) =>
      p + r <= length (build_doc_text before) /\ p + a <= length (build_doc_text after)
      /\ firstn p (build_doc_text before) = firstn p (build_doc_text after)
      /\ skipn (p + r) (build_doc_text before) = skipn (p + a) (build_doc_text after)
  end.
Proof.
  intros N Ei Pb Pa. unfold undo_event.
  rewrite (region_before_none after before) by (intros s Hs; rewrite Ei; now apply in_map).
  assert (R : region_ok (fold_left (region_after before) after (mk_region None 0 0 0)) (lined (map bs_text before)) (lined (map bs_text after))).
  { apply (region_fold before N Pb after [] before _ []); auto. cbn. auto. }
  destruct before as [|b0 before].
  { destruct after; [|easy]. cbn. easy. }
  destruct after as [|a0 after]; [easy|]. unfold region_ok in R. unfold build_doc_text.
  cbn [map] in *. rewrite !lined_join in R.
  set (J := join_nl (bs_text b0 :: map bs_text before)) in *. set (J' := join_nl (bs_text a0 :: map bs_text after)) in *.
  destruct (rg_pos _) as [p|].
  - destruct R as (pre & old & new & suf & E1 & E2 & L1 & L2 & L3).
    rewrite !app_assoc in E1, E2. apply app_inj_tail in E1, E2. destruct E1 as [-> _], E2 as [-> _].
    rewrite <- L2, <- L3, <- L1. rewrite !app_length. replace (length pre + length old - length pre) with (length old) by lia.
    replace (length pre + length new - length pre) with (length new) by lia.
    split; [lia|]. split; [lia|]. rewrite <- !app_length, <- !(app_assoc pre).
    split; [now rewrite !firstn_exact|]. rewrite !app_assoc. now rewrite !skipn_exact.
  - destruct R as (E & _). now apply app_inj_tail in E.
Qed.
