(** Facts about deleting over cells. *)
From Coq Require Import Sorting.Permutation Sorting.Sorted.
From Verif Require Import Base BaseFacts RopeModel RopeSpec RopeFacts TableModel TableSpec TableFacts TableTextModel TableTextSpec TableTextFacts TableTextEdits TableTextTheorems
  TableEditModel TableEditSpec TableEditFacts TableEditSteps TableEditTheorems XCopyFacts XDeleteModel XDeleteSpec XDeleteRope.
Local Open Scope Z_scope.
Local Notation lengths := TableTextTheorems.lengths.

Definition touchb (s e : Z) (b : tblock) : bool := (s <=? tb_pos b + tb_len b) && (tb_pos b <=? e).
Definition zero (s e : Z) (b : tblock) : tblock := if touchb s e b then mk_tblock (tb_id b) (tb_pos b) 0 else b.
Lemma zero_id s e b : tb_id (zero s e b) = tb_id b.
Proof. unfold zero. now destruct (touchb s e b). Qed.
Definition own (d : tdoc) (b : tblock) : id := match cell_with d (tb_id b) with Some c => c | None => 0%N end.

(** ** The cells met *)
Lemma met_cells_all st d s e : forall bs seen, lens st bs -> (forall b, In b bs -> touchb s e b = true -> cell_with d (tb_id b) <> None) ->
  NoDup (map (own d) (filter (touchb s e) bs)) -> (forall b, In b bs -> touchb s e b = true -> ~ In (own d b) seen) ->
  met_cells st d bs s e seen = Ok (map (own d) (filter (touchb s e) bs)).
Proof.
  induction bs as [|b bs IH]; intros sn L O N D; [easy|]. cbn [met_cells filter]. rewrite (L b (or_introl eq_refl)). cbn [bind].
  assert (L' : lens st bs) by (intros y Hy; apply L; now right). assert (O' : forall y, In y bs -> touchb s e y = true -> cell_with d (tb_id y) <> None) by (intros y Hy; apply O; now right).
  cbn [filter] in N. fold (touchb s e b). destruct (touchb s e b) eqn:T.
  - assert (Ob := O b (or_introl eq_refl) T). destruct (cell_with d (tb_id b)) as [c|] eqn:C; [|easy]. assert (Ec : own d b = c) by (unfold own; now rewrite C).
    cbn [map] in N |- *. inversion N as [|? ? N1 N2]; subst.
    assert (X : existsb (N.eqb (own d b)) sn = false). { destruct (existsb (N.eqb (own d b)) sn) eqn:X; [|easy]. apply existsb_exists in X. destruct X as (i & Hi & E). apply N.eqb_eq in E. subst i. exfalso. exact (D b (or_introl eq_refl) T Hi). }
    rewrite X. cbn [negb andb]. rewrite IH; [easy|easy|easy|easy|]. intros y Hy Ty [E|Hs]; [|exact (D y (or_intror Hy) Ty Hs)]. apply N1. rewrite E. apply in_map, filter_In. now split.
  - assert (E : forall sn', (forall y, In y bs -> touchb s e y = true -> ~ In (own d y) sn') -> met_cells st d bs s e sn' = Ok (map (own d) (filter (touchb s e) bs))) by (intros sn' D'; now apply IH).
    destruct (cell_with d (tb_id b)) as [c|]; apply E; intros y Hy; apply D; now right.
Qed.
(** ** Clearing them *)
Lemma clear_cells_all d own0 : forall hs st l, held st l ->
  (forall b, In b hs -> exists c, cell_named d (own0 b) = Some c /\ tc_blocks c = [b]) ->
  (forall b, In b hs -> exists t, In (MBlock (tb_id b), t) l /\ tb_len b = Z.of_nat (length t)) -> NoDup (block_ids hs) ->
  exists st' l', clear_cells st d (map own0 hs) = Ok (st', lengths hs) /\ held st' l'
   /\ forall i t, In (MBlock i, t) l -> In (MBlock i, if existsb (N.eqb i) (block_ids hs) then [] else t) l'.
Proof.
  induction hs as [|b hs IH]; intros st l H C T N; [exists st, l; now split|].
  destruct (C b (or_introl eq_refl)) as (c & Ec & Eb). destruct (T b (or_introl eq_refl)) as (t & Ht & El). cbn [map clear_cells]. rewrite Ec, Eb. cbn [sort_tblocks fold_right put_block total_length].
  destruct (held_content _ _ _ _ H Ht) as [_ Hn]. unfold len_in at 1. rewrite Hn. cbn [bind].
  destruct (clear_held st l (tb_id b) H) as (st1 & E1 & H1); [apply in_map_iff; now exists (MBlock (tb_id b), t)|]. rewrite E1. cbn [bind].
  cbn [block_ids map] in N. inversion N as [|? ? N1 N2]; subst.
  destruct (IH st1 _ H1 (fun y Hy => C y (or_intror Hy))) as (st2 & l2 & E2 & H2 & F); [|exact N2|].
  { intros y Hy. destruct (T y (or_intror Hy)) as (u & Hu & Lu). exists u. split; [|easy]. apply in_retext; [easy|]. intros E. injection E as E. apply N1. unfold block_ids. rewrite <- E. now apply in_map. }
  rewrite E2. cbn [bind]. exists st2, l2. split; [|split; [easy|]].
  - cbn [lengths fold_right]. fold (lengths hs). rewrite El. do 2 f_equal. lia.
  - intros i u Hu. cbn [block_ids map existsb]. fold (block_ids hs). destruct (N.eqb_spec i (tb_id b)) as [->|Ne]; cbn [orb].
    + assert (X : In (MBlock (tb_id b), @nil char) (map (retext (MBlock (tb_id b)) []) l)) by (apply in_retext_self, in_map_iff; now exists (MBlock (tb_id b), t)).
      apply F in X. now destruct (existsb (N.eqb (tb_id b)) (block_ids hs)).
    + apply F. apply in_retext; [easy|congruence].
Qed.
(** ** Nothing outside *)
Lemma none_outside st d s e : forall bs, (forall b, In b bs -> exists n, len_in st b = Ok n /\ (touchb s e b = false -> n = tb_len b) /\ (touchb s e b = true -> cell_with d (tb_id b) <> None)) ->
  met_outside st d bs s e = Ok [].
Proof.
  induction bs as [|b bs IH]; intros F; [easy|]. cbn [met_outside]. destruct (F b (or_introl eq_refl)) as (n & E & A & B). rewrite E. cbn [bind]. rewrite (IH (fun y Hy => F y (or_intror Hy))). cbn [bind]. f_equal.
  unfold touchb in *. destruct ((tb_pos b + n <? s) || (e <=? tb_pos b)) eqn:Q; [easy|]. apply orb_false_iff in Q. destruct Q as [Q1 Q2]. apply Z.ltb_ge in Q1. apply Z.leb_gt in Q2.
  destruct ((s <=? tb_pos b + tb_len b) && (tb_pos b <=? e)) eqn:T; [specialize (B eq_refl); now destruct (cell_with d (tb_id b))|].
  specialize (A eq_refl). subst n. apply andb_false_iff in T. rewrite Z.leb_gt, Z.leb_gt in T. lia.
Qed.
Lemma left_all bs : left_outside [] [] bs = bs.
Proof. unfold left_outside. induction bs as [|b bs IH]; [easy|]. cbn [existsb negb] in *. cbn [filter map]. f_equal. exact IH. Qed.
Lemma reads_map f l : (forall c, tc_row (f c) = tc_row c /\ tc_col (f c) = tc_col c) -> reads l -> reads (map f l).
Proof.
  intros F. unfold reads. induction 1 as [|c l _ IH H]; cbn [map]; constructor; [easy|]. apply Forall_map. apply (Forall_impl _ (P := fun b => tc_row c < tc_row b \/ tc_row c = tc_row b /\ tc_col c < tc_col b)); [|easy].
  intros b X. destruct (F c) as [-> ->], (F b) as [-> ->]. exact X.
Qed.
(** ** The texts *)
Fixpoint blanked (s e : Z) (bs : list tblock) (ts : list str) : list str :=
  match bs, ts with b :: bs, t :: ts => (if touchb s e b then [] else t) :: blanked s e bs ts | _, _ => [] end.
Lemma blanked_length s e : forall bs ts, length bs = length ts -> length (blanked s e bs ts) = length ts.
Proof. induction bs as [|b bs IH]; intros [|t ts] E; try discriminate; [easy|]. cbn in *. f_equal. apply IH. lia. Qed.
Lemma blanked_nth s e : forall bs ts k b t, nth_error bs k = Some b -> nth_error ts k = Some t -> nth_error (blanked s e bs ts) k = Some (if touchb s e b then [] else t).
Proof. induction bs as [|y bs IH]; intros [|u ts] [|k] b t E1 E2; try discriminate; cbn in *; [now injection E1 as ->; injection E2 as ->|now apply IH]. Qed.
Lemma blanked_texts s e x x' : forall bs ts, seen x bs ts -> (forall b t, In b bs -> known x b t -> text_of x' (tb_id b) = Ok (if touchb s e b then [] else t)) ->
  map (fun b => text_of x' (tb_id b)) (map (zero s e) bs) = map Ok (blanked s e bs ts).
Proof.
  induction 1 as [|b t bs ts K _ IH]; intros F; [easy|]. cbn [map blanked]. rewrite zero_id, (F b t (or_introl eq_refl) K), IH; [easy|]. intros; apply F; [now right|easy].
Qed.
Lemma blanked_chars s e x : forall bs ts, seen x bs ts -> Z.of_nat (length (concat (blanked s e bs ts))) = lengths bs - lengths (filter (touchb s e) bs).
Proof.
  induction 1 as [|b t bs ts (_ & _ & K) _ IH]; [easy|]. cbn [blanked concat filter]. rewrite app_length, Nat2Z.inj_add, IH. destruct (touchb s e b); cbn [lengths fold_right]; fold (lengths bs) (lengths (filter (touchb s e) bs)); rewrite K; cbn [length]; lia.
Qed.
