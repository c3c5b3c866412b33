(** Facts on the positions of blocks around tables. *)
From Coq Require Import Sorting.Sorted Sorting.Permutation.
From Verif Require Import Base RopeModel TableModel TableSpec TableFacts.
Local Open Scope Z_scope.

(** ** Sorting cells *)
Definition cell_lt (a b : tcell) : Prop := tc_row a < tc_row b \/ tc_row a = tc_row b /\ tc_col a < tc_col b.
Definition cell_le (a b : tcell) : Prop := tc_row a < tc_row b \/ tc_row a = tc_row b /\ tc_col a <= tc_col b.
Lemma before_iff a b : before_cell a b = true <-> cell_le a b.
Proof. unfold before_cell, cell_le. rewrite orb_true_iff, andb_true_iff, Z.ltb_lt, Z.eqb_eq, Z.leb_le. easy. Qed.
Lemma put_cell_perm c l : Permutation (put_cell c l) (c :: l).
Proof.
  induction l as [|x l IH]; [easy|]. cbn. destruct (before_cell c x); [easy|]. rewrite IH. apply perm_swap.
Qed.
Lemma put_cell_sorted c l : StronglySorted cell_le l -> StronglySorted cell_le (put_cell c l).
Proof.
  induction l as [|x l IH]; intros S; cbn; [repeat constructor|]. inversion S as [|? ? S1 S2]; subst. rewrite Forall_forall in S2.
  destruct (before_cell c x) eqn:B.
  - constructor; [easy|]. apply before_iff in B. constructor; [easy|]. apply Forall_forall. intros y Hy. specialize (S2 y Hy). unfold cell_le in *. lia.
  - constructor; [auto|]. apply Forall_forall. intros y Hy. apply (Permutation_in y (put_cell_perm c l)) in Hy. destruct Hy as [<-|Hy]; [|auto].
    assert (~ cell_le c x) by (rewrite <- before_iff; now destruct (before_cell c x)). unfold cell_le in *. lia.
Qed.
Lemma sort_cells_perm l : Permutation (sort_cells l) l.
Proof. unfold sort_cells. induction l as [|x l IH]; cbn; [easy|]. rewrite put_cell_perm. now constructor. Qed.
Lemma sort_cells_sorted l : StronglySorted cell_le (sort_cells l).
Proof. unfold sort_cells. induction l as [|x l IH]; cbn; [constructor|]. now apply put_cell_sorted. Qed.
Lemma nodup_cells d : own_ids d -> NoDup (t_cells d).
Proof. intros [N _]. now apply NoDup_map_inv in N. Qed.
Lemma sort_cells_reads d : grid d -> own_ids d -> reads (sort_cells (t_cells d)).
Proof.
  intros G O. assert (N := Permutation_NoDup (Permutation_sym (sort_cells_perm (t_cells d))) (nodup_cells d O)).
  assert (I : forall c, In c (sort_cells (t_cells d)) -> In c (t_cells d)) by (intros c; apply Permutation_in, sort_cells_perm).
  revert N I. generalize (sort_cells_sorted (t_cells d)). generalize (sort_cells (t_cells d)). induction l as [|x l IH]; intros S N I; [constructor|].
  inversion S as [|? ? S1 S2]; subst. inversion N as [|? ? N1 N2]; subst. constructor.
  - apply IH; [easy|easy|]. intros c Hc. apply I. now right.
  - rewrite Forall_forall in *. intros y Hy. specialize (S2 y Hy). destruct S2 as [L|[E L]]; [now left|]. right. split; [easy|].
    destruct (Z.eq_dec (tc_col x) (tc_col y)) as [E2|E2]; [|lia]. exfalso. apply N1.
    rewrite (start_unique d x y G); [easy| | |easy|easy]; apply I; [now left|now right].
Qed.
(** Reading order is unique. *)
Lemma reads_unique : forall l l', reads l -> reads l' -> Permutation l l' -> l = l'.
Proof.
  induction l as [|x l IH]; intros l' S S' P.
  - apply Permutation_nil in P. now subst.
  - destruct l' as [|y l']; [apply Permutation_sym, Permutation_nil in P; easy|].
    inversion S as [|? ? S1 S2]; subst. inversion S' as [|? ? S1' S2']; subst. rewrite Forall_forall in S2, S2'.
    assert (E : x = y).
    { assert (Hx : In x (y :: l')) by (apply (Permutation_in x P); now left). assert (Hy : In y (x :: l)) by (apply (Permutation_in y (Permutation_sym P)); now left).
      destruct Hx as [->|Hx]; [easy|]. destruct Hy as [->|Hy]; [easy|]. specialize (S2 y Hy). specialize (S2' x Hx). lia. }
    subst y. f_equal. apply IH; [easy|easy|]. now apply Permutation_cons_inv in P.
Qed.

(** ** Blocks in place *)
Definition width (bs : list tblock) : Z := fold_right (fun b n => tb_len b + 1 + n) 0 bs.
Lemma in_place_app bs bs' : forall p, in_place p (bs ++ bs') <-> in_place p bs /\ in_place (p + width bs) bs'.
Proof.
  induction bs as [|b bs IH]; intros p; cbn [app in_place width fold_right]; [now rewrite Z.add_0_r|].
  fold (width bs). rewrite IH. replace (p + tb_len b + 1 + width bs) with (p + (tb_len b + 1 + width bs)) by lia. tauto.
Qed.
Lemma in_place_bounds bs : (forall b, In b bs -> 0 <= tb_len b) -> forall p, in_place p bs -> forall b, In b bs -> p <= tb_pos b < p + width bs.
Proof.
  induction bs as [|x bs IH]; intros L p; cbn [in_place width fold_right]; [easy|]. fold (width bs). intros [E H] b Hb.
  assert (W : 0 <= width bs).
  { clear -L. assert (Q : forall b, In b bs -> 0 <= tb_len b) by (intros b Hb; apply L; now right). clear L.
    induction bs as [|y bs IH]; cbn [width fold_right]; [lia|]. fold (width bs).
    assert (0 <= tb_len y) by (apply Q; now left). assert (0 <= width bs) by (apply IH; intros b Hb; apply Q; now right). lia. }
  assert (0 <= tb_len x) by (apply L; now left). destruct Hb as [->|Hb]; [lia|].
  specialize (IH (fun b Hb => L b (or_intror Hb)) _ H b Hb). lia.
Qed.
Lemma in_place_moved base n bs : (forall b, In b bs -> base <= tb_pos b) -> forall p, in_place p bs -> in_place (p + n) (map (moved base n) bs).
Proof.
  induction bs as [|b bs IH]; intros G p; cbn [in_place map]; [easy|]. intros [E H]. unfold moved at 1.
  destruct (Z.leb_spec base (tb_pos b)); [|specialize (G b (or_introl eq_refl)); lia]. cbn [tb_pos tb_len].
  unfold moved at 1. destruct (Z.leb_spec base (tb_pos b)); [|lia]. cbn [tb_len]. split; [lia|].
  replace (p + n + tb_len b + 1) with (p + tb_len b + 1 + n) by lia. apply IH; [|easy]. intros x Hx. apply G. now right.
Qed.
Lemma moved_still base n bs : (forall b, In b bs -> tb_pos b < base) -> map (moved base n) bs = bs.
Proof.
  intros G. rewrite (map_ext_in _ (fun b => b)), map_id; [easy|]. intros b Hb. unfold moved. specialize (G b Hb).
  destruct (Z.leb_spec base (tb_pos b)); [lia|easy].
Qed.
Lemma width_empty bs : (forall b, In b bs -> tb_len b = 0) -> width bs = Z.of_nat (length bs).
Proof.
  induction bs as [|b bs IH]; intros H; [easy|]. cbn [width fold_right length]. fold (width bs). rewrite IH, H by (now left || (intros x Hx; apply H; now right)). lia.
Qed.

(** ** The first position of the table *)
Lemma min_fold bs : forall m p, (forall b, In b bs -> p <= tb_pos b) -> (m = Some p \/ m = None /\ exists b, In b bs /\ tb_pos b = p) \/ (exists q, m = Some q /\ p <= q /\ exists b, In b bs /\ tb_pos b = p) ->
  fold_left min_pos bs m = Some p.
Proof.
  induction bs as [|x bs IH]; intros m p L H; cbn [fold_left].
  - destruct H as [[->|[_ (b & [] & _)]]|(q & _ & _ & b & [] & _)]. easy.
  - assert (Lx : p <= tb_pos x) by (apply L; now left). assert (L' : forall b, In b bs -> p <= tb_pos b) by (intros b Hb; apply L; now right).
    apply IH; [easy|]. unfold min_pos. destruct H as [[->|[-> (b & Hb & E)]]|(q & -> & Q & b & Hb & E)].
    + left. left. destruct (Z.ltb_spec (tb_pos x) p); [lia|easy].
    + destruct Hb as [->|Hb]; [left; left; now rewrite E|]. right. exists (tb_pos x). split; [easy|]. split; [easy|]. now exists b.
    + destruct Hb as [->|Hb].
      * left. left. destruct (Z.ltb_spec (tb_pos b) q); f_equal; lia.
      * right. destruct (Z.ltb_spec (tb_pos x) q); eexists; (split; [reflexivity|]); (split; [easy|]); now exists b.
Qed.
Lemma flat_map_perm {A B} (f : A -> list B) l l' : Permutation l l' -> Permutation (flat_map f l) (flat_map f l').
Proof. intros P. induction P; cbn; [easy|now apply Permutation_app_head|rewrite !app_assoc; apply Permutation_app_tail, Permutation_app_comm|etransitivity; eauto]. Qed.
Lemma base_first d l p b rest : Permutation l (t_cells d) -> flat_map tc_blocks l = b :: rest -> in_place p (b :: rest) ->
  (forall x, In x (b :: rest) -> 0 <= tb_len x) -> base_pos d = p.
Proof.
  intros P E I L. unfold base_pos. assert (Q := flat_map_perm tc_blocks _ _ P). rewrite E in Q.
  rewrite (min_fold _ None p); [easy| |left; right; split; [easy|]].
  - intros x Hx. apply (Permutation_in x (Permutation_sym Q)) in Hx. apply (in_place_bounds _ L p I x Hx).
  - exists b. split; [apply (Permutation_in b Q); now left|]. apply I.
Qed.

(** ** New positions *)
Lemma assigned_in_place l0 : forall bs p, NoDup (map tb_id bs) -> (forall b, In b bs -> tb_len b = 0) ->
  (forall b, In b bs -> find (fun x => N.eqb (fst x) (tb_id b)) (l0 ++ number_from p bs) = find (fun x => N.eqb (fst x) (tb_id b)) (number_from p bs)) ->
  in_place p (map (assigned (l0 ++ number_from p bs)) bs).
Proof.
  intros bs. revert l0. induction bs as [|b bs IH]; intros l0 p N L F; [easy|]. cbn [map in_place]. inversion N as [|? ? N1 N2]; subst.
  assert (Eb : assigned (l0 ++ number_from p (b :: bs)) b = mk_tblock (tb_id b) p (tb_len b)).
  { unfold assigned. rewrite F by now left. cbn [number_from find fst]. now rewrite N.eqb_refl. }
  rewrite Eb. cbn [tb_pos tb_len]. split; [easy|]. rewrite (L b) by now left. rewrite Z.add_0_r.
  assert (R : l0 ++ number_from p (b :: bs) = (l0 ++ [(tb_id b, p)]) ++ number_from (p + 1) bs) by (cbn [number_from]; now rewrite <- app_assoc).
  rewrite R. apply IH; [easy|intros x Hx; apply L; now right|]. intros x Hx. rewrite <- R. rewrite F by now right.
  cbn [number_from find fst]. destruct (N.eqb_spec (tb_id b) (tb_id x)) as [E|E]; [|easy]. exfalso. apply N1. rewrite E. now apply in_map.
Qed.
Lemma sort_one bs : length bs = 1%nat -> sort_tblocks bs = bs.
Proof. destruct bs as [|b [|]]; easy. Qed.
Lemma unfilled_one d c : unfilled d -> In c (t_cells d) -> length (tc_blocks c) = 1%nat.
Proof. intros U H. destruct (U c H) as (b & -> & _). easy. Qed.
Lemma unfilled_length d : unfilled d -> length (flat_map tc_blocks (t_cells d)) = length (t_cells d).
Proof.
  unfold unfilled. induction (t_cells d) as [|c l IH]; intros U; [easy|]. cbn. destruct (U c (or_introl eq_refl)) as (b & -> & _). cbn. f_equal. apply IH.
  intros x Hx. apply U. now right.
Qed.
Lemma unfilled_empty d b : unfilled d -> In b (flat_map tc_blocks (t_cells d)) -> tb_len b = 0.
Proof. intros U H. apply in_flat_map in H. destruct H as (c & Hc & Hb). destruct (U c Hc) as (x & E & L). rewrite E in Hb. destruct Hb as [<-|[]]. easy. Qed.
Lemma flat_sort d : unfilled d -> forall l, (forall c, In c l -> In c (t_cells d)) -> flat_map (fun c => sort_tblocks (tc_blocks c)) l = flat_map tc_blocks l.
Proof.
  intros U. induction l as [|c l IH]; intros H; [easy|]. cbn. rewrite IH by (intros x Hx; apply H; now right). f_equal. apply sort_one.
  apply (unfilled_one d c U). apply H. now left.
Qed.
Lemma flat_settled l cs : flat_map tc_blocks (map (settled l) cs) = map (assigned l) (flat_map tc_blocks cs).
Proof. induction cs as [|c cs IH]; [easy|]. cbn. now rewrite map_app, IH. Qed.
Lemma reads_settled l cs : reads cs -> reads (map (settled l) cs).
Proof.
  unfold reads. induction 1 as [|c cs S IH F]; cbn; constructor; [easy|]. apply Forall_forall. intros x Hx. apply in_map_iff in Hx.
  destruct Hx as (y & <- & Hy). rewrite Forall_forall in F. apply (F y Hy).
Qed.
Lemma assigned_len l b : tb_len (assigned l b) = tb_len b.
Proof. unfold assigned. match goal with |- context [find ?g ?m] => destruct (find g m) as [[i p]|] end; easy. Qed.
Lemma assigned_id l b : tb_id (assigned l b) = tb_id b.
Proof. unfold assigned. match goal with |- context [find ?g ?m] => destruct (find g m) as [[i p]|] end; easy. Qed.

(** What every operation does to the cells before the positions are settled. *)
Definition prepared (d d1 : tdoc) (n : Z) : Prop :=
  t_others d1 = t_others d /\ t_at d1 = t_at d /\ t_count d1 = t_count d /\ t_chars d1 = t_chars d
  /\ Z.of_nat (length (t_cells d1)) = Z.of_nat (length (t_cells d)) + n
  /\ (unfilled d -> unfilled d1) /\ (own_blocks d -> own_blocks d1).
Lemma grid_nonempty d : grid d -> t_cells d <> [].
Proof.
  intros (R & C & _ & E) N. destruct (E 0 0) as [c Hc]; [unfold slot; lia|]. apply in_covering in Hc. rewrite N in Hc. easy.
Qed.
Lemma settle_placed d d1 n : grid d -> unfilled d -> own_blocks d -> placed d -> grid d1 -> own_ids d1 -> prepared d d1 n ->
  let d' := settle d1 (base_pos d) n in unfilled d' /\ own_blocks d' /\ placed d' /\ (counted_right d -> counted_right d').
Proof.
  intros G U B P G1 O1 (E1 & E2 & E3 & E4 & E5 & U1 & B1) d'. specialize (U1 U). specialize (B1 B).
  set (base := base_pos d) in *. set (l := assignments d1 base).
  assert (L' : t_cells d' = map (settled l) (t_cells d1)) by reflexivity.
  assert (Ot : t_others d' = map (moved base n) (t_others d)) by (cbn; now rewrite E1).
  assert (U' : unfilled d').
  { intros c Hc. rewrite L' in Hc. apply in_map_iff in Hc. destruct Hc as (x & <- & Hx). destruct (U1 x Hx) as (b & Eb & Lb). cbn. rewrite Eb. cbn.
    eexists. split; [reflexivity|]. now rewrite assigned_len. }
  split; [exact U'|]. split; [|split].
  - destruct B1 as (B1 & B2 & B3). split; [|split].
    + rewrite Ot. intros b Hb. apply in_map_iff in Hb. destruct Hb as (x & <- & Hx). rewrite E1 in B1. specialize (B1 x Hx). unfold moved. destruct (base <=? tb_pos x); easy.
    + rewrite L', flat_settled, map_map. erewrite map_ext; [exact B2|]. intros b. apply assigned_id.
    + rewrite L', flat_settled. intros b Hb. apply in_map_iff in Hb. destruct Hb as (x & <- & Hx). rewrite assigned_len, assigned_id. apply (B3 x Hx).
  - destruct P as (cs & P1 & P2 & P3). rewrite in_place_app, in_place_app in P3. destruct P3 as (P3 & P4 & P5). rewrite Z.add_0_l in *.
    set (before := firstn (t_at d) (t_others d)) in *. set (after := skipn (t_at d) (t_others d)) in *.
    assert (Pf := flat_map_perm tc_blocks _ _ P1).
    assert (Le : forall b, In b (flat_map tc_blocks cs) -> tb_len b = 0).
    { intros b Hb. apply (unfilled_empty d b U). now apply (Permutation_in b Pf). }
    assert (Base : base = width before).
    { destruct (flat_map tc_blocks cs) as [|b rest] eqn:F.
      - exfalso. assert (Len := unfilled_length d U). apply Permutation_length in Pf. cbn in Pf. rewrite <- Pf in Len.
        apply (grid_nonempty d G). now apply length_zero_iff_nil.
      - apply (base_first d cs _ b rest P1 F P4). intros x Hx. rewrite (Le x Hx). lia. }
    exists (map (settled l) (sort_cells (t_cells d1))). split; [rewrite L'; apply Permutation_map, sort_cells_perm|].
    split; [apply reads_settled; now apply sort_cells_reads|].
    replace (t_at d') with (t_at d) by (cbn; easy). rewrite Ot, <- firstn_map, <- skipn_map || rewrite Ot. rewrite ?firstn_map, ?skipn_map. fold before after.
    assert (Lo : forall b, In b (t_others d) -> 0 <= tb_len b) by apply B.
    rewrite !in_place_app, Z.add_0_l.
    assert (Bb : map (moved base n) before = before).
    { apply moved_still. rewrite Base. intros b Hb. apply (in_place_bounds before) with (p := 0); [|easy|easy].
      intros x Hx. apply Lo. unfold before in Hx. rewrite <- (firstn_skipn (t_at d) (t_others d)). apply in_app_iff. now left. }
    rewrite Bb. split; [easy|]. rewrite flat_settled.
    assert (Q : l = number_from base (flat_map tc_blocks (sort_cells (t_cells d1)))).
    { unfold l, assignments. rewrite (flat_sort d1 U1); [easy|]. intros c. apply Permutation_in, sort_cells_perm. }
    assert (Ps := flat_map_perm tc_blocks _ _ (sort_cells_perm (t_cells d1))).
    assert (Le1 : forall b, In b (flat_map tc_blocks (sort_cells (t_cells d1))) -> tb_len b = 0).
    { intros b Hb. apply (unfilled_empty d1 b U1). now apply (Permutation_in b Ps). }
    split.
    + rewrite Q, <- Base. apply (assigned_in_place []); [|exact Le1|easy].
      apply (Permutation_NoDup (Permutation_map tb_id (Permutation_sym Ps))). apply B1.
    + replace (width before + width (map (assigned l) (flat_map tc_blocks (sort_cells (t_cells d1))))) with (width before + width (flat_map tc_blocks cs) + n).
      * apply in_place_moved; [|exact P5]. intros b Hb. rewrite Base.
        assert (Wn : 0 <= width (flat_map tc_blocks cs)) by (rewrite width_empty by easy; lia).
        assert (tb_pos b >= width before + width (flat_map tc_blocks cs)); [|lia].
        apply Z.le_ge. apply (in_place_bounds after) with (p := width before + width (flat_map tc_blocks cs)); [|easy|easy].
        intros x Hx. apply Lo. unfold after in Hx. rewrite <- (firstn_skipn (t_at d) (t_others d)). apply in_app_iff. now right.
      * rewrite (width_empty (flat_map tc_blocks cs) Le), (width_empty (map _ _)).
        -- rewrite map_length, (Permutation_length Pf), (Permutation_length Ps), !unfilled_length by easy. lia.
        -- intros b Hb. apply in_map_iff in Hb. destruct Hb as (x & <- & Hx). rewrite assigned_len. auto.
  - intros [C1 C2]. unfold counted_right, blocks_of, chars_of in *. rewrite Ot, L', flat_settled, !map_length. cbn [d' settle add_count shift_others set_others reassign set_cells t_count t_chars].
    rewrite E3, E4, C1, C2. rewrite !unfilled_length by easy. split; [lia|].
    assert (Z1 : forall bs bs', (forall b, In b bs' -> tb_len b = 0) -> fold_right (fun b m => tb_len b + m) 0 (bs ++ bs') = fold_right (fun b m => tb_len b + m) 0 bs).
    { clear. intros bs bs' H. rewrite fold_right_app. f_equal. induction bs' as [|b bs' IH]; [easy|]. cbn. rewrite IH, H by (now left || (intros x Hx; apply H; now right)). lia. }
    rewrite Z1 by (intros b; now apply unfilled_empty). rewrite Z1.
    + clear. induction (t_others d) as [|b bs IH]; [easy|]. cbn [map fold_right]. rewrite IH. unfold moved. destruct (base <=? tb_pos b); easy.
    + intros b Hb. apply in_map_iff in Hb. destruct Hb as (x & <- & Hx). rewrite assigned_len. now apply (unfilled_empty d1).
Qed.

(** ** Every operation *)
Lemma nodup_app {A} (l l' : list A) : NoDup l -> NoDup l' -> (forall x, In x l -> ~ In x l') -> NoDup (l ++ l').
Proof.
  induction l as [|x l IH]; intros N N' D; [easy|]. cbn. inversion N; subst. constructor.
  - rewrite in_app_iff. intros [H|H]; [easy|]. apply (D x); [now left|easy].
  - apply IH; [easy|easy|]. intros y Hy. apply D. now right.
Qed.
Lemma fresh_blocks qs : forall n nb b, In b (flat_map tc_blocks (fresh_cells n nb qs)) -> tb_len b = 0 /\ (nb <= tb_id b < nb + N.of_nat (length qs))%N.
Proof.
  induction qs as [|[[[r k] rs] cs] qs IH]; intros n nb b; cbn [fresh_cells flat_map tc_blocks app In length]; [easy|]. intros [<-|H].
  - cbn. unfold id in *. lia.
  - apply IH in H. unfold id in *. lia.
Qed.
Lemma fresh_blocks_nodup qs : forall n nb, NoDup (map tb_id (flat_map tc_blocks (fresh_cells n nb qs))).
Proof.
  induction qs as [|[[[r k] rs] cs] qs IH]; intros n nb; cbn; [constructor|]. constructor; [|apply IH].
  rewrite in_map_iff. intros (b & E & H). apply fresh_blocks in H. unfold id in *. lia.
Qed.
Lemma fresh_one qs : forall n nb c, In c (fresh_cells n nb qs) -> exists b, tc_blocks c = [b] /\ tb_len b = 0.
Proof. induction qs as [|[[[r k] rs] cs] qs IH]; intros n nb c; cbn; [easy|]. intros [<-|H]; [|eauto]. cbn. now eexists. Qed.
Lemma fresh_length qs : forall n nb, length (fresh_cells n nb qs) = length qs.
Proof. induction qs as [|[[[r k] rs] cs] qs IH]; intros n nb; cbn; [easy|]. now rewrite IH. Qed.
Lemma prepared_add d d1 n qs : prepared d d1 n -> prepared d (add_cells d1 qs) (n + Z.of_nat (length qs)).
Proof.
  intros (E1 & E2 & E3 & E4 & E5 & U & B). destruct (add_cells_spec qs d1) as (H1 & _ & _ & _ & H5 & H6 & H7 & H8 & _ & H10).
  unfold prepared. rewrite H1, H5, H6, H7, H8, app_length, fresh_length. split; [easy|]. split; [easy|]. split; [easy|]. split; [easy|]. split; [lia|]. split.
  - intros Ud c. rewrite H1, in_app_iff. intros [Hc|Hc]; [now apply U|]. now apply fresh_one in Hc.
  - intros Bd. destruct (B Bd) as (B1 & B2 & B3). unfold own_blocks. rewrite H5, H1, H10, flat_map_app, map_app. split; [easy|]. split.
    + apply nodup_app; [easy|apply fresh_blocks_nodup|]. intros x Hx Hy. apply in_map_iff in Hx, Hy. destruct Hx as (a & <- & Ha), Hy as (b & E & Hb).
      apply fresh_blocks in Hb. apply B3 in Ha. unfold id in *. lia.
    + intros b Hb. apply in_app_iff in Hb. destruct Hb as [Hb|Hb]; [apply B3 in Hb|apply fresh_blocks in Hb]; unfold id in *; lia.
Qed.
Lemma flat_same f l : (forall c, In c l -> tc_blocks (f c) = tc_blocks c) -> flat_map tc_blocks (map f l) = flat_map tc_blocks l.
Proof. induction l as [|c l IH]; intros H; [easy|]. cbn. rewrite H by now left. f_equal. apply IH. intros x Hx. apply H. now right. Qed.
Lemma prepared_map d f : (forall c, In c (t_cells d) -> tc_blocks (f c) = tc_blocks c) -> prepared d (set_cells d (map f (t_cells d))) 0.
Proof.
  intros H. unfold prepared. cbn. rewrite map_length. do 4 (split; [easy|]). split; [lia|]. split.
  - intros U c Hc. apply in_map_iff in Hc. destruct Hc as (x & <- & Hx). rewrite H by easy. now apply U.
  - unfold own_blocks. cbn. now rewrite flat_same.
Qed.
Lemma flat_filter_nodup p l : NoDup (map tb_id (flat_map tc_blocks l)) -> NoDup (map tb_id (flat_map tc_blocks (filter p l))).
Proof.
  induction l as [|c l IH]; cbn; [easy|]. rewrite map_app. intros N. assert (Nl : NoDup (map tb_id (flat_map tc_blocks l))).
  { clear -N. induction (map tb_id (tc_blocks c)) as [|x s IHs]; [easy|]. inversion N; subst. auto. }
  destruct (p c); [|auto]. cbn. rewrite map_app. specialize (IH Nl).
  assert (Sub : forall x, In x (map tb_id (flat_map tc_blocks (filter p l))) -> In x (map tb_id (flat_map tc_blocks l))).
  { intros x Hx. apply in_map_iff in Hx. destruct Hx as (b & <- & Hb). apply in_map. apply in_flat_map in Hb. destruct Hb as (y & Hy & Hb).
    apply in_flat_map. exists y. split; [|easy]. now apply filter_In in Hy. }
  clear -N IH Sub. induction (map tb_id (tc_blocks c)) as [|x s IHs]; [easy|]. cbn in *. inversion N; subst. constructor; [|auto].
  rewrite in_app_iff in *. intros [H|H]; apply H1; auto.
Qed.
Lemma filter_split_length {A} (p : A -> bool) l : (length (filter p l) + length (filter (fun x => negb (p x)) l) = length l)%nat.
Proof. induction l as [|x l IH]; [easy|]. cbn. destruct (p x); cbn; lia. Qed.
Lemma prepared_filter d p f : (forall c, In c (t_cells d) -> tc_blocks (f c) = tc_blocks c) ->
  prepared d (set_cells d (map f (filter (fun c => negb (p c)) (t_cells d)))) (- Z.of_nat (length (filter p (t_cells d)))).
Proof.
  intros H. unfold prepared. cbn. rewrite map_length. do 4 (split; [easy|]). assert (L := filter_split_length p (t_cells d)). split; [lia|].
  assert (H2 : forall c, In c (filter (fun c => negb (p c)) (t_cells d)) -> In c (t_cells d)) by (intros c Hc; now apply filter_In in Hc). split.
  - intros U c Hc. cbn in Hc. apply in_map_iff in Hc. destruct Hc as (x & <- & Hx). rewrite H by auto. apply U. auto.
  - intros (B1 & B2 & B3). unfold own_blocks. cbn. rewrite flat_same by auto. split; [easy|]. split; [now apply flat_filter_nodup|].
    intros b Hb. apply B3. apply in_flat_map in Hb. destruct Hb as (c & Hc & Hb). apply in_flat_map. exists c. auto.
Qed.
Lemma prepared_size d d1 n r c ws : prepared d d1 n -> prepared d (set_size d1 r c ws) n.
Proof. easy. Qed.

Lemma step_form d o d' : grid d -> own_ids d -> tstep d o = Ok d' -> exists d1 n, d' = settle d1 (base_pos d) n /\ prepared d d1 n.
Proof.
  intros G O. assert (Gr := G). destruct Gr as (R & C & _). destruct o as [i|i|i|i|r0 c0 r1 c1|i sr sc]; cbn [tstep].
  - unfold insert_row. destruct ((i <? 0) || (t_rows d <? i)); [easy|]. intros [= <-]. do 2 eexists. split; [reflexivity|]. apply prepared_size. rewrite row_fold.
    replace (t_cols d) with (0 + Z.of_nat (length (map (fun k => (i, k, 1, 1)) (zrange (t_cols d))))) at 2 by (rewrite map_length, length_zrange; lia).
    apply prepared_add, prepared_map. intros c _. unfold row_inserted. zb; easy.
  - unfold insert_column. destruct ((i <? 0) || (t_cols d <? i)); [easy|]. intros [= <-]. do 2 eexists. split; [reflexivity|]. apply prepared_size. rewrite column_fold.
    replace (t_rows d) with (0 + Z.of_nat (length (map (fun r => (r, i, 1, 1)) (zrange (t_rows d))))) at 2 by (rewrite map_length, length_zrange; lia).
    apply prepared_add, prepared_map. intros c _. unfold column_inserted. zb; easy.
  - unfold remove_row. destruct ((i <? 0) || (t_rows d <=? i)); [easy|]. destruct (t_rows d <=? 1); [easy|]. intros [= <-]. do 2 eexists. split; [reflexivity|].
    apply prepared_size. apply (prepared_filter d (row_goes i)). intros c _. unfold row_removed. zb; easy.
  - unfold remove_column. destruct (t_cols d <=? 1); [easy|]. destruct ((i <? 0) || (t_cols d <=? i)); [easy|]. intros [= <-]. do 2 eexists. split; [reflexivity|].
    apply prepared_size. apply (prepared_filter d (column_goes i)). intros c _. unfold column_removed. zb; easy.
  - unfold merge_cells. destruct (r1 <? r0); [easy|]. destruct (c1 <? c0); [easy|]. destruct ((r0 <? 0) || (t_rows d <=? r1) || (c0 <? 0) || (t_cols d <=? c1)); [easy|].
    destruct (existsb _ (filter (starts_in r0 c0 r1 c1) (t_cells d))); [easy|].
    destruct (find _ (filter (starts_in r0 c0 r1 c1) (t_cells d))) as [s|] eqn:F; cbn [ok_or bind]; [|easy]. intros [= <-]. do 2 eexists. split; [reflexivity|].
    apply find_some in F. destruct F as [F _]. apply filter_In in F. destruct F as [Hs _].
    apply (prepared_filter d (merge_goes r0 c0 r1 c1 s)). intros c Hc. destruct (N.eqb_spec (tc_id c) (tc_id s)) as [E|E]; [|easy].
    now rewrite (id_unique d c s O Hc Hs E).
  - intros E. destruct (split_ok _ _ _ _ _ E) as (c & Hc & <- & S1 & S2 & _). unfold split_cell in E.
    destruct (Z.ltb_spec sr 1); [lia|]. destruct (Z.ltb_spec sc 1); [lia|]. cbn [orb] in E.
    match type of E with context [find ?g ?m] => destruct (find g m) as [x|] eqn:F end; cbn [ok_or bind] in E; [|easy].
    destruct (tc_rs x <? sr); [easy|]. destruct (tc_cs x <? sc); [easy|]. destruct ((tc_rs x =? 1) && (tc_cs x =? 1) && (sr =? 1) && (sc =? 1)); [easy|].
    destruct (sub_cells x sr sc) as [|[[[r k] rs0] cs0] rest]; [easy|]. injection E as <-. do 2 eexists. split; [reflexivity|].
    match goal with |- prepared d (fold_left ?f rest ?d1) _ => change (fold_left f rest d1) with (add_cells d1 rest) end.
    rewrite <- (Z.add_0_l (Z.of_nat (length rest))). apply prepared_add, prepared_map. intros y _. destruct (N.eqb _ _); easy.
Qed.
Lemma own_ids_settled d base n : own_ids (settle d base n) -> own_ids d.
Proof.
  intros [N F]. rewrite settle_cells in N, F. rewrite ids_settled in N. split; [easy|]. intros c Hc. apply (F (settled (assignments d base) c)). now apply in_map.
Qed.
Lemma step_placed d o d' : grid d -> own_ids d -> unfilled d -> own_blocks d -> placed d -> clean d o -> tstep d o = Ok d' ->
  unfilled d' /\ own_blocks d' /\ placed d' /\ (counted_right d -> counted_right d').
Proof.
  intros G O U B P Cl E. destruct (step_grid d o d' G O Cl E) as [G' O']. destruct (step_form d o d' G O E) as (d1 & n & -> & Pr).
  apply grid_settle in G'. apply own_ids_settled in O'. now apply settle_placed.
Qed.

(** ** A new table *)
Lemma sorted_app {A} (R : A -> A -> Prop) a b : StronglySorted R a -> StronglySorted R b -> (forall x y, In x a -> In y b -> R x y) -> StronglySorted R (a ++ b).
Proof.
  induction 1 as [|x a S IH F]; intros Sb H; [easy|]. cbn. constructor; [apply IH; [easy|]; intros; apply H; [now right|easy]|].
  apply Forall_app. split; [easy|]. apply Forall_forall. intros y Hy. apply H; [now left|easy].
Qed.
Lemma sorted_zrange n : StronglySorted Z.lt (zrange n).
Proof.
  unfold zrange. generalize 0%nat. induction (Z.to_nat n) as [|m IH]; intros s; cbn; [constructor|]. constructor; [apply IH|]. apply Forall_forall. intros x Hx.
  apply in_map_iff in Hx. destruct Hx as (y & <- & Hy). apply in_seq in Hy. lia.
Qed.
Definition quad_lt (a b : Z * Z * Z * Z) : Prop := let '(r, k, _, _) := a in let '(r', k', _, _) := b in r < r' \/ r = r' /\ k < k'.
Lemma quads_sorted cols rs : StronglySorted Z.lt rs -> StronglySorted quad_lt (flat_map (fun r => map (fun k => (r, k, 1, 1)) (zrange cols)) rs).
Proof.
  induction 1 as [|r rs S IH F]; cbn; [constructor|]. apply sorted_app; [|easy|].
  - clear IH. assert (Sz := sorted_zrange cols). induction Sz as [|k ks Sz IHz Fz]; cbn; [constructor|]. constructor; [easy|]. apply Forall_forall. intros q Hq.
    apply in_map_iff in Hq. destruct Hq as (k' & <- & Hk). rewrite Forall_forall in Fz. specialize (Fz k' Hk). cbn. lia.
  - intros q q' Hq Hq'. apply in_map_iff in Hq. destruct Hq as (k & <- & _). apply in_flat_map in Hq'. destruct Hq' as (r' & Hr & Hq').
    apply in_map_iff in Hq'. destruct Hq' as (k' & <- & _). rewrite Forall_forall in F. specialize (F r' Hr). cbn. lia.
Qed.
Lemma fresh_reads qs : StronglySorted quad_lt qs -> forall n nb, reads (fresh_cells n nb qs).
Proof.
  unfold reads. induction 1 as [|[[[r k] rs] cs] qs S IH F]; intros n nb; cbn; [constructor|]. constructor; [apply IH|]. apply Forall_forall. intros c Hc.
  apply fresh_in in Hc. destruct Hc as (_ & _ & _ & Hc). rewrite Forall_forall in F. specialize (F _ Hc). cbn in *. lia.
Qed.
Lemma table_quads_length rows cols : length (table_quads rows cols) = (Z.to_nat rows * Z.to_nat cols)%nat.
Proof.
  unfold table_quads. rewrite <- (length_zrange rows). induction (zrange rows) as [|r l IH]; [easy|]. cbn. rewrite app_length, map_length, length_zrange, IH. easy.
Qed.
Lemma total_map (f : tblock -> tblock) bs z : (forall b, tb_len (f b) = tb_len b) ->
  fold_right (fun b m => tb_len b + m) z (map f bs) = fold_right (fun b m => tb_len b + m) z bs.
Proof. intros H. induction bs as [|b bs IH]; [easy|]. cbn. now rewrite IH, H. Qed.
Lemma insert_table_places others at_ rows cols next nextb d : in_place 0 others -> (forall b, In b others -> 0 <= tb_len b) -> (at_ <= length others)%nat ->
  insert_table others at_ (width (firstn at_ others)) rows cols (Z.of_nat (length others)) (fold_right (fun b n => tb_len b + n) 0 others) next nextb = Ok d ->
  unfilled d /\ own_blocks d /\ placed d /\ counted_right d.
Proof.
  intros P L A E. unfold insert_table in E. destruct (Z.ltb_spec rows 1); [easy|]. destruct (Z.ltb_spec cols 1); [easy|]. cbn [orb] in E.
  rewrite table_fold in E. fold (table_quads rows cols) in E. set (start := width (firstn at_ others)) in *.
  set (d0 := mk_tdoc rows cols _ _ _ _ _ _ _ _) in E. set (d1 := add_cells d0 (table_quads rows cols)) in E.
  destruct (add_cells_spec (table_quads rows cols) d0) as (H1 & _ & _ & _ & H5 & H6 & H7 & H8 & _ & H10). fold d1 in H1, H5, H6, H7, H8, H10.
  cbn [d0 t_cells t_next t_nextb app t_others t_at t_count t_chars] in H1, H5, H6, H7, H8, H10.
  set (l := number_from start (flat_map tc_blocks (t_cells d1))) in E. injection E as <-. match goal with |- unfilled ?x /\ _ => set (d := x) end.
  set (n := rows * cols) in *. set (fs := fresh_cells next nextb (table_quads rows cols)) in *.
  assert (L' : t_cells d = map (settled l) fs) by (cbn [d add_count shift_others set_others set_cells t_cells]; rewrite H1; reflexivity).
  assert (Ot : t_others d = map (moved start n) others) by (cbn [d add_count shift_others set_others set_cells t_others]; rewrite H5; reflexivity).
  assert (At : t_at d = at_) by exact H6.
  assert (Q : l = number_from start (flat_map tc_blocks fs)) by (unfold l; now rewrite H1).
  assert (Len : length (flat_map tc_blocks fs) = length (table_quads rows cols)).
  { unfold fs. clear. generalize next nextb. induction (table_quads rows cols) as [|[[[r k] rs] cs] qs IH]; intros a b; cbn; [easy|]. now rewrite IH. }
  assert (Em : forall b, In b (flat_map tc_blocks fs) -> tb_len b = 0) by (intros b Hb; now apply fresh_blocks in Hb).
  assert (Em' : forall b, In b (map (assigned l) (flat_map tc_blocks fs)) -> tb_len b = 0).
  { intros b Hb. apply in_map_iff in Hb. destruct Hb as (x & <- & Hx). rewrite assigned_len. auto. }
  assert (Size : Z.of_nat (length (table_quads rows cols)) = n) by (rewrite table_quads_length; unfold n; lia).
  split; [|split; [|split]].
  - intros c Hc. rewrite L' in Hc. apply in_map_iff in Hc. destruct Hc as (x & <- & Hx). apply fresh_one in Hx. destruct Hx as (b & Eb & Lb). cbn. rewrite Eb. cbn.
    eexists. split; [reflexivity|]. now rewrite assigned_len.
  - split; [|split].
    + rewrite Ot. intros b Hb. apply in_map_iff in Hb. destruct Hb as (x & <- & Hx). specialize (L x Hx). unfold moved. destruct (start <=? tb_pos x); easy.
    + rewrite L', flat_settled, map_map. erewrite map_ext; [apply fresh_blocks_nodup|]. intros b. apply assigned_id.
    + rewrite L', flat_settled. intros b Hb. split; [rewrite (Em' b Hb); lia|]. apply in_map_iff in Hb. destruct Hb as (x & <- & Hx). rewrite assigned_id. apply fresh_blocks in Hx.
      change (t_nextb d) with (t_nextb d1). rewrite H10. easy.
  - exists (map (settled l) fs). split; [now rewrite L'|]. split; [apply reads_settled, fresh_reads, quads_sorted, sorted_zrange|].
    rewrite Ot, At, firstn_map, skipn_map, flat_settled, !in_place_app, Z.add_0_l.
    rewrite <- (firstn_skipn at_ others) in P. rewrite in_place_app, Z.add_0_l in P. fold start in P. destruct P as [P1 P2].
    assert (Lf : forall b, In b (firstn at_ others) -> 0 <= tb_len b) by (intros b Hb; apply L; rewrite <- (firstn_skipn at_ others); apply in_app_iff; now left).
    assert (Ls : forall b, In b (skipn at_ others) -> 0 <= tb_len b) by (intros b Hb; apply L; rewrite <- (firstn_skipn at_ others); apply in_app_iff; now right).
    rewrite moved_still by (intros b Hb; apply (in_place_bounds (firstn at_ others) Lf 0 P1 b Hb)). split; [easy|]. fold start. split.
    + rewrite Q. apply (assigned_in_place []); [apply fresh_blocks_nodup|exact Em|easy].
    + rewrite (width_empty _ Em'), map_length, Len, Size. apply in_place_moved; [|easy]. intros b Hb. apply (in_place_bounds (skipn at_ others) Ls start P2 b Hb).
  - unfold counted_right, blocks_of, chars_of. rewrite Ot, L', flat_settled, !map_length, Len. cbn [d add_count shift_others set_others set_cells t_count t_chars]. rewrite H7, H8.
    split; [lia|]. rewrite fold_right_app.
    assert (Z0 : forall bs, (forall b, In b bs -> tb_len b = 0) -> fold_right (fun b m => tb_len b + m) 0 bs = 0).
    { clear. induction bs as [|b bs IH]; intros H; [easy|]. cbn. rewrite IH, H by (now left || (intros x Hx; apply H; now right)). lia. }
    rewrite (Z0 _ Em'). symmetry. apply total_map. intros b. unfold moved. destruct (start <=? tb_pos b); easy.
Qed.
Lemma placed_history_table d : placed_history d -> table_history d.
Proof. induction 1; [now apply (table_new others at_ start rows cols count chars next nextb)|now apply (table_step d o)]. Qed.
Lemma placed_history_all d : placed_history d -> unfilled d /\ own_blocks d /\ placed d /\ counted_right d.
Proof.
  induction 1 as [others at_ start rows cols count chars next nextb d P L A -> -> -> E|d o d' H (U & B & P & C) Cl E].
  - now apply (insert_table_places others at_ rows cols next nextb).
  - destruct (history_grid d (placed_history_table d H)) as [G O]. destruct (step_placed d o d' G O U B P Cl E) as (U' & B' & P' & C'). auto.
Qed.

(** ** The block count, whatever the cells hold *)
Lemma grows_count d o d' : grid d -> own_ids d -> tstep d o = Ok d' -> counted_right d ->
  match o with InsertRow _ | InsertColumn _ | Split _ _ _ => counted_right d' | _ => True end.
Proof.
  intros G O E [C1 C2].
  assert (Gen : forall d0 qs, t_others d0 = t_others d -> t_count d0 = t_count d -> t_chars d0 = t_chars d ->
    flat_map tc_blocks (t_cells d0) = flat_map tc_blocks (t_cells d) -> forall r c ws base,
    counted_right (settle (set_size (add_cells d0 qs) r c ws) base (Z.of_nat (length qs)))).
  { intros d0 qs E1 E2 E3 E4 r c ws base. destruct (add_cells_spec qs d0) as (H1 & _ & _ & _ & H5 & _ & H7 & H8 & _ & _).
    unfold counted_right, blocks_of, chars_of. rewrite settle_cells, flat_settled, map_length.
    cbn [settle add_count shift_others set_others reassign set_cells set_size t_count t_chars t_others t_cells].
    rewrite H1, H5, H7, H8, E1, E2, E3, C1, C2, flat_map_app, E4, !map_length, app_length.
    assert (Len : length (flat_map tc_blocks (fresh_cells (t_next d0) (t_nextb d0) qs)) = length qs).
    { generalize (t_next d0) (t_nextb d0). clear. induction qs as [|[[[r k] rs] cs] qs IH]; intros a b; cbn; [easy|]. now rewrite IH. }
    split; [unfold blocks_of; lia|]. unfold chars_of. rewrite map_app, !fold_right_app.
    assert (Z0 : fold_right (fun b m => tb_len b + m) 0 (map (assigned (assignments (set_size (add_cells d0 qs) r c ws) base)) (flat_map tc_blocks (fresh_cells (t_next d0) (t_nextb d0) qs))) = 0).
    { assert (Em : forall b, In b (flat_map tc_blocks (fresh_cells (t_next d0) (t_nextb d0) qs)) -> tb_len b = 0) by (intros b Hb; now apply fresh_blocks in Hb).
      revert Em. generalize (flat_map tc_blocks (fresh_cells (t_next d0) (t_nextb d0) qs)). induction l as [|b l IH]; intros Em; [easy|]. cbn [map fold_right].
      rewrite assigned_len, Em, IH by (now left || (intros x Hx; apply Em; now right)). lia. }
    rewrite Z0.
    rewrite !total_map; [easy|apply assigned_len|]. intros b. unfold moved. destruct (base <=? tb_pos b); easy. }
  assert (Gr := G). destruct Gr as (R & C & _). destruct o as [i|i|i|i|r0 c0 r1 c1|i sr sc]; try easy; cbn [tstep] in E.
  - unfold insert_row in E. destruct ((i <? 0) || (t_rows d <? i)); [easy|]. injection E as <-. rewrite row_fold.
    replace (t_cols d) with (Z.of_nat (length (map (fun k => (i, k, 1, 1)) (zrange (t_cols d))))) at 3 by (rewrite map_length, length_zrange; lia).
    apply Gen; try easy. cbn. apply flat_same. intros c _. unfold row_inserted. zb; easy.
  - unfold insert_column in E. destruct ((i <? 0) || (t_cols d <? i)); [easy|]. injection E as <-. rewrite column_fold.
    replace (t_rows d) with (Z.of_nat (length (map (fun r => (r, i, 1, 1)) (zrange (t_rows d))))) at 3 by (rewrite map_length, length_zrange; lia).
    apply Gen; try easy. cbn. apply flat_same. intros c _. unfold column_inserted. zb; easy.
  - destruct (split_ok _ _ _ _ _ E) as (c & Hc & <- & S1 & S2 & _). unfold split_cell in E.
    destruct (Z.ltb_spec sr 1); [lia|]. destruct (Z.ltb_spec sc 1); [lia|]. cbn [orb] in E.
    match type of E with context [find ?g ?m] => destruct (find g m) as [x|] eqn:F end; cbn [ok_or bind] in E; [|easy].
    destruct (tc_rs x <? sr); [easy|]. destruct (tc_cs x <? sc); [easy|]. destruct ((tc_rs x =? 1) && (tc_cs x =? 1) && (sr =? 1) && (sc =? 1)); [easy|].
    destruct (sub_cells x sr sc) as [|[[[r k] rs0] cs0] rest]; [easy|]. injection E as <-.
    match goal with |- counted_right (settle (fold_left ?f rest ?d1) _ _) => 
      change (fold_left f rest d1) with (set_size (add_cells d1 rest) (t_rows (add_cells d1 rest)) (t_cols (add_cells d1 rest)) (t_widths (add_cells d1 rest))) || 
      (assert (Q : fold_left f rest d1 = set_size (add_cells d1 rest) (t_rows (add_cells d1 rest)) (t_cols (add_cells d1 rest)) (t_widths (add_cells d1 rest)))
        by (unfold add_cells; destruct (fold_left f rest d1); reflexivity); rewrite Q) end.
    apply Gen; try easy. cbn. apply flat_same. intros y _. destruct (N.eqb _ _); easy.
Qed.
