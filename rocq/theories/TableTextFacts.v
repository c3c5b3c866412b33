(** Facts about tables and their text. *)
From Coq Require Import Sorting.Permutation.
From Verif Require Import Base RopeModel RopeSpec RopeFacts RopeTables TableModel TableSpec TableFacts TablePlaces TableTextModel TableTextSpec.
From Verif Require DocModel DocSpec DocInv DocFacts DocTheorems.

(** ** Reading *)
Lemma rep_read st l b t : rep st l -> In (MBlock b, t) l -> block_content st b = Ok t.
Proof. intros R H. apply in_split in H. destruct H as (p & q & ->). exact (rep_content _ _ _ _ _ R). Qed.
Lemma marker_in st l b : rep st l -> In (MBlock b) (map fst l) -> exists t, In (MBlock b, t) l.
Proof. intros _ H. apply in_map_iff in H. destruct H as ([m t] & E & H). cbn in E. subst m. now exists t. Qed.
Lemma in_mblock b l : In (MBlock b) (map MBlock l) <-> In b l.
Proof. rewrite in_map_iff. split; [intros (x & [= ->] & H); easy|]. intros H. now exists b. Qed.
Lemma anchor_not_block t l : ~ In (MAnchor t) (map MBlock l).
Proof. rewrite in_map_iff. intros (x & E & _). discriminate. Qed.

(** ** The end of the frame *)
Lemma range_le st l m : rep st l -> exists r, range_of (index st) m = Ok r /\ match r with Some (_, e) => e <= total (index st) | None => True end.
Proof.
  intros R. destruct (in_dec (fun a b : marker => ltac:(decide equality; apply N.eq_dec)) m (map fst l)) as [H|H].
  - apply in_map_iff in H. destruct H as ([k t] & E & H). cbn in E. subst k. apply in_split in H. destruct H as (p & q & ->).
    rewrite (rep_range _ _ _ _ _ R). eexists. split; [reflexivity|]. rewrite (rep_total_mid _ _ _ _ _ R). unfold range_end. destruct q as [|[k u] q]; [lia|].
    rewrite jpost_cons, blen_NL_cons. lia.
  - rewrite (rep_range_none _ _ _ R H). now eexists.
Qed.
Lemma walk_total st l ms : rep st l -> (forall m, In m (map fst l) -> In m ms) -> l <> [] -> forall n, n <= total (index st) ->
  walk_end (index st) ms n = Ok (total (index st)).
Proof.
  intros R I NE n Hn. destruct l as [|s l0] using rev_ind; [easy|]. clear IHl0. destruct s as [m t].
  assert (E : range_of (index st) m = Ok (Some (blen (jpre l0), total (index st)))).
  { rewrite (rep_range _ _ _ _ _ R), (rep_total_mid _ _ _ _ _ R). cbn. do 3 f_equal. lia. }
  assert (Hm : In m ms \/ n = total (index st)) by (left; apply I; rewrite map_app, in_app_iff; right; now left).
  clear I. revert n Hn Hm. induction ms as [|k ms IH]; intros n Hn Hm; cbn [walk_end].
  - destruct Hm as [[]| ->]. reflexivity.
  - destruct (range_le st _ k R) as (r & Er & Hr). rewrite Er. cbn [bind]. apply IH.
    + destruct r as [[s e]|]; lia.
    + destruct Hm as [[->|Hm]|Hm]; [right|now left|right].
      * rewrite E in Er. injection Er as <-. lia.
      * destruct r as [[s e]|]; lia.
Qed.

(** ** Blocks put in and taken out *)
Definition blanks (ids : list id) : list seg := map (fun b => (MBlock b, [])) ids.
Lemma blanks_fst ids : map fst (blanks ids) = map MBlock ids.
Proof. unfold blanks. now rewrite map_map. Qed.
Lemma mirror_new_rep ids : forall st l, rep st l -> l <> [] -> NoDup ids -> (forall b, In b ids -> ~ In (MBlock b) (map fst l)) ->
  exists st', mirror_new st (total (index st)) ids = Ok st' /\ rep st' (l ++ blanks ids).
Proof.
  induction ids as [|b ids IH]; intros st l R NE ND F; cbn [mirror_new blanks map].
  - exists st. rewrite app_nil_r. easy.
  - destruct (rep_put_last st l b R NE) as (st1 & E1 & R1 & T1); [apply F; now left|]. rewrite E1. cbn [bind]. rewrite <- T1.
    inversion ND; subst. destruct (IH st1 (l ++ [(MBlock b, [])])) as (st2 & E2 & R2); [easy|destruct l; easy|easy| |].
    + intros c Hc. rewrite map_app, in_app_iff. intros [H|[H|[]]]; [revert H; apply F; now right|]. cbn in H. injection H as <-. easy.
    + exists st2. split; [easy|]. rewrite <- app_assoc in R2. exact R2.
Qed.
Lemma perm_split_in {A} (x : A) l m : Permutation l (x :: m) -> exists a b, l = a ++ x :: b /\ Permutation (a ++ b) m.
Proof.
  intros P. assert (In x l) by (apply (Permutation_in x (Permutation_sym P)); now left). apply in_split in H. destruct H as (a & b & ->).
  exists a, b. split; [easy|]. apply (Permutation_cons_inv (a := x)). rewrite <- P. apply Permutation_middle.
Qed.
Lemma map_eq_mid {A B} (f : A -> B) l p b q : map f l = p ++ b :: q -> exists p' a q', l = p' ++ a :: q' /\ map f p' = p /\ f a = b /\ map f q' = q.
Proof.
  revert p. induction l as [|x l IH]; intros [|y p] E; cbn in E; try discriminate.
  - injection E as E1 E2. exists [], x, l. now subst.
  - injection E as E1 E2. destruct (IH p E2) as (p' & a & q' & -> & <- & E3 & E4). exists (x :: p'), a, q'. now subst.
Qed.
Lemma mirror_gone_rep ids : forall st l cs rest, rep st (l ++ cs) -> Permutation (map fst cs) (map MBlock (ids ++ rest)) ->
  exists st' cs', mirror_gone st ids = Ok st' /\ rep st' (l ++ cs') /\ Permutation (map fst cs') (map MBlock rest) /\ incl cs' cs.
Proof.
  induction ids as [|b ids IH]; intros st l cs rest R P; cbn [mirror_gone].
  - exists st, cs. cbn in P. do 3 (split; [easy|]). apply incl_refl.
  - cbn in P. destruct (perm_split_in _ _ _ P) as (p & q & E & P'). destruct (map_eq_mid _ _ _ _ _ E) as (cp & [m t] & cq & -> & E1 & E2 & E3).
    cbn in E2. subst m. rewrite app_assoc in R. destruct (rep_remove_block _ _ _ _ _ R) as (st1 & X1 & R1). rewrite X1. cbn [bind].
    rewrite <- app_assoc in R1. destruct (IH st1 l (cp ++ cq) rest R1) as (st2 & cs' & X2 & R2 & P2 & I2).
    { rewrite map_app, E1, E3. easy. }
    exists st2, cs'. do 3 (split; [easy|]). intros s Hs. apply I2 in Hs. rewrite in_app_iff in *. destruct Hs; [now left|right; now right].
Qed.

(** ** The layout of a document with a table *)
Definition layout (x : xdoc) (before after cells : list seg) : Prop :=
  let d := x_table x in
  rep (x_store x) ((before ++ (MAnchor (x_tid x), [FFFC]) :: after) ++ cells)
  /\ map fst before = map MBlock (firstn (t_at d) (block_ids (t_others d)))
  /\ map fst after = map MBlock (skipn (t_at d) (block_ids (t_others d)))
  /\ Permutation (map fst cells) (map MBlock (cell_ids (t_cells d)))
  /\ (forall b, block_in x b -> (b < t_nextb d)%N) /\ t_others d <> [].
Lemma layout_markers x a b c m : layout x a b c ->
  In m (map fst ((a ++ (MAnchor (x_tid x), [FFFC]) :: b) ++ c)) <->
  In m (map MBlock (block_ids (t_others (x_table x))) ++ MAnchor (x_tid x) :: map MBlock (cell_ids (t_cells (x_table x)))).
Proof.
  intros (_ & E1 & E2 & P & _). rewrite !map_app. cbn [map fst]. rewrite E1, E2.
  rewrite <- (firstn_skipn (t_at (x_table x)) (block_ids (t_others (x_table x)))) at 3. rewrite map_app, !in_app_iff. cbn [In].
  assert (X : In m (map fst c) <-> In m (map MBlock (cell_ids (t_cells (x_table x))))).
  { split; apply Permutation_in; [easy|now symmetry]. }
  rewrite X. tauto.
Qed.
Lemma layout_in x a b c i : layout x a b c -> block_in x i -> exists t, In (MBlock i, t) ((a ++ (MAnchor (x_tid x), [FFFC]) :: b) ++ c) /\ text_of x i = Ok t.
Proof.
  intros L H. assert (R := L). destruct R as (R & _). destruct (marker_in _ _ i R) as (t & Ht).
  - apply (layout_markers _ _ _ _ _ L). rewrite in_app_iff. cbn [In]. destruct H as [H|H]; apply in_mblock in H; tauto.
  - exists t. split; [easy|]. exact (rep_read _ _ _ _ R Ht).
Qed.
Lemma layout_block x a b c i t : layout x a b c -> In (MBlock i, t) ((a ++ (MAnchor (x_tid x), [FFFC]) :: b) ++ c) -> block_in x i /\ text_of x i = Ok t.
Proof.
  intros L H. split; [|exact (rep_read _ _ _ _ (proj1 L) H)]. assert (M : In (MBlock i) (map fst ((a ++ (MAnchor (x_tid x), [FFFC]) :: b) ++ c))).
  { apply in_map_iff. now exists (MBlock i, t). }
  apply (layout_markers _ _ _ _ _ L) in M. rewrite in_app_iff in M. cbn [In] in M. destruct M as [M|[M|M]]; [left|discriminate|right]; now apply in_mblock.
Qed.

(** ** What an operation does to the cells *)
Definition fresh_ids (nb : id) (n : nat) : list id := map (fun k => (nb + N.of_nat k)%N) (seq 0 n).
Lemma fresh_ids_cells qs : forall n nb, cell_ids (fresh_cells n nb qs) = fresh_ids nb (length qs).
Proof.
  induction qs as [|[[[r k] rs] cs] qs IH]; intros n nb; [reflexivity|]. cbn [fresh_cells length]. unfold cell_ids, block_ids in *. cbn [flat_map tc_blocks app map tb_id].
  rewrite IH. unfold fresh_ids. cbn [seq map]. f_equal; [cbn; apply eq_sym, N.add_0_r|]. rewrite <- seq_shift, map_map. apply map_ext. intros j. unfold id in *. lia.
Qed.
Lemma fresh_ids_in nb n i : In i (fresh_ids nb n) <-> (nb <= i < nb + N.of_nat n)%N.
Proof.
  unfold fresh_ids. rewrite in_map_iff. split.
  - intros (k & <- & H). apply in_seq in H. unfold id in *. lia.
  - intros H. exists (N.to_nat (i - nb)). rewrite in_seq. unfold id in *. lia.
Qed.
Lemma fresh_ids_nodup nb n : NoDup (fresh_ids nb n).
Proof. unfold fresh_ids. apply FinFun.Injective_map_NoDup; [|apply seq_NoDup]. intros a b E. unfold id in *. lia. Qed.
(** The cells that stay are those for which [p] holds; new ones follow. *)
Definition changed (d : tdoc) (p : tcell -> bool) (d' : tdoc) : Prop :=
  exists f qs l, (forall c, In c (t_cells d) -> p c = true -> tc_id (f c) = tc_id c /\ tc_blocks (f c) = tc_blocks c)
    /\ t_cells d' = map (settled l) (map f (filter p (t_cells d)) ++ fresh_cells (t_next d) (t_nextb d) qs)
    /\ block_ids (t_others d') = block_ids (t_others d) /\ t_at d' = t_at d
    /\ t_nextb d' = (t_nextb d + N.of_nat (length qs))%N.
Lemma ids_moved base n bs : block_ids (map (moved base n) bs) = block_ids bs.
Proof. unfold block_ids. rewrite map_map. apply map_ext. intros b. unfold moved. now destruct (_ <=? _)%Z. Qed.
Lemma ids_settled_cells l cs : cell_ids (map (settled l) cs) = cell_ids cs.
Proof. unfold cell_ids, block_ids. rewrite flat_settled, map_map. apply map_ext. intros b. apply assigned_id. Qed.
Lemma cell_ids_app a b : cell_ids (a ++ b) = cell_ids a ++ cell_ids b.
Proof. unfold cell_ids, block_ids. now rewrite flat_map_app, map_app. Qed.
Lemma changed_ids d p d' : changed d p d' ->
  exists n, cell_ids (t_cells d') = cell_ids (filter p (t_cells d)) ++ fresh_ids (t_nextb d) n /\ t_nextb d' = (t_nextb d + N.of_nat n)%N.
Proof.
  intros (f & qs & l & F & E & _ & _ & N). exists (length qs). split; [|easy]. rewrite E, ids_settled_cells, cell_ids_app, fresh_ids_cells. f_equal.
  unfold cell_ids. f_equal. apply flat_same. intros c Hc. apply filter_In in Hc. now apply F.
Qed.
Lemma changed_cell d p d' c' : changed d p d' -> In c' (t_cells d') ->
  (exists c, In c (t_cells d) /\ p c = true /\ tc_id c' = tc_id c /\ block_ids (tc_blocks c') = block_ids (tc_blocks c))
  \/ (exists i, block_ids (tc_blocks c') = [i] /\ (t_nextb d <= i < t_nextb d')%N /\ (t_next d <= tc_id c')%N).
Proof.
  intros (f & qs & l & F & E & _ & _ & N) H. rewrite E in H. apply in_map_iff in H. destruct H as (y & <- & H).
  assert (B : block_ids (tc_blocks (settled l y)) = block_ids (tc_blocks y)).
  { unfold settled, block_ids. cbn. rewrite map_map. apply map_ext. intros b. apply assigned_id. }
  rewrite B. apply in_app_iff in H. destruct H as [H|H].
  - left. apply in_map_iff in H. destruct H as (c & <- & H). apply filter_In in H. destruct H as [H1 H2]. exists c. destruct (F c H1 H2) as [F1 F2]. cbn. now rewrite F1, F2.
  - right. assert (X := fresh_in _ _ _ _ H). assert (Y := H). apply fresh_one in Y. destruct Y as (b & Y & _). rewrite Y. exists (tb_id b). split; [easy|].
    assert (Z : In b (flat_map tc_blocks (fresh_cells (t_next d) (t_nextb d) qs))) by (apply in_flat_map; exists y; rewrite Y; split; [easy|now left]).
    apply fresh_blocks in Z. cbn. unfold id in *. lia.
Qed.

(** ** What an operation does to the store *)
Lemma filter_all {A} (p : A -> bool) l : (forall x, In x l -> p x = true) -> filter p l = l.
Proof. induction l as [|x l IH]; intros H; [easy|]. cbn. rewrite H by now left. f_equal. apply IH. intros y Hy. apply H. now right. Qed.
Lemma changed_add d d1 qs f base n r c ws : d1 = set_cells d (map f (t_cells d)) -> (forall c, In c (t_cells d) -> tc_id (f c) = tc_id c /\ tc_blocks (f c) = tc_blocks c) ->
  changed d (fun _ => true) (settle (set_size (add_cells d1 qs) r c ws) base n).
Proof.
  intros -> F. destruct (add_cells_spec qs (set_cells d (map f (t_cells d)))) as (H1 & _ & _ & _ & H5 & H6 & _ & _ & _ & H10).
  exists f, qs, (assignments (set_size (add_cells (set_cells d (map f (t_cells d))) qs) r c ws) base).
  split; [intros x Hx _; now apply F|]. rewrite settle_cells. cbn [set_size t_cells]. rewrite H1. cbn [set_cells t_cells t_next t_nextb].
  rewrite (filter_all (fun _ => true)) by easy. split; [reflexivity|].
  cbn [settle add_count shift_others set_others reassign set_cells set_size t_others t_at t_nextb]. rewrite ids_moved, H5, H6, H10. cbn. easy.
Qed.
Lemma changed_filter d goes f base n r c ws : (forall c, In c (t_cells d) -> goes c = false -> tc_id (f c) = tc_id c /\ tc_blocks (f c) = tc_blocks c) ->
  changed d (fun c => negb (goes c)) (settle (set_size (set_cells d (map f (filter (fun c => negb (goes c)) (t_cells d)))) r c ws) base n).
Proof.
  intros F. eexists f, [], _. split; [intros x Hx Hg; apply F; [easy|now destruct (goes x)]|]. rewrite settle_cells. cbn [set_size set_cells t_cells fresh_cells].
  rewrite app_nil_r. split; [reflexivity|]. cbn [settle add_count shift_others set_others reassign set_cells set_size t_others t_at t_nextb length]. rewrite ids_moved. unfold id in *. cbn. rewrite N.add_0_r. easy.
Qed.
Lemma x_step_form x o d' : own_ids (x_table x) -> tstep (x_table x) o = Ok d' ->
  (x_step x o = with_new x d' /\ changed (x_table x) (fun _ => true) d')
  \/ (exists goes, x_step x o = without x goes d' /\ changed (x_table x) (fun c => negb (goes c)) d' /\ t_nextb d' = t_nextb (x_table x)).
Proof.
  intros O. set (d := x_table x) in *. destruct o as [i|i|i|i|r0 c0 r1 c1|i sr sc]; cbn [tstep x_step]; fold d.
  - intros E. left. rewrite E. split; [reflexivity|]. revert E. unfold insert_row. destruct ((i <? 0)%Z || (t_rows d <? i)%Z); [easy|]. intros [= <-].
    rewrite row_fold. apply (changed_add d _ _ (row_inserted i)); [reflexivity|]. intros c _. unfold row_inserted. destruct (i <=? tc_row c)%Z; [easy|]. destruct (i <? tc_row c + tc_rs c)%Z; easy.
  - intros E. left. rewrite E. split; [reflexivity|]. revert E. unfold insert_column. destruct ((i <? 0)%Z || (t_cols d <? i)%Z); [easy|]. intros [= <-].
    rewrite column_fold. apply (changed_add d _ _ (column_inserted i)); [reflexivity|]. intros c _. unfold column_inserted. destruct (i <=? tc_col c)%Z; [easy|]. destruct (i <? tc_col c + tc_cs c)%Z; easy.
  - intros E. right. exists (row_goes i). rewrite E. split; [reflexivity|]. revert E. unfold remove_row. destruct ((i <? 0)%Z || (t_rows d <=? i)%Z); [easy|]. destruct (t_rows d <=? 1)%Z; [easy|]. intros [= <-].
    split; [|reflexivity]. apply changed_filter. intros c _ _. unfold row_removed. destruct ((tc_row c =? i) && (1 <? tc_rs c))%Z; [easy|]. destruct ((tc_row c <? i) && (i <? tc_row c + tc_rs c))%Z; [easy|]. destruct (i <? tc_row c)%Z; easy.
  - intros E. right. exists (column_goes i). rewrite E. split; [reflexivity|]. revert E. unfold remove_column. destruct (t_cols d <=? 1)%Z; [easy|]. destruct ((i <? 0)%Z || (t_cols d <=? i)%Z); [easy|]. intros [= <-].
    split; [|reflexivity]. apply changed_filter. intros c _ _. unfold column_removed. destruct ((tc_col c =? i) && (1 <? tc_cs c))%Z; [easy|]. destruct ((tc_col c <? i) && (i <? tc_col c + tc_cs c))%Z; [easy|]. destruct (i <? tc_col c)%Z; easy.
  - destruct (merge_cells d r0 c0 r1 c1) as [[d1 s]| |] eqn:M; cbn [bind]; try easy. intros [= <-]. right. exists (fun c => starts_in r0 c0 r1 c1 c && negb (N.eqb (tc_id c) s)). split; [reflexivity|].
    revert M. unfold merge_cells. destruct (r1 <? r0)%Z; [easy|]. destruct (c1 <? c0)%Z; [easy|]. destruct ((r0 <? 0)%Z || (t_rows d <=? r1)%Z || (c0 <? 0)%Z || (t_cols d <=? c1)%Z); [easy|].
    destruct (existsb _ (filter (starts_in r0 c0 r1 c1) (t_cells d))); [easy|].
    destruct (find _ (filter (starts_in r0 c0 r1 c1) (t_cells d))) as [s0|] eqn:F; cbn [ok_or bind]; [|easy]. intros [= <- <-].
    apply find_some in F. destruct F as [F _]. apply filter_In in F. destruct F as [Hs _]. split; [|reflexivity].
    match goal with |- changed d ?p (settle ?d1 ?b ?n) => replace d1 with (set_size d1 (t_rows d1) (t_cols d1) (t_widths d1)) by reflexivity end.
    apply changed_filter. intros c Hc _. destruct (N.eqb_spec (tc_id c) (tc_id s0)) as [E|E]; [|easy]. now rewrite (id_unique d c s0 O Hc Hs E).
  - intros E. left. rewrite E. split; [reflexivity|]. destruct (split_ok _ _ _ _ _ E) as (c & Hc & <- & S1 & S2 & _). unfold split_cell in E.
    destruct (Z.ltb_spec sr 1); [lia|]. destruct (Z.ltb_spec sc 1); [lia|]. cbn [orb] in E.
    match type of E with context [find ?g ?m] => destruct (find g m) as [y|] eqn:F end; cbn [ok_or bind] in E; [|easy].
    destruct (tc_rs y <? sr)%Z; [easy|]. destruct (tc_cs y <? sc)%Z; [easy|]. destruct ((tc_rs y =? 1) && (tc_cs y =? 1) && (sr =? 1) && (sc =? 1))%Z; [easy|].
    destruct (sub_cells y sr sc) as [|[[[r k] rs0] cs0] rest]; [easy|]. injection E as <-.
    match goal with |- changed d _ (settle (fold_left ?f rest ?d1) _ _) => change (fold_left f rest d1) with (add_cells d1 rest);
      replace (add_cells d1 rest) with (set_size (add_cells d1 rest) (t_rows (add_cells d1 rest)) (t_cols (add_cells d1 rest)) (t_widths (add_cells d1 rest))) by (now destruct (add_cells d1 rest)) end.
    eapply changed_add; [reflexivity|]. intros z _. cbv beta. match goal with |- context [N.eqb ?u ?v] => destruct (N.eqb u v) end; easy.
Qed.

Lemma cells_filter_perm (p : tcell -> bool) cs : Permutation (cell_ids cs) (cell_ids (filter (fun c => negb (p c)) cs) ++ cell_ids (filter p cs)).
Proof.
  unfold cell_ids, block_ids. rewrite <- map_app, <- flat_map_app. apply Permutation_map. induction cs as [|c cs IH]; [easy|].
  cbn [filter]. destruct (p c); cbn [negb flat_map].
  - rewrite flat_map_app. cbn [flat_map]. rewrite app_assoc, (Permutation_app_comm (flat_map _ _) (tc_blocks c)), <- app_assoc. apply Permutation_app_head. now rewrite <- flat_map_app.
  - cbn [app flat_map]. apply Permutation_app_head. exact IH.
Qed.
Lemma NoDup_app_parts {A} (a b : list A) : NoDup (a ++ b) -> NoDup a /\ NoDup b /\ forall x, In x a -> ~ In x b.
Proof.
  induction a as [|x a IH]; cbn; intros H; [repeat split; [constructor|easy|easy]|]. inversion H; subst. destruct (IH H3) as (N1 & N2 & D). rewrite in_app_iff in H2.
  split; [constructor; tauto|]. split; [easy|]. intros y [<-|Hy]; [tauto|now apply D].
Qed.
Definition kept_text (x x' : xdoc) : Prop := forall b, block_in x b -> block_in x' b -> text_of x' b = text_of x b.
Definition new_text (x x' : xdoc) : Prop := forall b, (t_nextb (x_table x) <= b)%N -> block_in x' b -> text_of x' b = Ok [].
Lemma x_step_layout x o d' a b c : layout x a b c -> own_ids (x_table x) -> tstep (x_table x) o = Ok d' ->
  exists x' c', x_step x o = Ok x' /\ x_table x' = d' /\ x_tid x' = x_tid x /\ layout x' a b c' /\ kept_text x x' /\ new_text x x'.
Proof.
  intros L O E. assert (L0 := L). destruct L as (R & B & A & P & F & NE). destruct (x_step_form x o d' O E) as [(Ex & Ch)|(goes & Ex & Ch & Nb)]; rewrite Ex; clear Ex.
  - destruct (changed_ids _ _ _ Ch) as (n & I & Nb). rewrite (filter_all (fun _ => true)) in I by easy. unfold with_new.
    assert (Ot : block_ids (t_others d') = block_ids (t_others (x_table x)) /\ t_at d' = t_at (x_table x)) by (destruct Ch as (f & qs & l & _ & _ & O1 & O2 & _); easy).
    destruct Ot as [O1 O2]. unfold frame_end. rewrite (walk_total _ _ _ R).
    2:{ intros m Hm. apply (layout_markers _ _ _ _ _ L0) in Hm. rewrite O1, I, map_app. rewrite !in_app_iff in *. cbn [In] in *. rewrite in_app_iff. tauto. }
    2:{ now destruct a. }
    2:{ lia. }
    cbn [bind]. assert (Nw : new_blocks (x_table x) d' = fresh_ids (t_nextb (x_table x)) n).
    { unfold new_blocks. rewrite I, filter_app, (filter_all _ (fresh_ids _ _)).
      - replace (filter _ (cell_ids (t_cells (x_table x)))) with (@nil id); [reflexivity|]. symmetry.
        assert (G : forall y, In y (cell_ids (t_cells (x_table x))) -> N.leb (t_nextb (x_table x)) y = false).
        { intros y Hy. assert (X := F y (or_intror Hy)). apply N.leb_gt. exact X. }
        clear -G. induction (cell_ids (t_cells (x_table x))) as [|y l IH]; [easy|]. cbn. rewrite G by now left. apply IH. intros z Hz. apply G. now right.
      - intros y Hy. apply fresh_ids_in in Hy. apply N.leb_le. unfold id in *. lia. }
    rewrite Nw. destruct (mirror_new_rep (fresh_ids (t_nextb (x_table x)) n) (x_store x) _ R) as (st & Em & Rm).
    + now destruct a.
    + apply fresh_ids_nodup.
    + intros y Hy Hm. apply (layout_markers _ _ _ _ _ L0) in Hm. apply fresh_ids_in in Hy. rewrite in_app_iff in Hm. cbn [In] in Hm.
      assert (X : block_in x y) by (destruct Hm as [Hm|[Hm|Hm]]; [left|discriminate|right]; now apply in_mblock). apply F in X. unfold id in *. lia.
    + rewrite Em. cbn [bind]. exists (mk_xdoc d' st (x_tid x)), (c ++ blanks (fresh_ids (t_nextb (x_table x)) n)).
      do 3 (split; [reflexivity|]). set (x' := mk_xdoc d' st (x_tid x)).
      assert (L' : layout x' a b (c ++ blanks (fresh_ids (t_nextb (x_table x)) n))).
      { unfold layout. cbn [x' x_table x_store x_tid]. split; [now rewrite app_assoc|]. rewrite O1, O2. split; [easy|]. split; [easy|]. split.
        { rewrite map_app, I, map_app, blanks_fst. now apply Permutation_app_tail. }
        split; [|intros Z; rewrite Z in O1; cbn in O1; destruct (t_others (x_table x)); easy].
        intros y Hy. rewrite Nb. destruct Hy as [Hy|Hy]; change (x_table x') with d' in Hy.
        - rewrite O1 in Hy. assert (X := F y (or_introl Hy)). unfold id in *. lia.
        - rewrite I, in_app_iff in Hy. destruct Hy as [Hy|Hy]; [assert (X := F y (or_intror Hy))|apply fresh_ids_in in Hy]; unfold id in *; lia. }
      split; [exact L'|]. split.
      * intros y H1 H2. destruct (layout_in _ _ _ _ _ L0 H1) as (t & Ht & ->). apply (layout_block x' a b (c ++ blanks (fresh_ids (t_nextb (x_table x)) n)) y t L').
        rewrite app_assoc. apply in_app_iff. now left.
      * intros y H1 H2. destruct (layout_in _ _ _ _ _ L' H2) as (t & Ht & ->). rewrite app_assoc in Ht. apply in_app_iff in Ht. destruct Ht as [Ht|Ht].
        -- apply (layout_block _ _ _ _ _ _ L0) in Ht. destruct Ht as [Ht _]. apply F in Ht. unfold id in *. lia.
        -- apply in_map_iff in Ht. destruct Ht as (z & Hz & _). injection Hz as _ <-. reflexivity.
  - destruct (changed_ids _ _ _ Ch) as (n & I & Nb'). assert (n = 0) by (unfold id in *; lia). subst n. cbn in I. rewrite app_nil_r in I.
    assert (Ot : block_ids (t_others d') = block_ids (t_others (x_table x)) /\ t_at d' = t_at (x_table x)) by (destruct Ch as (f & qs & l & _ & _ & O1 & O2 & _); easy).
    destruct Ot as [O1 O2]. unfold without.
    destruct (mirror_gone_rep (cell_ids (filter goes (t_cells (x_table x)))) (x_store x) (a ++ (MAnchor (x_tid x), [FFFC]) :: b) c (cell_ids (t_cells d'))) as (st & c' & Eg & Rg & Pg & Ig).
    + exact R.
    + rewrite I, P. apply Permutation_map. rewrite (cells_filter_perm goes). apply Permutation_app_comm.
    + rewrite Eg. cbn [bind]. exists (mk_xdoc d' st (x_tid x)), c'. do 3 (split; [reflexivity|]). set (x' := mk_xdoc d' st (x_tid x)).
      assert (L' : layout x' a b c').
      { unfold layout. cbn [x' x_table x_store x_tid]. split; [easy|]. rewrite O1, O2. do 3 (split; [easy|]).
        split; [|intros Z; rewrite Z in O1; cbn in O1; destruct (t_others (x_table x)); easy].
        intros y Hy. rewrite Nb. apply F. destruct Hy as [Hy|Hy]; change (x_table x') with d' in Hy; [left; now rewrite <- O1|right]. rewrite I in Hy.
        apply (Permutation_in y (Permutation_sym (cells_filter_perm goes (t_cells (x_table x))))). apply in_app_iff. now left. }
      split; [exact L'|]. split.
      * intros y H1 H2. destruct (layout_in _ _ _ _ _ L' H2) as (t & Ht & ->). symmetry. apply (layout_block x a b c y t L0).
        apply in_app_iff in Ht. apply in_app_iff. destruct Ht as [Ht|Ht]; [now left|right; now apply Ig].
      * intros y H1 H2. exfalso. assert (X : block_in x y).
        { destruct H2 as [H2|H2]; change (x_table x') with d' in H2; [left; now rewrite <- O1|right]. rewrite I in H2.
          apply (Permutation_in y (Permutation_sym (cells_filter_perm goes (t_cells (x_table x))))). apply in_app_iff. now left. }
        apply F in X. unfold id in *. lia.
Qed.
