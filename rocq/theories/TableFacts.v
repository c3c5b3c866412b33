(** Facts on tables. *)
From Coq Require FinFun.
From Verif Require Import Base RopeModel TableModel TableSpec.
Local Open Scope Z_scope.

(** ** Lists *)
Lemma filter_map {A B} (f : A -> B) p l : filter p (map f l) = map f (filter (fun x => p (f x)) l).
Proof. induction l as [|x l IH]; cbn; [easy|]. destruct (p (f x)); cbn; now rewrite IH. Qed.
Lemma filter_ext_in_iff {A} (p q : A -> bool) l : (forall x, In x l -> p x = q x) -> filter p l = filter q l.
Proof. apply filter_ext_in. Qed.
Lemma filter_filter_sub {A} (p q : A -> bool) l : (forall x, In x l -> p x = true -> q x = true) -> filter p (filter q l) = filter p l.
Proof.
  induction l as [|x l IH]; intros H; cbn; [easy|]. destruct (q x) eqn:E; cbn.
  - rewrite IH; [easy|]. intros y Hy. apply H. now right.
  - destruct (p x) eqn:E2; [rewrite (H x) in E by (now left || easy); easy|]. apply IH. intros y Hy. apply H. now right.
Qed.
Lemma filter_none {A} (p : A -> bool) l : (forall x, In x l -> p x = false) -> filter p l = [].
Proof. induction l as [|x l IH]; intros H; cbn; [easy|]. rewrite H by now left. apply IH. intros y Hy. apply H. now right. Qed.

Lemma in_zrange n x : In x (zrange n) <-> 0 <= x < n.
Proof.
  unfold zrange. rewrite in_map_iff. split.
  - intros (k & <- & H). apply in_seq in H. lia.
  - intros H. exists (Z.to_nat x). split; [lia|]. apply in_seq. lia.
Qed.
Lemma nodup_zrange n : NoDup (zrange n).
Proof.
  unfold zrange. generalize (seq_NoDup (Z.to_nat n) 0). generalize (seq 0 (Z.to_nat n)). induction l as [|x l IH]; intros H; [constructor|]. 
  inversion H; subst. cbn [map]. constructor; [|auto]. rewrite in_map_iff. intros (y & E & Hy). apply Nat2Z.inj in E. congruence.
Qed.
Lemma filter_zrange n x : 0 <= x < n -> filter (fun k => k =? x) (zrange n) = [x].
Proof.
  intros H. assert (G : forall l, NoDup l -> In x l -> filter (fun k => k =? x) l = [x]).
  { induction l as [|y l IH]; intros N I; [easy|]. inversion N; subst. cbn. destruct (Z.eqb_spec y x) as [->|Hy].
    - f_equal. apply filter_none. intros z Hz. apply Z.eqb_neq. congruence.
    - destruct I as [I|I]; [congruence|]. now apply IH. }
  apply G; [apply nodup_zrange|now apply in_zrange].
Qed.

(** ** What the bookkeeping of positions leaves alone *)
Lemma covers_shape c c' r k : shape c' = shape c -> covers c' r k = covers c r k.
Proof. unfold shape. intros [= E1 E2 E3 E4 E5]. unfold covers. congruence. Qed.
Lemma assigned_content l bs : content (map (assigned l) bs) = content bs.
Proof.
  unfold content. rewrite map_map. apply map_ext. intros b. unfold assigned. match goal with |- context [find ?g ?m] => destruct (find g m) as [[i p]|] end; easy.
Qed.
Definition settled (l : list (id * Z)) (c : tcell) : tcell := set_blocks c (map (assigned l) (tc_blocks c)).
Lemma settled_shape l c : shape (settled l c) = shape c. Proof. reflexivity. Qed.
Lemma settled_same l c : same_cell c (settled l c).
Proof. split; [reflexivity|]. split; [reflexivity|]. cbn. apply assigned_content. Qed.
Lemma settle_cells d base n : t_cells (settle d base n) = map (settled (assignments d base)) (t_cells d).
Proof. reflexivity. Qed.
Lemma settled_covering l cs r k :
  filter (fun c => covers c r k) (map (settled l) cs) = map (settled l) (filter (fun c => covers c r k) cs).
Proof. rewrite filter_map. f_equal. Qed.
Lemma covering_settle d base n r k : covering (settle d base n) r k = map (settled (assignments d base)) (covering d r k).
Proof. unfold covering. rewrite settle_cells. apply settled_covering. Qed.
Lemma ids_settled l cs : map tc_id (map (settled l) cs) = map tc_id cs.
Proof. rewrite map_map. apply map_ext. reflexivity. Qed.
(** The grid only depends on the size and the shapes. *)
Lemma grid_map d d' l : t_rows d' = t_rows d -> t_cols d' = t_cols d -> t_cells d' = map (settled l) (t_cells d) -> grid d' <-> grid d.
Proof.
  intros R0 C0 L0. unfold grid, slot. rewrite R0, C0, L0.
  assert (V : forall r k, covering d' r k = map (settled l) (covering d r k)).
  { intros r k. unfold covering. rewrite L0. apply settled_covering. }
  split; intros (R & C & B & E); (split; [easy|]); (split; [easy|]); split.
  - intros c Hc. destruct (B (settled l c)) as (H1 & H2 & H3); [now apply in_map|]. split; [easy|]. split; [easy|].
    intros r k H. apply H3. exact H.
  - intros r k H. destruct (E r k H) as [c Hc]. rewrite V in Hc. destruct (covering d r k) as [|x [|y l']]; try easy. eauto.
  - intros c' Hc. apply in_map_iff in Hc. destruct Hc as (c & <- & Hc). destruct (B c Hc) as (H1 & H2 & H3). split; [easy|]. split; [easy|].
    intros r k H. apply H3. exact H.
  - intros r k H. destruct (E r k H) as [c Hc]. rewrite V, Hc. cbn. eauto.
Qed.
Lemma grid_settle d base n : grid (settle d base n) <-> grid d.
Proof. now apply (grid_map d _ (assignments d base)). Qed.
Lemma own_ids_settle d base n : own_ids d -> own_ids (settle d base n).
Proof.
  intros [N F]. split; rewrite settle_cells; [now rewrite ids_settled|]. intros c Hc. apply in_map_iff in Hc.
  destruct Hc as (x & <- & Hx). exact (F x Hx).
Qed.
Lemma same_cell_trans a b c : same_cell a b -> same_cell b c -> same_cell a c.
Proof. unfold same_cell. intuition congruence. Qed.

(** ** New cells *)
Fixpoint fresh_cells (n nb : id) (qs : list (Z * Z * Z * Z)) : list tcell :=
  match qs with
  | [] => []
  | (r, k, rs, cs) :: rest => mk_tcell n r k rs cs 0%N [mk_tblock nb 0 0] :: fresh_cells (N.succ n) (N.succ nb) rest
  end.
Definition add_cells (d : tdoc) (qs : list (Z * Z * Z * Z)) : tdoc :=
  fold_left (fun d '(r, k, rs, cs) => new_cell d r k rs cs) qs d.
Lemma add_cells_spec qs : forall d, let d' := add_cells d qs in
  t_cells d' = t_cells d ++ fresh_cells (t_next d) (t_nextb d) qs /\ t_rows d' = t_rows d /\ t_cols d' = t_cols d
  /\ t_widths d' = t_widths d /\ t_others d' = t_others d /\ t_at d' = t_at d /\ t_count d' = t_count d /\ t_chars d' = t_chars d
  /\ t_next d' = (t_next d + N.of_nat (length qs))%N /\ t_nextb d' = (t_nextb d + N.of_nat (length qs))%N.
Proof.
  induction qs as [|[[[r k] rs] cs] qs IH]; intros d.
  - cbn. rewrite app_nil_r, !N.add_0_r. repeat split.
  - cbv zeta in *. change (add_cells d ((r, k, rs, cs) :: qs)) with (add_cells (new_cell d r k rs cs) qs).
    destruct (IH (new_cell d r k rs cs)) as (H1 & H2 & H3 & H4 & H5 & H6 & H7 & H8 & H9 & H10).
    rewrite H1, H2, H3, H4, H5, H6, H7, H8, H9, H10. cbn [new_cell t_cells t_rows t_cols t_widths t_others t_at t_count t_chars t_next t_nextb fresh_cells length].
    rewrite <- app_assoc. cbn [app]. repeat split; unfold id in *; lia.
Qed.
Lemma fold_quads {A} (f : A -> Z * Z * Z * Z) l : forall d,
  fold_left (fun d x => let '(r, k, rs, cs) := f x in new_cell d r k rs cs) l d = add_cells d (map f l).
Proof. induction l as [|x l IH]; intros d; [easy|]. cbn [fold_left map]. rewrite IH. unfold add_cells. cbn [fold_left]. now destruct (f x) as [[[r k] rs] cs]. Qed.
Lemma row_fold i l d : fold_left (fun d c => new_cell d i c 1 1) l d = add_cells d (map (fun k => (i, k, 1, 1)) l).
Proof. apply (fold_quads (fun k => (i, k, 1, 1))). Qed.
Lemma column_fold i l d : fold_left (fun d r => new_cell d r i 1 1) l d = add_cells d (map (fun r => (r, i, 1, 1)) l).
Proof. apply (fold_quads (fun r => (r, i, 1, 1))). Qed.

Lemma fresh_in qs : forall n nb c, In c (fresh_cells n nb qs) ->
  (n <= tc_id c < n + N.of_nat (length qs))%N /\ tc_fmt c = 0%N /\ (exists i, content (tc_blocks c) = [(i, 0)])
  /\ In (tc_row c, tc_col c, tc_rs c, tc_cs c) qs.
Proof.
  induction qs as [|[[[r k] rs] cs] qs IH]; intros n nb c; cbn [fresh_cells In length]; [easy|]. intros [<-|H].
  - cbn. split; [unfold id in *; lia|]. split; [easy|]. split; [now eexists|now left].
  - destruct (IH _ _ _ H) as (H1 & H2 & H3 & H4). split; [unfold id in *; lia|]. auto.
Qed.
Lemma fresh_nodup qs : forall n nb, NoDup (map tc_id (fresh_cells n nb qs)).
Proof.
  induction qs as [|[[[r k] rs] cs] qs IH]; intros n nb; cbn; [constructor|]. constructor; [|apply IH].
  rewrite in_map_iff. intros (c & E & H). apply fresh_in in H. unfold id in *. lia.
Qed.
(** Which new cells cover a slot. *)
Definition quad_covers (q : Z * Z * Z * Z) (r k : Z) : bool :=
  let '(row, col, rs, cs) := q in (row <=? r) && (r <? row + rs) && (col <=? k) && (k <? col + cs).
Lemma fresh_cover qs : forall n nb r k,
  length (filter (fun c => covers c r k) (fresh_cells n nb qs)) = length (filter (fun q => quad_covers q r k) qs).
Proof.
  induction qs as [|[[[r0 k0] rs] cs] qs IH]; intros n nb r k; [easy|]. cbn [fresh_cells filter].
  change (covers (mk_tcell n r0 k0 rs cs 0%N [mk_tblock nb 0 0]) r k) with (quad_covers (r0, k0, rs, cs) r k).
  destruct (quad_covers _ _ _); cbn [length]; now rewrite IH.
Qed.
Lemma own_ids_add d qs : own_ids d -> own_ids (add_cells d qs).
Proof.
  intros [N F]. destruct (add_cells_spec qs d) as (H1 & _ & _ & _ & _ & _ & _ & _ & H9 & _). split; rewrite H1.
  - rewrite map_app. clear -N F. generalize (fresh_nodup qs (t_next d) (t_nextb d)). intros N2.
    assert (D : forall x, In x (map tc_id (t_cells d)) -> ~ In x (map tc_id (fresh_cells (t_next d) (t_nextb d) qs))).
    { intros x H1 H2. apply in_map_iff in H1, H2. destruct H1 as (c & <- & Hc), H2 as (c' & E & Hc'). apply fresh_in in Hc'.
      specialize (F _ Hc). unfold id in *. lia. }
    revert N D. generalize (map tc_id (t_cells d)). induction l as [|x l IH]; intros N1 D; [easy|]. cbn. inversion N1; subst. constructor.
    + rewrite in_app_iff. intros [H|H]; [easy|]. exact (D x (or_introl eq_refl) H).
    + apply IH; [easy|]. intros y Hy. apply D. now right.
  - intros c. rewrite in_app_iff, H9. intros [H|H]; [specialize (F _ H)|apply fresh_in in H]; unfold id in *; lia.
Qed.
Lemma own_ids_map d f cs : own_ids d -> (forall c, tc_id (f c) = tc_id c) -> cs = map f (t_cells d) -> own_ids (set_cells d cs).
Proof.
  intros [N F] H ->. split; cbn.
  - rewrite map_map. erewrite map_ext; [exact N|]. intros c. apply H.
  - intros c Hc. apply in_map_iff in Hc. destruct Hc as (x & <- & Hx). rewrite H. auto.
Qed.
Lemma own_ids_filter d p : own_ids d -> own_ids (set_cells d (filter p (t_cells d))).
Proof.
  intros [N F]. split; cbn.
  - clear F. induction (t_cells d) as [|c l IH]; [easy|]. cbn in *. inversion N; subst. destruct (p c); [|auto]. cbn. constructor; [|auto].
    rewrite in_map_iff. intros (x & E & Hx). apply filter_In in Hx. apply H1. rewrite <- E. apply in_map. apply Hx.
  - intros c Hc. apply filter_In in Hc. apply F. apply Hc.
Qed.
Lemma own_ids_size d r c ws : own_ids d -> own_ids (set_size d r c ws). Proof. easy. Qed.

Lemma covers_iff c r k : covers c r k = true <-> tc_row c <= r < tc_row c + tc_rs c /\ tc_col c <= k < tc_col c + tc_cs c.
Proof. unfold covers. rewrite !andb_true_iff, !Z.leb_le, !Z.ltb_lt. lia. Qed.
Lemma quad_covers_iff row col rs cs r k : quad_covers (row, col, rs, cs) r k = true <-> row <= r < row + rs /\ col <= k < col + cs.
Proof. unfold quad_covers. rewrite !andb_true_iff, !Z.leb_le, !Z.ltb_lt. lia. Qed.
Lemma covers_not c r k : covers c r k = false <-> ~ (tc_row c <= r < tc_row c + tc_rs c /\ tc_col c <= k < tc_col c + tc_cs c).
Proof. rewrite <- covers_iff. destruct (covers c r k); intuition congruence. Qed.
Ltac zb := repeat match goal with
  | |- context [Z.leb ?a ?b] => destruct (Z.leb_spec a b)
  | |- context [Z.ltb ?a ?b] => destruct (Z.ltb_spec a b)
  | |- context [Z.eqb ?a ?b] => destruct (Z.eqb_spec a b)
  end.
Ltac cov := match goal with |- ?a = ?b => apply eq_true_iff_eq end; rewrite ?covers_iff;
  cbn [tc_id tc_row tc_col tc_rs tc_cs tc_fmt tc_blocks set_spans] in *; try lia.

(** ** Adding and keeping *)
Lemma row_quads i k n r : 0 <= k < n ->
  filter (fun q => quad_covers q r k) (map (fun k => (i, k, 1, 1)) (zrange n)) = if r =? i then [(i, k, 1, 1)] else [].
Proof.
  intros H. rewrite filter_map. destruct (Z.eqb_spec r i) as [->|Hr].
  - rewrite (filter_ext _ (fun x => x =? k)); [now rewrite filter_zrange|]. intros x. apply eq_true_iff_eq. rewrite quad_covers_iff, Z.eqb_eq. lia.
  - rewrite filter_none; [easy|]. intros x _. apply not_true_is_false. rewrite quad_covers_iff. lia.
Qed.
Lemma column_quads i k n r : 0 <= r < n ->
  filter (fun q => quad_covers q r k) (map (fun r => (r, i, 1, 1)) (zrange n)) = if k =? i then [(r, i, 1, 1)] else [].
Proof.
  intros H. rewrite filter_map. destruct (Z.eqb_spec k i) as [->|Hr].
  - rewrite (filter_ext _ (fun x => x =? r)); [now rewrite filter_zrange|]. intros x. apply eq_true_iff_eq. rewrite quad_covers_iff, Z.eqb_eq. lia.
  - rewrite filter_none; [easy|]. intros x _. apply not_true_is_false. rewrite quad_covers_iff. lia.
Qed.
Lemma fresh_covering n nb qs r k : filter (fun q => quad_covers q r k) qs = [] -> filter (fun c => covers c r k) (fresh_cells n nb qs) = [].
Proof. intros H. apply length_zero_iff_nil. now rewrite fresh_cover, H. Qed.
Lemma fresh_covering_one n nb qs r k q : filter (fun q => quad_covers q r k) qs = [q] ->
  exists c, filter (fun c => covers c r k) (fresh_cells n nb qs) = [c] /\ In c (fresh_cells n nb qs).
Proof.
  intros H. assert (L := fresh_cover qs n nb r k). rewrite H in L.
  destruct (filter (fun c => covers c r k) (fresh_cells n nb qs)) as [|c [|]] eqn:E; try easy.
  exists c. split; [easy|]. assert (I : In c (filter (fun c => covers c r k) (fresh_cells n nb qs))) by (rewrite E; now left).
  apply filter_In in I. apply I.
Qed.
Lemma fresh_blank d qs c f : own_ids d -> In c (fresh_cells (t_next d) (t_nextb d) qs) -> (forall x, same_cell x (f x)) -> blank d (f c).
Proof.
  intros [_ F] H S. destruct (S c) as (S1 & S2 & S3). apply fresh_in in H. destruct H as (H1 & H2 & H3 & _).
  split; [|rewrite S2, S3; auto]. rewrite S1, in_map_iff. intros (x & E & Hx). specialize (F _ Hx). unfold id in *. lia.
Qed.

(** ** Rows *)
Definition row_after (i r : Z) : Z := if r <? i then r else r + 1.
Lemma row_slot i c r k : 1 <= tc_rs c -> ~ (tc_row c < i < tc_row c + tc_rs c) ->
  covers (row_inserted i c) r k = if r <? i then covers c r k else if r =? i then false else covers c (r - 1) k.
Proof.
  intros H S. unfold row_inserted. zb; try lia; apply eq_true_iff_eq; rewrite ?covers_iff; cbn [tc_row tc_col tc_rs tc_cs]; intuition lia.
Qed.
Lemma row_same i c : same_cell c (row_inserted i c).
Proof. unfold row_inserted. zb; repeat split. Qed.
Lemma row_keeps i c r k : covers c r k = true -> covers (row_inserted i c) (row_after i r) k = true.
Proof. unfold row_inserted, row_after. rewrite covers_iff. zb; rewrite covers_iff; cbn [tc_row tc_col tc_rs tc_cs]; lia. Qed.

Definition row_new (d : tdoc) (i : Z) : list tcell := fresh_cells (t_next d) (t_nextb d) (map (fun k => (i, k, 1, 1)) (zrange (t_cols d))).
Lemma insert_row_eq d i : 0 <= i <= t_rows d -> exists d1 base n,
  insert_row d i = Ok (settle d1 base n) /\ t_rows d1 = t_rows d + 1 /\ t_cols d1 = t_cols d /\ t_widths d1 = t_widths d
  /\ t_cells d1 = map (row_inserted i) (t_cells d) ++ row_new d i /\ (own_ids d -> own_ids d1).
Proof.
  intros H. unfold insert_row. destruct (Z.ltb_spec i 0); [lia|]. destruct (Z.ltb_spec (t_rows d) i); [lia|]. cbn [orb].
  rewrite row_fold. set (dd := set_cells d (map (row_inserted i) (t_cells d))).
  destruct (add_cells_spec (map (fun k => (i, k, 1, 1)) (zrange (t_cols d))) dd) as (E1 & _).
  eexists (set_size (add_cells dd _) _ _ _), _, _. split; [reflexivity|]. split; [reflexivity|]. split; [reflexivity|]. split; [reflexivity|].
  split; [exact E1|]. intros O. apply own_ids_size, own_ids_add. apply (own_ids_map d (row_inserted i)); [easy| |easy]. intros c. apply row_same.
Qed.

Lemma grid_cell d c : grid d -> In c (t_cells d) -> 1 <= tc_rs c /\ 1 <= tc_cs c /\ 0 <= tc_row c /\ tc_row c + tc_rs c <= t_rows d
  /\ 0 <= tc_col c /\ tc_col c + tc_cs c <= t_cols d.
Proof.
  intros (_ & _ & B & _) H. destruct (B c H) as (H1 & H2 & H3).
  destruct (H3 (tc_row c) (tc_col c)) as [A1 A2]; [rewrite covers_iff; lia|].
  destruct (H3 (tc_row c + tc_rs c - 1) (tc_col c + tc_cs c - 1)) as [A3 A4]; [rewrite covers_iff; lia|]. lia.
Qed.
Lemma grid_intro d : 1 <= t_rows d -> 1 <= t_cols d ->
  (forall c, In c (t_cells d) -> 1 <= tc_rs c /\ 1 <= tc_cs c /\ 0 <= tc_row c /\ tc_row c + tc_rs c <= t_rows d
     /\ 0 <= tc_col c /\ tc_col c + tc_cs c <= t_cols d) ->
  (forall r k, slot d r k -> exists c, covering d r k = [c]) -> grid d.
Proof.
  intros R C B E. split; [easy|]. split; [easy|]. split; [|easy]. intros c H. destruct (B c H) as (H1 & H2 & H3 & H4 & H5 & H6).
  split; [easy|]. split; [easy|]. intros r k. rewrite covers_iff. unfold slot. lia.
Qed.
Lemma in_covering d r k c l : covering d r k = c :: l -> In c (t_cells d) /\ covers c r k = true.
Proof. intros H. apply (filter_In (fun c => covers c r k)). fold (covering d r k). rewrite H. now left. Qed.

(** Slots of the new table. *)
Lemma row_covering d i r k : grid d -> ~ across_row d i -> 0 <= k < t_cols d ->
  filter (fun c => covers c r k) (map (row_inserted i) (t_cells d) ++ row_new d i)
  = if r <? i then map (row_inserted i) (covering d r k)
    else if r =? i then filter (fun c => covers c r k) (row_new d i)
    else map (row_inserted i) (covering d (r - 1) k).
Proof.
  intros G S K. rewrite filter_app, filter_map. unfold covering, row_new.
  assert (P : forall c, In c (t_cells d) -> covers (row_inserted i c) r k = if r <? i then covers c r k else if r =? i then false else covers c (r - 1) k).
  { intros c Hc. apply row_slot; [apply (grid_cell d c G Hc)|]. intros A. apply S. now exists c. }
  destruct (Z.ltb_spec r i) as [H|H].
  - rewrite (filter_ext_in _ _ _ P). rewrite (fresh_covering _ _ _ r k); [now rewrite app_nil_r|]. rewrite row_quads by easy.
    destruct (Z.eqb_spec r i); [lia|easy].
  - destruct (Z.eqb_spec r i) as [E|E].
    + rewrite filter_none; [easy|]. exact P.
    + rewrite (filter_ext_in _ _ _ P). rewrite (fresh_covering _ _ _ r k); [now rewrite app_nil_r|]. rewrite row_quads by easy.
      destruct (Z.eqb_spec r i); [lia|easy].
Qed.
Lemma row_new_covering d i k : 0 <= k < t_cols d ->
  exists c, filter (fun c => covers c i k) (row_new d i) = [c] /\ In c (row_new d i).
Proof. intros K. apply (fresh_covering_one _ _ _ _ _ (i, k, 1, 1)). rewrite row_quads by easy. now rewrite Z.eqb_refl. Qed.
Lemma row_new_in d i c : In c (row_new d i) -> tc_row c = i /\ tc_rs c = 1 /\ tc_cs c = 1 /\ 0 <= tc_col c < t_cols d.
Proof.
  intros H. apply fresh_in in H. destruct H as (_ & _ & _ & H). apply in_map_iff in H. destruct H as (k & [= <- <- <- <-] & H).
  apply in_zrange in H. easy.
Qed.

Lemma insert_row_error d i : ~ (0 <= i <= t_rows d) -> insert_row d i = Err.
Proof.
  intros H. unfold insert_row. destruct (Z.ltb_spec i 0); [easy|]. destruct (Z.ltb_spec (t_rows d) i); [easy|lia].
Qed.
Lemma insert_row_keeps d i : grid d -> own_ids d -> 0 <= i <= t_rows d -> ~ across_row d i ->
  exists d', insert_row d i = Ok d' /\ grid d' /\ own_ids d' /\ t_rows d' = t_rows d + 1 /\ t_cols d' = t_cols d /\ t_widths d' = t_widths d
    /\ (forall r k c, covering d r k = [c] -> exists c', covering d' (if r <? i then r else r + 1) k = [c'] /\ same_cell c c')
    /\ (forall k, 0 <= k < t_cols d -> exists c', covering d' i k = [c'] /\ blank d c').
Proof.
  intros G O I S. destruct (insert_row_eq d i I) as (d1 & base & n & E & R & C & W & L & O1). rewrite E.
  eexists. split; [reflexivity|].
  assert (K : forall r k c, covering d r k = [c] -> exists c', covering (settle d1 base n) (row_after i r) k = [c'] /\ same_cell c c').
  { intros r k c H. destruct (in_covering _ _ _ _ _ H) as [Hc Hv]. assert (B := grid_cell d c G Hc). apply covers_iff in Hv.
    rewrite covering_settle. unfold covering at 1. rewrite L, row_covering by (easy || lia). unfold row_after. destruct (Z.ltb_spec r i) as [Hr|Hr].
    - destruct (Z.ltb_spec r i); [|lia]. rewrite H. cbn [map]. eexists. split; [reflexivity|].
      eapply same_cell_trans; [apply row_same|apply settled_same].
    - destruct (Z.ltb_spec (r + 1) i); [lia|]. destruct (Z.eqb_spec (r + 1) i); [lia|]. replace (r + 1 - 1) with r by lia. rewrite H. cbn [map].
      eexists. split; [reflexivity|]. eapply same_cell_trans; [apply row_same|apply settled_same]. }
  assert (N : forall k, 0 <= k < t_cols d -> exists c', covering (settle d1 base n) i k = [c'] /\ blank d c').
  { intros k Hk. rewrite covering_settle. unfold covering at 1. rewrite L, row_covering by easy. rewrite Z.ltb_irrefl, Z.eqb_refl.
    destruct (row_new_covering d i k Hk) as (c & -> & Hc). cbn [map]. eexists. split; [reflexivity|].
    apply (fresh_blank d _ c (settled _) O Hc). apply settled_same. }
  split; [|split; [|split; [|split; [|split; [|split]]]]]; try easy.
  - apply grid_settle. apply grid_intro.
    + destruct G. lia.
    + destruct G as (_ & G & _). lia.
    + rewrite L, R, C. intros c. rewrite in_app_iff. intros [H|H].
      * apply in_map_iff in H. destruct H as (x & <- & Hx). assert (B := grid_cell d x G Hx). unfold row_inserted. zb; cbn [tc_row tc_col tc_rs tc_cs]; lia.
      * apply row_new_in in H. lia.
    + unfold slot. rewrite R, C. intros r k [Hr Hk]. unfold covering. rewrite L, row_covering by easy.
      destruct (Z.ltb_spec r i); [|destruct (Z.eqb_spec r i) as [->|]].
      * destruct G as (_ & _ & _ & G). destruct (G r k) as [c ->]; [unfold slot; lia|]. cbn. eauto.
      * destruct (row_new_covering d i k Hk) as (c & -> & _). eauto.
      * destruct G as (_ & _ & _ & G). destruct (G (r - 1) k) as [c ->]; [unfold slot; lia|]. cbn. eauto.
  - apply own_ids_settle. auto.
Qed.
(** When a cell lies across the line the result is not a grid. *)
Lemma insert_row_across d i : grid d -> across_row d i -> exists d', insert_row d i = Ok d' /\ ~ grid d'.
Proof.
  intros G (c & Hc & A). assert (B := grid_cell d c G Hc). destruct (insert_row_eq d i) as (d1 & base & n & E & R & C & W & L & _); [lia|].
  exists (settle d1 base n). split; [exact E|]. rewrite grid_settle. intros (_ & _ & _ & G1).
  destruct (G1 i (tc_col c)) as [x Hx]; [unfold slot; rewrite R, C; lia|]. unfold covering in Hx. rewrite L, filter_app in Hx.
  destruct (row_new_covering d i (tc_col c)) as (y & Hy & _); [lia|]. rewrite Hy in Hx.
  destruct (filter (fun c0 => covers c0 i (tc_col c)) (map (row_inserted i) (t_cells d))) as [|z l] eqn:F; [|now destruct l].
  assert (I : In (row_inserted i c) (filter (fun c0 => covers c0 i (tc_col c)) (map (row_inserted i) (t_cells d)))).
  { apply filter_In. split; [now apply in_map|]. unfold row_inserted. zb; try lia. rewrite covers_iff. cbn [tc_row tc_col tc_rs tc_cs]. lia. }
  now rewrite F in I.
Qed.

(** ** Columns *)
Definition column_after (i k : Z) : Z := if k <? i then k else k + 1.
Lemma column_slot i c k r : 1 <= tc_cs c -> ~ (tc_col c < i < tc_col c + tc_cs c) ->
  covers (column_inserted i c) r k = if k <? i then covers c r k else if k =? i then false else covers c r (k - 1).
Proof.
  intros H S. unfold column_inserted. zb; try lia; apply eq_true_iff_eq; rewrite ?covers_iff; cbn [tc_col tc_row tc_cs tc_rs]; intuition lia.
Qed.
Lemma column_same i c : same_cell c (column_inserted i c).
Proof. unfold column_inserted. zb; repeat split. Qed.
Lemma column_keeps i c k r : covers c r k = true -> covers (column_inserted i c) r (column_after i k) = true.
Proof. unfold column_inserted, column_after. rewrite covers_iff. zb; rewrite covers_iff; cbn [tc_col tc_row tc_cs tc_rs]; lia. Qed.

Definition column_new (d : tdoc) (i : Z) : list tcell := fresh_cells (t_next d) (t_nextb d) (map (fun r => (r, i, 1, 1)) (zrange (t_rows d))).
Lemma insert_column_eq d i : 0 <= i <= t_cols d -> exists d1 base n,
  insert_column d i = Ok (settle d1 base n) /\ t_cols d1 = t_cols d + 1 /\ t_rows d1 = t_rows d /\ t_widths d1 = put_at (t_widths d) (Nat.min (Z.to_nat i) (length (t_widths d))) 0
  /\ t_cells d1 = map (column_inserted i) (t_cells d) ++ column_new d i /\ (own_ids d -> own_ids d1).
Proof.
  intros H. unfold insert_column. destruct (Z.ltb_spec i 0); [lia|]. destruct (Z.ltb_spec (t_cols d) i); [lia|]. cbn [orb].
  rewrite column_fold. set (dd := set_cells d (map (column_inserted i) (t_cells d))).
  destruct (add_cells_spec (map (fun r => (r, i, 1, 1)) (zrange (t_rows d))) dd) as (E1 & _).
  eexists (set_size (add_cells dd _) _ _ _), _, _. split; [reflexivity|]. split; [reflexivity|]. split; [reflexivity|]. split; [reflexivity|].
  split; [exact E1|]. intros O. apply own_ids_size, own_ids_add. apply (own_ids_map d (column_inserted i)); [easy| |easy]. intros c. apply column_same.
Qed.

(** Slots of the new table. *)
Lemma column_covering d i k r : grid d -> ~ across_column d i -> 0 <= r < t_rows d ->
  filter (fun c => covers c r k) (map (column_inserted i) (t_cells d) ++ column_new d i)
  = if k <? i then map (column_inserted i) (covering d r k)
    else if k =? i then filter (fun c => covers c r k) (column_new d i)
    else map (column_inserted i) (covering d r (k - 1)).
Proof.
  intros G S K. rewrite filter_app, filter_map. unfold covering, column_new.
  assert (P : forall c, In c (t_cells d) -> covers (column_inserted i c) r k = if k <? i then covers c r k else if k =? i then false else covers c r (k - 1)).
  { intros c Hc. apply column_slot; [apply (grid_cell d c G Hc)|]. intros A. apply S. now exists c. }
  destruct (Z.ltb_spec k i) as [H|H].
  - rewrite (filter_ext_in _ _ _ P). rewrite (fresh_covering _ _ _ r k); [now rewrite app_nil_r|]. rewrite column_quads by easy.
    destruct (Z.eqb_spec k i); [lia|easy].
  - destruct (Z.eqb_spec k i) as [E|E].
    + rewrite filter_none; [easy|]. exact P.
    + rewrite (filter_ext_in _ _ _ P). rewrite (fresh_covering _ _ _ r k); [now rewrite app_nil_r|]. rewrite column_quads by easy.
      destruct (Z.eqb_spec k i); [lia|easy].
Qed.
Lemma column_new_covering d i r : 0 <= r < t_rows d ->
  exists c, filter (fun c => covers c r i) (column_new d i) = [c] /\ In c (column_new d i).
Proof. intros K. apply (fresh_covering_one _ _ _ _ _ (r, i, 1, 1)). rewrite column_quads by easy. now rewrite Z.eqb_refl. Qed.
Lemma column_new_in d i c : In c (column_new d i) -> tc_col c = i /\ tc_cs c = 1 /\ tc_rs c = 1 /\ 0 <= tc_row c < t_rows d.
Proof.
  intros H. apply fresh_in in H. destruct H as (_ & _ & _ & H). apply in_map_iff in H. destruct H as (r & [= <- <- <- <-] & H).
  apply in_zrange in H. easy.
Qed.

Lemma insert_column_error d i : ~ (0 <= i <= t_cols d) -> insert_column d i = Err.
Proof.
  intros H. unfold insert_column. destruct (Z.ltb_spec i 0); [easy|]. destruct (Z.ltb_spec (t_cols d) i); [easy|lia].
Qed.
Lemma insert_column_keeps d i : grid d -> own_ids d -> 0 <= i <= t_cols d -> ~ across_column d i ->
  exists d', insert_column d i = Ok d' /\ grid d' /\ own_ids d' /\ t_cols d' = t_cols d + 1 /\ t_rows d' = t_rows d /\ t_widths d' = put_at (t_widths d) (Nat.min (Z.to_nat i) (length (t_widths d))) 0
    /\ (forall r k c, covering d r k = [c] -> exists c', covering d' r (if k <? i then k else k + 1) = [c'] /\ same_cell c c')
    /\ (forall r, 0 <= r < t_rows d -> exists c', covering d' r i = [c'] /\ blank d c').
Proof.
  intros G O I S. destruct (insert_column_eq d i I) as (d1 & base & n & E & R & C & W & L & O1). rewrite E.
  eexists. split; [reflexivity|].
  assert (K : forall r k c, covering d r k = [c] -> exists c', covering (settle d1 base n) r (column_after i k) = [c'] /\ same_cell c c').
  { intros r k c H. destruct (in_covering _ _ _ _ _ H) as [Hc Hv]. assert (B := grid_cell d c G Hc). apply covers_iff in Hv.
    rewrite covering_settle. unfold covering at 1. rewrite L, column_covering by (easy || lia). unfold column_after. destruct (Z.ltb_spec k i) as [Hk|Hk].
    - destruct (Z.ltb_spec k i); [|lia]. rewrite H. cbn [map]. eexists. split; [reflexivity|].
      eapply same_cell_trans; [apply column_same|apply settled_same].
    - destruct (Z.ltb_spec (k + 1) i); [lia|]. destruct (Z.eqb_spec (k + 1) i); [lia|]. replace (k + 1 - 1) with k by lia. rewrite H. cbn [map].
      eexists. split; [reflexivity|]. eapply same_cell_trans; [apply column_same|apply settled_same]. }
  assert (N : forall r, 0 <= r < t_rows d -> exists c', covering (settle d1 base n) r i = [c'] /\ blank d c').
  { intros r Hr. rewrite covering_settle. unfold covering at 1. rewrite L, column_covering by easy. rewrite Z.ltb_irrefl, Z.eqb_refl.
    destruct (column_new_covering d i r Hr) as (c & -> & Hc). cbn [map]. eexists. split; [reflexivity|].
    apply (fresh_blank d _ c (settled _) O Hc). apply settled_same. }
  split; [|split; [|split; [|split; [|split; [|split]]]]]; try easy.
  - apply grid_settle. apply grid_intro.
    + destruct G. lia.
    + destruct G as (_ & G & _). lia.
    + rewrite L, R, C. intros c. rewrite in_app_iff. intros [H|H].
      * apply in_map_iff in H. destruct H as (x & <- & Hx). assert (B := grid_cell d x G Hx). unfold column_inserted. zb; cbn [tc_col tc_row tc_cs tc_rs]; lia.
      * apply column_new_in in H. lia.
    + unfold slot. rewrite R, C. intros r k [Hr Hk]. unfold covering. rewrite L, column_covering by easy.
      destruct (Z.ltb_spec k i); [|destruct (Z.eqb_spec k i) as [->|]].
      * destruct G as (_ & _ & _ & G). destruct (G r k) as [c ->]; [unfold slot; lia|]. cbn. eauto.
      * destruct (column_new_covering d i r Hr) as (c & -> & _). eauto.
      * destruct G as (_ & _ & _ & G). destruct (G r (k - 1)) as [c ->]; [unfold slot; lia|]. cbn. eauto.
  - apply own_ids_settle. auto.
Qed.
(** When a cell lies across the line the result is not a grid. *)
Lemma insert_column_across d i : grid d -> across_column d i -> exists d', insert_column d i = Ok d' /\ ~ grid d'.
Proof.
  intros G (c & Hc & A). assert (B := grid_cell d c G Hc). destruct (insert_column_eq d i) as (d1 & base & n & E & R & C & W & L & _); [lia|].
  exists (settle d1 base n). split; [exact E|]. rewrite grid_settle. intros (_ & _ & _ & G1).
  destruct (G1 (tc_row c) i) as [x Hx]; [unfold slot; rewrite R, C; lia|]. unfold covering in Hx. rewrite L, filter_app in Hx.
  destruct (column_new_covering d i (tc_row c)) as (y & Hy & _); [lia|]. rewrite Hy in Hx.
  destruct (filter (fun c0 => covers c0 (tc_row c) i) (map (column_inserted i) (t_cells d))) as [|z l] eqn:F; [|now destruct l].
  assert (I : In (column_inserted i c) (filter (fun c0 => covers c0 (tc_row c) i) (map (column_inserted i) (t_cells d)))).
  { apply filter_In. split; [now apply in_map|]. unfold column_inserted. zb; try lia. rewrite covers_iff. cbn [tc_col tc_row tc_cs tc_rs]. lia. }
  now rewrite F in I.
Qed.

(** ** Old slots, whatever cell lies across the line *)
Lemma row_slot_any i c r k : 1 <= tc_rs c -> r <> i -> covers (row_inserted i c) r k = covers c (if r <? i then r else r - 1) k.
Proof.
  intros H N. unfold row_inserted. zb; try lia; apply eq_true_iff_eq; rewrite ?covers_iff; cbn [tc_row tc_col tc_rs tc_cs]; intuition lia.
Qed.
Lemma insert_row_slots d i : grid d -> own_ids d -> 0 <= i <= t_rows d ->
  exists d', insert_row d i = Ok d' /\ own_ids d' /\ t_rows d' = t_rows d + 1 /\ t_cols d' = t_cols d /\ t_widths d' = t_widths d
    /\ (forall r k c, covering d r k = [c] -> exists c', covering d' (if r <? i then r else r + 1) k = [c'] /\ same_cell c c')
    /\ (forall k, 0 <= k < t_cols d -> exists c', In c' (covering d' i k) /\ blank d c')
    /\ (forall c', In c' (t_cells d') -> blank d c' \/ exists c, In c (t_cells d) /\ same_cell c c').
Proof.
  intros G O I. destruct (insert_row_eq d i I) as (d1 & base & n & E & R & C & W & L & O1). rewrite E.
  eexists. split; [reflexivity|]. split; [apply own_ids_settle; auto|]. split; [exact R|]. split; [exact C|]. split; [exact W|]. split; [|split].
  - intros r k c H. destruct (in_covering _ _ _ _ _ H) as [Hc Hv]. assert (B := grid_cell d c G Hc). apply covers_iff in Hv.
    rewrite covering_settle. unfold covering at 1. rewrite L, filter_app, filter_map.
    set (r' := if r <? i then r else r + 1). assert (N : r' <> i) by (unfold r'; zb; lia).
    rewrite (filter_ext_in _ (fun x => covers x r k)).
    + fold (covering d r k). rewrite H. unfold row_new. rewrite (fresh_covering _ _ _ r' k).
      * cbn [app map]. eexists. split; [reflexivity|]. eapply same_cell_trans; [apply row_same|apply settled_same].
      * rewrite row_quads by lia. destruct (Z.eqb_spec r' i); [lia|easy].
    + intros x Hx. rewrite row_slot_any by (easy || apply (grid_cell d x G Hx)). f_equal. unfold r'. zb; lia.
  - intros k Hk. destruct (row_new_covering d i k Hk) as (c & Hc & Hin). exists (settled (assignments d1 base) c). split.
    + rewrite covering_settle. apply in_map. unfold covering. rewrite L, filter_app, Hc. apply in_app_iff. right. now left.
    + apply (fresh_blank d _ c (settled _) O Hin). apply settled_same.
  - intros c' Hc. rewrite settle_cells in Hc. apply in_map_iff in Hc. destruct Hc as (x & <- & Hx). rewrite L in Hx. apply in_app_iff in Hx. destruct Hx as [Hx|Hx].
    + right. apply in_map_iff in Hx. destruct Hx as (y & <- & Hy). exists y. split; [easy|]. eapply same_cell_trans; [apply row_same|apply settled_same].
    + left. apply (fresh_blank d _ x (settled _) O Hx). apply settled_same.
Qed.
Lemma column_slot_any i c r k : 1 <= tc_cs c -> k <> i -> covers (column_inserted i c) r k = covers c r (if k <? i then k else k - 1).
Proof.
  intros H N. unfold column_inserted. zb; try lia; apply eq_true_iff_eq; rewrite ?covers_iff; cbn [tc_row tc_col tc_rs tc_cs]; intuition lia.
Qed.
Lemma insert_column_slots d i : grid d -> own_ids d -> 0 <= i <= t_cols d ->
  exists d', insert_column d i = Ok d' /\ own_ids d' /\ t_rows d' = t_rows d /\ t_cols d' = t_cols d + 1
    /\ t_widths d' = put_at (t_widths d) (Nat.min (Z.to_nat i) (length (t_widths d))) 0
    /\ (forall r k c, covering d r k = [c] -> exists c', covering d' r (if k <? i then k else k + 1) = [c'] /\ same_cell c c')
    /\ (forall r, 0 <= r < t_rows d -> exists c', In c' (covering d' r i) /\ blank d c')
    /\ (forall c', In c' (t_cells d') -> blank d c' \/ exists c, In c (t_cells d) /\ same_cell c c').
Proof.
  intros G O I. destruct (insert_column_eq d i I) as (d1 & base & n & E & R & C & W & L & O1). rewrite E.
  eexists. split; [reflexivity|]. split; [apply own_ids_settle; auto|]. split; [exact C|]. split; [exact R|]. split; [exact W|]. split; [|split].
  - intros r k c H. destruct (in_covering _ _ _ _ _ H) as [Hc Hv]. assert (B := grid_cell d c G Hc). apply covers_iff in Hv.
    rewrite covering_settle. unfold covering at 1. rewrite L, filter_app, filter_map.
    set (k' := if k <? i then k else k + 1). assert (N : k' <> i) by (unfold k'; zb; lia).
    rewrite (filter_ext_in _ (fun x => covers x r k)).
    + fold (covering d r k). rewrite H. unfold column_new. rewrite (fresh_covering _ _ _ r k').
      * cbn [app map]. eexists. split; [reflexivity|]. eapply same_cell_trans; [apply column_same|apply settled_same].
      * rewrite column_quads by lia. destruct (Z.eqb_spec k' i); [lia|easy].
    + intros x Hx. rewrite column_slot_any by (easy || apply (grid_cell d x G Hx)). f_equal. unfold k'. zb; lia.
  - intros k Hk. destruct (column_new_covering d i k Hk) as (c & Hc & Hin). exists (settled (assignments d1 base) c). split.
    + rewrite covering_settle. apply in_map. unfold covering. rewrite L, filter_app, Hc. apply in_app_iff. right. now left.
    + apply (fresh_blank d _ c (settled _) O Hin). apply settled_same.
  - intros c' Hc. rewrite settle_cells in Hc. apply in_map_iff in Hc. destruct Hc as (x & <- & Hx). rewrite L in Hx. apply in_app_iff in Hx. destruct Hx as [Hx|Hx].
    + right. apply in_map_iff in Hx. destruct Hx as (y & <- & Hy). exists y. split; [easy|]. eapply same_cell_trans; [apply column_same|apply settled_same].
    + left. apply (fresh_blank d _ x (settled _) O Hx). apply settled_same.
Qed.

(** ** Removing rows *)
Definition row_left (i r : Z) : Z := if r <? i then r else r + 1.
Lemma row_gone_slot i c r k : 1 <= tc_rs c -> row_goes i c = false -> covers (row_removed i c) r k = covers c (row_left i r) k.
Proof.
  unfold row_goes, row_removed, row_left. rewrite andb_false_iff, !Z.eqb_neq. intros H G. apply eq_true_iff_eq. rewrite (covers_iff c).
  zb; cbn [andb]; rewrite covers_iff; cbn [tc_row tc_col tc_rs tc_cs]; lia.
Qed.
Lemma row_goes_slot i c r k : row_goes i c = true -> covers c (row_left i r) k = false.
Proof. unfold row_goes, row_left. rewrite andb_true_iff, !Z.eqb_eq, covers_not. zb; lia. Qed.
Lemma row_removed_same i c : same_cell c (row_removed i c).
Proof. unfold row_removed. zb; cbn [andb]; repeat split. Qed.

Lemma remove_row_error d i : ~ (0 <= i < t_rows d /\ 1 < t_rows d) -> remove_row d i = Err.
Proof.
  intros H. unfold remove_row. zb; cbn [orb]; easy || lia.
Qed.
Lemma remove_row_keeps d i : grid d -> own_ids d -> 0 <= i < t_rows d -> 1 < t_rows d ->
  exists d', remove_row d i = Ok d' /\ grid d' /\ own_ids d' /\ t_rows d' = t_rows d - 1 /\ t_cols d' = t_cols d /\ t_widths d' = t_widths d
    /\ (forall r k c, covering d r k = [c] -> r <> i -> exists c', covering d' (if r <? i then r else r - 1) k = [c'] /\ same_cell c c')
    /\ (forall c', In c' (t_cells d') -> exists c, In c (t_cells d) /\ same_cell c c').
Proof.
  intros G O I M. unfold remove_row. destruct (Z.ltb_spec i 0); [lia|]. destruct (Z.leb_spec (t_rows d) i); [lia|]. cbn [orb].
  destruct (Z.leb_spec (t_rows d) 1); [lia|]. eexists. split; [reflexivity|].
  match goal with |- grid (settle ?x ?b ?m) /\ _ => set (d1 := x); set (base := b); set (n := m) end.
  assert (V : forall r k, covering d1 r k = map (row_removed i) (covering d (row_left i r) k)).
  { intros r k. unfold covering. cbn [d1 set_size set_cells t_cells]. rewrite filter_map. f_equal.
    rewrite (filter_ext_in _ (fun c => covers c (row_left i r) k)).
    - apply filter_filter_sub. intros c Hc Hv. destruct (row_goes i c) eqn:E; [|easy]. now rewrite (row_goes_slot i c r k E) in Hv.
    - intros c Hc. apply filter_In in Hc. destruct Hc as [Hc Hg]. apply row_gone_slot; [apply (grid_cell d c G Hc)|]. now destruct (row_goes i c). }
  split; [|split; [|split; [|split; [|split; [|split]]]]]; try easy.
  - apply grid_settle. apply grid_intro.
    + cbn. lia.
    + cbn. destruct G as (_ & G & _). lia.
    + cbn [d1 set_size set_cells t_cells t_rows t_cols]. intros c Hc. apply in_map_iff in Hc. destruct Hc as (x & <- & Hx). apply filter_In in Hx.
      destruct Hx as [Hx Hg]. assert (B := grid_cell d x G Hx). apply negb_true_iff in Hg. unfold row_goes in Hg. rewrite andb_false_iff, !Z.eqb_neq in Hg.
      unfold row_removed. zb; cbn [andb tc_row tc_col tc_rs tc_cs]; lia.
    + unfold slot. cbn [d1 set_size set_cells t_rows t_cols]. intros r k [Hr Hk]. fold d1. rewrite V. destruct G as (_ & _ & _ & G).
      destruct (G (row_left i r) k) as [c ->]; [unfold slot, row_left; zb; lia|]. cbn. eauto.
  - apply own_ids_settle. apply own_ids_size. cbn [d1].
    apply (own_ids_map (set_cells d (filter (fun c => negb (row_goes i c)) (t_cells d))) (row_removed i)); [|intros c; apply row_removed_same|reflexivity].
    now apply own_ids_filter.
  - intros r k c Hv Hr. rewrite covering_settle, V. replace (row_left i (if r <? i then r else r - 1)) with r by (unfold row_left; zb; lia).
    rewrite Hv. cbn [map]. eexists. split; [reflexivity|]. eapply same_cell_trans; [apply row_removed_same|apply settled_same].
  - intros c' Hc. rewrite settle_cells in Hc. apply in_map_iff in Hc. destruct Hc as (x & <- & Hx). cbn [d1 set_size set_cells t_cells] in Hx.
    apply in_map_iff in Hx. destruct Hx as (y & <- & Hy). apply filter_In in Hy. exists y. split; [apply Hy|].
    eapply same_cell_trans; [apply row_removed_same|apply settled_same].
Qed.

(** ** Removing columns *)
Definition column_left (i k : Z) : Z := if k <? i then k else k + 1.
Lemma column_gone_slot i c r k : 1 <= tc_cs c -> column_goes i c = false -> covers (column_removed i c) r k = covers c r (column_left i k).
Proof.
  unfold column_goes, column_removed, column_left. rewrite andb_false_iff, !Z.eqb_neq. intros H G. apply eq_true_iff_eq. rewrite (covers_iff c).
  zb; cbn [andb]; rewrite covers_iff; cbn [tc_col tc_row tc_cs tc_rs]; lia.
Qed.
Lemma column_goes_slot i c r k : column_goes i c = true -> covers c r (column_left i k) = false.
Proof. unfold column_goes, column_left. rewrite andb_true_iff, !Z.eqb_eq, covers_not. zb; lia. Qed.
Lemma column_removed_same i c : same_cell c (column_removed i c).
Proof. unfold column_removed. zb; cbn [andb]; repeat split. Qed.

Lemma remove_column_error d i : ~ (0 <= i < t_cols d /\ 1 < t_cols d) -> remove_column d i = Err.
Proof.
  intros H. unfold remove_column. zb; cbn [orb]; easy || lia.
Qed.
Lemma remove_column_keeps d i : grid d -> own_ids d -> 0 <= i < t_cols d -> 1 < t_cols d ->
  exists d', remove_column d i = Ok d' /\ grid d' /\ own_ids d' /\ t_cols d' = t_cols d - 1 /\ t_rows d' = t_rows d /\ t_widths d' = drop_at (t_widths d) (Z.to_nat i)
    /\ (forall r k c, covering d r k = [c] -> k <> i -> exists c', covering d' r (if k <? i then k else k - 1) = [c'] /\ same_cell c c')
    /\ (forall c', In c' (t_cells d') -> exists c, In c (t_cells d) /\ same_cell c c').
Proof.
  intros G O I M. unfold remove_column. destruct (Z.leb_spec (t_cols d) 1); [lia|].
  destruct (Z.ltb_spec i 0); [lia|]. destruct (Z.leb_spec (t_cols d) i); [lia|]. cbn [orb]. eexists. split; [reflexivity|].
  match goal with |- grid (settle ?x ?b ?m) /\ _ => set (d1 := x); set (base := b); set (n := m) end.
  assert (V : forall r k, covering d1 r k = map (column_removed i) (covering d r (column_left i k))).
  { intros r k. unfold covering. cbn [d1 set_size set_cells t_cells]. rewrite filter_map. f_equal.
    rewrite (filter_ext_in _ (fun c => covers c r (column_left i k))).
    - apply filter_filter_sub. intros c Hc Hv. destruct (column_goes i c) eqn:E; [|easy]. now rewrite (column_goes_slot i c r k E) in Hv.
    - intros c Hc. apply filter_In in Hc. destruct Hc as [Hc Hg]. apply column_gone_slot; [apply (grid_cell d c G Hc)|]. now destruct (column_goes i c). }
  split; [|split; [|split; [|split; [|split; [|split]]]]]; try easy.
  - apply grid_settle. apply grid_intro.
    + cbn. destruct G as (G & _). lia.
    + cbn. lia.
    + cbn [d1 set_size set_cells t_cells t_cols t_rows]. intros c Hc. apply in_map_iff in Hc. destruct Hc as (x & <- & Hx). apply filter_In in Hx.
      destruct Hx as [Hx Hg]. assert (B := grid_cell d x G Hx). apply negb_true_iff in Hg. unfold column_goes in Hg. rewrite andb_false_iff, !Z.eqb_neq in Hg.
      unfold column_removed. zb; cbn [andb tc_col tc_row tc_cs tc_rs]; lia.
    + unfold slot. cbn [d1 set_size set_cells t_cols t_rows]. intros r k [Hr Hk]. fold d1. rewrite V. destruct G as (_ & _ & _ & G).
      destruct (G r (column_left i k)) as [c ->]; [unfold slot, column_left; zb; lia|]. cbn. eauto.
  - apply own_ids_settle. apply own_ids_size. cbn [d1].
    apply (own_ids_map (set_cells d (filter (fun c => negb (column_goes i c)) (t_cells d))) (column_removed i)); [|intros c; apply column_removed_same|reflexivity].
    now apply own_ids_filter.
  - intros r k c Hv Hk. rewrite covering_settle, V. replace (column_left i (if k <? i then k else k - 1)) with k by (unfold column_left; zb; lia).
    rewrite Hv. cbn [map]. eexists. split; [reflexivity|]. eapply same_cell_trans; [apply column_removed_same|apply settled_same].
  - intros c' Hc. rewrite settle_cells in Hc. apply in_map_iff in Hc. destruct Hc as (x & <- & Hx). cbn [d1 set_size set_cells t_cells] in Hx.
    apply in_map_iff in Hx. destruct Hx as (y & <- & Hy). apply filter_In in Hy. exists y. split; [apply Hy|].
    eapply same_cell_trans; [apply column_removed_same|apply settled_same].
Qed.

(** ** Merging *)
Lemma starts_in_iff r0 c0 r1 c1 c : starts_in r0 c0 r1 c1 c = true <-> in_rect r0 c0 r1 c1 (tc_row c) (tc_col c).
Proof. unfold starts_in, in_rect. rewrite !andb_true_iff, !Z.leb_le. lia. Qed.
Definition single (d : tdoc) (r0 c0 r1 c1 : Z) : Prop :=
  forall c, In c (t_cells d) -> in_rect r0 c0 r1 c1 (tc_row c) (tc_col c) -> tc_rs c <= 1 /\ tc_cs c <= 1.
Definition merge_goes (r0 c0 r1 c1 : Z) (s : tcell) (c : tcell) : bool := starts_in r0 c0 r1 c1 c && negb (N.eqb (tc_id c) (tc_id s)).
Definition merged (r0 c0 r1 c1 : Z) (s : tcell) (c : tcell) : tcell :=
  if N.eqb (tc_id c) (tc_id s) then set_spans s (r1 - r0 + 1) (c1 - c0 + 1) else c.
Lemma id_unique d a b : own_ids d -> In a (t_cells d) -> In b (t_cells d) -> tc_id a = tc_id b -> a = b.
Proof.
  intros [N _]. induction (t_cells d) as [|x l IH]; [easy|]. inversion N; subst. intros [->|Ha] [->|Hb] E; auto.
  - exfalso. apply H1. rewrite E. now apply in_map.
  - exfalso. apply H1. rewrite <- E. now apply in_map.
Qed.
Lemma merge_ok d r0 c0 r1 c1 d' i : merge_cells d r0 c0 r1 c1 = Ok (d', i) ->
  0 <= r0 <= r1 /\ r1 < t_rows d /\ 0 <= c0 <= c1 /\ c1 < t_cols d /\ single d r0 c0 r1 c1 /\ exists s base n,
    In s (t_cells d) /\ tc_row s = r0 /\ tc_col s = c0 /\ i = tc_id s
    /\ d' = settle (set_cells d (map (merged r0 c0 r1 c1 s) (filter (fun c => negb (merge_goes r0 c0 r1 c1 s c)) (t_cells d)))) base n.
Proof.
  unfold merge_cells. destruct (Z.ltb_spec r1 r0); [easy|]. destruct (Z.ltb_spec c1 c0); [easy|].
  destruct (Z.ltb_spec r0 0); [easy|]. destruct (Z.leb_spec (t_rows d) r1); [easy|].
  destruct (Z.ltb_spec c0 0); [easy|]. destruct (Z.leb_spec (t_cols d) c1); [easy|]. cbn [orb].
  destruct (existsb _ (filter (starts_in r0 c0 r1 c1) (t_cells d))) eqn:X; [easy|].
  destruct (find _ (filter (starts_in r0 c0 r1 c1) (t_cells d))) as [s|] eqn:F; cbn [ok_or bind]; [|easy]. intros [= <- <-].
  split; [lia|]. split; [easy|]. split; [lia|]. split; [easy|]. split.
  - intros c Hc Hi. assert (N : ~ (existsb (fun c => (1 <? tc_rs c) || (1 <? tc_cs c)) (filter (starts_in r0 c0 r1 c1) (t_cells d)) = true)) by (now rewrite X).
    rewrite existsb_exists in N. destruct (Z_le_gt_dec (tc_rs c) 1), (Z_le_gt_dec (tc_cs c) 1); [easy| | |];
      exfalso; apply N; exists c; (split; [apply filter_In; split; [easy|now apply starts_in_iff]|]); rewrite orb_true_iff, !Z.ltb_lt; lia.
  - apply find_some in F. destruct F as [F1 F2]. apply filter_In in F1. rewrite andb_true_iff, !Z.eqb_eq in F2.
    exists s. do 2 eexists. split; [easy|]. split; [easy|]. split; [easy|]. split; [easy|]. reflexivity.
Qed.
Lemma merge_run d r0 c0 r1 c1 s : own_ids d -> 0 <= r0 <= r1 -> r1 < t_rows d -> 0 <= c0 <= c1 -> c1 < t_cols d -> single d r0 c0 r1 c1 ->
  In s (t_cells d) -> tc_row s = r0 -> tc_col s = c0 -> exists d' i, merge_cells d r0 c0 r1 c1 = Ok (d', i).
Proof.
  intros O H1 H2 H3 H4 S Hs E1 E2. unfold merge_cells. destruct (Z.ltb_spec r1 r0); [lia|]. destruct (Z.ltb_spec c1 c0); [lia|].
  destruct (Z.ltb_spec r0 0); [lia|]. destruct (Z.leb_spec (t_rows d) r1); [lia|].
  destruct (Z.ltb_spec c0 0); [lia|]. destruct (Z.leb_spec (t_cols d) c1); [lia|]. cbn [orb].
  destruct (existsb _ (filter (starts_in r0 c0 r1 c1) (t_cells d))) eqn:X.
  - exfalso. apply existsb_exists in X. destruct X as (x & Hx & X). apply filter_In in Hx. destruct Hx as [Hx Hi]. apply starts_in_iff in Hi.
    rewrite orb_true_iff, !Z.ltb_lt in X. destruct (S x Hx Hi). lia.
  - destruct (find _ (filter (starts_in r0 c0 r1 c1) (t_cells d))) as [y|] eqn:F; cbn [ok_or bind]; [eauto|].
    exfalso. assert (Q : In s (filter (starts_in r0 c0 r1 c1) (t_cells d))).
    { apply filter_In. split; [easy|]. apply starts_in_iff. unfold in_rect. lia. }
    assert (Q2 := find_none _ _ F s Q). cbn beta in Q2. rewrite E1, E2, !Z.eqb_refl in Q2. easy.
Qed.
Lemma filter_id d s : own_ids d -> In s (t_cells d) -> filter (fun c => N.eqb (tc_id c) (tc_id s)) (t_cells d) = [s].
Proof.
  intros [N _]. induction (t_cells d) as [|x l IH]; [easy|]. inversion N; subst. intros [->|Hs]; cbn.
  - rewrite N.eqb_refl. f_equal. apply filter_none. intros y Hy. apply N.eqb_neq. intros E. apply H1. rewrite <- E. now apply in_map.
  - destruct (N.eqb_spec (tc_id x) (tc_id s)) as [E|E]; [|auto]. exfalso. apply H1. rewrite E. now apply in_map.
Qed.
Lemma single_slot d r0 c0 r1 c1 c r k : single d r0 c0 r1 c1 -> In c (t_cells d) -> in_rect r0 c0 r1 c1 (tc_row c) (tc_col c) ->
  covers c r k = true -> r = tc_row c /\ k = tc_col c.
Proof. intros S Hc Hi Hv. destruct (S c Hc Hi). apply covers_iff in Hv. lia. Qed.

Lemma merge_keeps d r0 c0 r1 c1 d' i : grid d -> own_ids d -> merge_cells d r0 c0 r1 c1 = Ok (d', i) -> ~ reached d r0 c0 r1 c1 ->
  grid d' /\ own_ids d' /\ t_rows d' = t_rows d /\ t_cols d' = t_cols d /\ t_widths d' = t_widths d
    /\ (forall r k c, covering d r k = [c] -> ~ in_rect r0 c0 r1 c1 r k -> exists c', covering d' r k = [c'] /\ same_cell c c')
    /\ (exists s', tc_id s' = i /\ (exists s, covering d r0 c0 = [s] /\ same_cell s s') /\
         forall r k, in_rect r0 c0 r1 c1 r k -> covering d' r k = [s']).
Proof.
  intros G O M NR. destruct (merge_ok _ _ _ _ _ _ _ M) as (A1 & A2 & A3 & A4 & S & s & base & n & Hs & E1 & E2 & -> & ->).
  match goal with |- grid (settle ?x ?b ?m) /\ _ => set (d1 := x) end.
  assert (Out : forall r k, ~ in_rect r0 c0 r1 c1 r k -> covering d1 r k = covering d r k).
  { intros r k H. unfold covering. cbn [d1 set_cells t_cells]. rewrite filter_map.
    assert (P : forall c, In c (t_cells d) -> covers c r k = true -> ~ in_rect r0 c0 r1 c1 (tc_row c) (tc_col c)).
    { intros c Hc Hv Hi. destruct (single_slot d r0 c0 r1 c1 c r k S Hc Hi Hv) as [-> ->]. easy. }
    rewrite (filter_ext_in _ (fun c => covers c r k)).
    - rewrite filter_filter_sub.
      + rewrite (map_ext_in _ (fun c => c)), map_id; [easy|]. intros c Hc. apply filter_In in Hc. unfold merged.
        destruct (N.eqb_spec (tc_id c) (tc_id s)) as [E|E]; [|easy]. exfalso. apply (P c); try easy. replace c with s by (apply (id_unique d); easy).
        unfold in_rect. lia.
      + intros c Hc Hv. unfold merge_goes. destruct (starts_in r0 c0 r1 c1 c) eqn:E; [|easy]. exfalso. apply (P c Hc Hv). now apply starts_in_iff.
    - intros c Hc. unfold merged. destruct (N.eqb_spec (tc_id c) (tc_id s)) as [E|E]; [|easy]. apply filter_In in Hc.
      replace c with s in * by (apply (id_unique d); easy).
      transitivity false; [|symmetry]; apply not_true_is_false.
      + intros Hv. apply covers_iff in Hv. cbn [tc_row tc_col tc_rs tc_cs set_spans] in Hv. apply H. unfold in_rect. lia.
      + intros Hv. apply (P s Hs Hv). unfold in_rect. lia. }
  assert (In_ : forall r k, in_rect r0 c0 r1 c1 r k -> covering d1 r k = [set_spans s (r1 - r0 + 1) (c1 - c0 + 1)]).
  { intros r k H. unfold covering. cbn [d1 set_cells t_cells]. rewrite filter_map.
    rewrite (filter_ext_in _ (fun c => N.eqb (tc_id c) (tc_id s))).
    - rewrite filter_filter_sub.
      + rewrite filter_id by easy. cbn [map]. unfold merged. now rewrite N.eqb_refl.
      + intros c Hc Hv. unfold merge_goes. rewrite Hv. cbn. now rewrite andb_false_r.
    - intros c Hc. unfold merged. apply filter_In in Hc. destruct Hc as [Hc Hg]. destruct (N.eqb_spec (tc_id c) (tc_id s)) as [E|E].
      + apply covers_iff. cbn [tc_row tc_col tc_rs tc_cs set_spans]. unfold in_rect in H. lia.
      + apply not_true_is_false. intros Hv. apply NR. exists c, r, k. split; [easy|]. split; [|easy]. intros Hi. apply starts_in_iff in Hi.
        unfold merge_goes in Hg. rewrite Hi in Hg. destruct (N.eqb_spec (tc_id c) (tc_id s)); easy. }
  assert (D : forall r k, in_rect r0 c0 r1 c1 r k \/ ~ in_rect r0 c0 r1 c1 r k) by (intros r k; unfold in_rect; lia).
  split; [|split; [|split; [|split; [|split; [|split]]]]]; try easy.
  - apply grid_settle. apply grid_intro.
    + apply G.
    + destruct G as (_ & G & _). exact G.
    + cbn [d1 set_cells t_cells t_rows t_cols]. intros c Hc. apply in_map_iff in Hc. destruct Hc as (x & <- & Hx). apply filter_In in Hx.
      unfold merged. destruct (N.eqb_spec (tc_id x) (tc_id s)); [cbn [tc_row tc_col tc_rs tc_cs set_spans]; lia|]. apply (grid_cell d x G). apply Hx.
    + intros r k H. destruct (D r k) as [H2|H2]; [rewrite In_ by easy; eauto|]. rewrite Out by easy. destruct G as (_ & _ & _ & G). apply G. exact H.
  - apply own_ids_settle. cbn [d1].
    set (s' := set_spans s (r1 - r0 + 1) (c1 - c0 + 1)).
    apply (own_ids_map (set_cells d (filter (fun c => negb (merge_goes r0 c0 r1 c1 s c)) (t_cells d))) (merged r0 c0 r1 c1 s)).
    + now apply own_ids_filter.
    + intros c. unfold merged. destruct (N.eqb_spec (tc_id c) (tc_id s)) as [E|E]; [|easy]. now rewrite E.
    + reflexivity.
  - intros r k c H Hi. rewrite covering_settle, Out, H by easy. cbn [map]. eexists. split; [reflexivity|]. apply settled_same.
  - exists (settled (assignments d1 base) (set_spans s (r1 - r0 + 1) (c1 - c0 + 1))). split; [reflexivity|]. split.
    + exists s. split; [|apply (settled_same (assignments d1 base) (set_spans s (r1 - r0 + 1) (c1 - c0 + 1)))].
      destruct G as (_ & _ & B & G). destruct (G r0 c0) as [x Hx]; [unfold slot; lia|].
      assert (V : In s (covering d r0 c0)). { apply filter_In. split; [easy|]. destruct (B s Hs) as (B1 & B2 & _). apply covers_iff. lia. }
      rewrite Hx in V. destruct V as [->|[]]. exact Hx.
    + intros r k H. now rewrite covering_settle, In_.
Qed.
(** When a cell from outside reaches into the range the result is not a grid. *)
Lemma merge_reached d r0 c0 r1 c1 d' i : grid d -> own_ids d -> merge_cells d r0 c0 r1 c1 = Ok (d', i) -> reached d r0 c0 r1 c1 -> ~ grid d'.
Proof.
  intros G O M (c & r & k & Hc & No & Hv & Hi). destruct (merge_ok _ _ _ _ _ _ _ M) as (A1 & A2 & A3 & A4 & S & s & base & n & Hs & E1 & E2 & -> & ->).
  rewrite grid_settle. intros (_ & _ & _ & G1). destruct (G1 r k) as [x Hx].
  { destruct G as (_ & _ & B & _). destruct (B c Hc) as (_ & _ & B3). exact (B3 r k Hv). }
  assert (Is : In (set_spans s (r1 - r0 + 1) (c1 - c0 + 1)) [x]).
  { rewrite <- Hx. apply filter_In. split.
    - cbn. apply in_map_iff. exists s. split; [unfold merged; now rewrite N.eqb_refl|]. apply filter_In. split; [easy|].
      unfold merge_goes. rewrite N.eqb_refl. cbn. now rewrite andb_false_r.
    - apply covers_iff. cbn [tc_row tc_col tc_rs tc_cs set_spans]. unfold in_rect in Hi. lia. }
  destruct (N.eqb_spec (tc_id c) (tc_id s)) as [E|E].
  - apply No. rewrite (id_unique d c s O Hc Hs E). unfold in_rect. lia.
  - assert (Ic : In c [x]).
    { rewrite <- Hx. apply filter_In. split; [|easy]. cbn. apply in_map_iff. exists c. split; [unfold merged; now apply N.eqb_neq in E; rewrite E|].
      apply filter_In. split; [easy|]. unfold merge_goes. destruct (starts_in r0 c0 r1 c1 c) eqn:Q; [|easy]. now apply starts_in_iff in Q. }
    destruct Is as [->|[]]. destruct Ic as [<-|[]]. now apply E.
Qed.

(** ** Splitting *)
Definition psum (total n : Z) (ks : list Z) : Z := fold_right (fun k a => part total n k + a) 0 ks.
Lemma part_bounds total n k : 1 <= n <= total -> Z.quot total n <= part total n k <= Z.quot total n + 1 /\ 1 <= part total n k.
Proof.
  intros H. unfold part. assert (1 <= Z.quot total n).
  { rewrite Z.quot_div_nonneg by lia. apply Z.div_le_lower_bound; lia. }
  zb; lia.
Qed.
Lemma psum_app total n a b : psum total n (a ++ b) = psum total n a + psum total n b.
Proof. unfold psum. induction a as [|x a IH]; cbn [app fold_right]; [lia|]. rewrite IH. lia. Qed.
Lemma zrange_succ m : zrange (Z.of_nat (S m)) = zrange (Z.of_nat m) ++ [Z.of_nat m].
Proof. unfold zrange. rewrite !Nat2Z.id, seq_S, map_app. reflexivity. Qed.
Lemma psum_range total n m : 0 <= Z.rem total n -> psum total n (zrange (Z.of_nat m)) = Z.of_nat m * Z.quot total n + Z.min (Z.of_nat m) (Z.rem total n).
Proof.
  intros R. induction m as [|m IH]; [cbn; lia|]. rewrite zrange_succ, psum_app, IH. cbn [psum fold_right]. unfold part. zb; lia.
Qed.
Lemma psum_total total n : 1 <= n <= total -> psum total n (zrange n) = total.
Proof.
  intros H. assert (R := Z.rem_bound_pos total n ltac:(lia) ltac:(lia)). assert (Q := Z.quot_rem' total n).
  rewrite <- (Z2Nat.id n) by lia. rewrite psum_range by (rewrite Z2Nat.id by lia; lia). rewrite Z2Nat.id by lia. lia.
Qed.
Definition in_part (x : Z) (p : Z * Z) : bool := let (s, l) := p in (s <=? x) && (x <? s + l).
Lemma parts_cover total n x : 1 <= n <= total -> forall ks start,
  length (filter (in_part x) (part_starts start total n ks)) = if (start <=? x) && (x <? start + psum total n ks) then 1%nat else 0%nat.
Proof.
  intros H. assert (Pos : forall ks, 0 <= psum total n ks).
  { induction ks as [|k ks IH]; cbn [psum fold_right]; [lia|]. fold (psum total n ks). destruct (part_bounds total n k H). lia. }
  induction ks as [|k ks IH]; intros start.
  - cbn [part_starts filter length psum fold_right]. zb; cbn [andb]; lia || easy.
  - cbn [part_starts filter psum fold_right]. fold (psum total n ks). destruct (part_bounds total n k H) as [_ P]. specialize (Pos ks). cbn [in_part].
    destruct (Z.leb_spec start x), (Z.ltb_spec x (start + part total n k)); cbn [andb length]; rewrite IH; zb; cbn [andb]; lia || easy.
Qed.
Lemma parts_in total n s l : forall ks start, In (s, l) (part_starts start total n ks) -> exists k, l = part total n k.
Proof. induction ks as [|k ks IH]; intros start; cbn; [easy|]. intros [[= <- <-]|H]; eauto. Qed.
Lemma parts_length total n ks : forall start, length (part_starts start total n ks) = length ks.
Proof. induction ks as [|k ks IH]; intros start; cbn; [easy|]. now rewrite IH. Qed.
Lemma length_zrange n : length (zrange n) = Z.to_nat n.
Proof. unfold zrange. now rewrite map_length, seq_length. Qed.
Lemma product_cover r k cols : forall rows,
  length (filter (fun q => quad_covers q r k) (flat_map (fun '(r, rs) => map (fun '(k, cs) => (r, k, rs, cs)) cols) rows))
  = (length (filter (in_part r) rows) * length (filter (in_part k) cols))%nat.
Proof.
  induction rows as [|[r0 rs] rows IH]; [easy|]. cbn [flat_map filter]. rewrite filter_app, app_length, IH.
  assert (E : length (filter (fun q => quad_covers q r k) (map (fun '(k, cs) => (r0, k, rs, cs)) cols))
    = if in_part r (r0, rs) then length (filter (in_part k) cols) else 0%nat).
  { clear. induction cols as [|[k0 cs] cols IH]; cbn [map filter]; [now destruct (in_part _ _)|].
    replace (quad_covers (r0, k0, rs, cs) r k) with (in_part r (r0, rs) && in_part k (k0, cs)) by (cbn; now rewrite !andb_assoc).
    destruct (in_part r (r0, rs)), (in_part k (k0, cs)); cbn [andb length]; now rewrite IH. }
  rewrite E. destruct (in_part r (r0, rs)); cbn [length]; lia.
Qed.
Lemma sub_cover c sr sc r k : 1 <= sr <= tc_rs c -> 1 <= sc <= tc_cs c ->
  length (filter (fun q => quad_covers q r k) (sub_cells c sr sc)) = if covers c r k then 1%nat else 0%nat.
Proof.
  intros H1 H2. unfold sub_cells. rewrite product_cover, !parts_cover, !psum_total by easy. unfold covers.
  zb; cbn [andb]; easy.
Qed.
Lemma sub_in c sr sc q : 1 <= sr <= tc_rs c -> 1 <= sc <= tc_cs c -> In q (sub_cells c sr sc) -> let '(r, k, rs, cs) := q in
  1 <= rs /\ 1 <= cs /\ Z.quot (tc_rs c) sr <= rs <= Z.quot (tc_rs c) sr + 1 /\ Z.quot (tc_cs c) sc <= cs <= Z.quot (tc_cs c) sc + 1
  /\ tc_row c <= r /\ r + rs <= tc_row c + tc_rs c /\ tc_col c <= k /\ k + cs <= tc_col c + tc_cs c.
Proof.
  intros H1 H2 H. destruct q as [[[r k] rs] cs].
  assert (B : 1 <= rs /\ 1 <= cs /\ Z.quot (tc_rs c) sr <= rs <= Z.quot (tc_rs c) sr + 1 /\ Z.quot (tc_cs c) sc <= cs <= Z.quot (tc_cs c) sc + 1).
  { unfold sub_cells in H. apply in_flat_map in H. destruct H as ([r' rs'] & Hr & H). apply in_map_iff in H. destruct H as ([k' cs'] & [= <- <- <- <-] & Hk).
    apply parts_in in Hr, Hk. destruct Hr as [x ->], Hk as [y ->]. destruct (part_bounds _ _ x H1), (part_bounds _ _ y H2). lia. }
  assert (C : forall r' k', quad_covers (r, k, rs, cs) r' k' = true -> covers c r' k' = true).
  { intros r' k' Q. assert (L := sub_cover c sr sc r' k' H1 H2). destruct (covers c r' k'); [easy|]. apply length_zero_iff_nil in L.
    assert (X : In (r, k, rs, cs) (filter (fun q => quad_covers q r' k') (sub_cells c sr sc))) by (now apply filter_In). now rewrite L in X. }
  assert (C1 := C r k). assert (C2 := C (r + rs - 1) (k + cs - 1)). rewrite quad_covers_iff, covers_iff in C1, C2. lia.
Qed.
Lemma sub_first c sr sc : 1 <= sr -> 1 <= sc -> exists rest,
  sub_cells c sr sc = (tc_row c, tc_col c, part (tc_rs c) sr 0, part (tc_cs c) sc 0) :: rest.
Proof.
  intros H1 H2. unfold sub_cells, zrange. destruct (Z.to_nat sr) eqn:E1; [lia|]. destruct (Z.to_nat sc) eqn:E2; [lia|]. cbn. eauto.
Qed.
Lemma sub_length c sr sc : 1 <= sr -> 1 <= sc -> Z.of_nat (length (sub_cells c sr sc)) = sr * sc.
Proof.
  intros H1 H2. unfold sub_cells. rewrite flat_map_concat_map.
  assert (E : forall l : list (Z * Z), length (concat (map (fun '(r, rs) => map (fun '(k, cs) => (r, k, rs, cs)) (part_starts (tc_col c) (tc_cs c) sc (zrange sc))) l))
    = (length l * length (part_starts (tc_col c) (tc_cs c) sc (zrange sc)))%nat).
  { induction l as [|[r rs] l IH]; [easy|]. cbn [map concat]. rewrite app_length, map_length, IH. cbn. lia. }
  rewrite E, !parts_length, !length_zrange. lia.
Qed.

Definition splits (c : tcell) (sr sc : Z) : Prop :=
  1 <= sr <= tc_rs c /\ 1 <= sc <= tc_cs c /\ ~ (tc_rs c = 1 /\ tc_cs c = 1).
Lemma split_error d i sr sc : (forall c, In c (t_cells d) -> tc_id c = i -> ~ splits c sr sc) -> split_cell d i sr sc = Err.
Proof.
  intros H. unfold split_cell. destruct (Z.ltb_spec sr 1); [easy|]. destruct (Z.ltb_spec sc 1); [easy|]. cbn [orb].
  match goal with |- context [find ?g ?m] => destruct (find g m) as [c|] eqn:F end; cbn [ok_or bind]; [|easy].
  apply find_some in F. destruct F as [Hc E]. apply N.eqb_eq in E. specialize (H c Hc E). unfold splits in H.
  destruct (Z.ltb_spec (tc_rs c) sr); [easy|]. destruct (Z.ltb_spec (tc_cs c) sc); [easy|].
  zb; cbn [andb]; easy || (exfalso; apply H; lia).
Qed.
Lemma split_run d c sr sc : own_ids d -> In c (t_cells d) -> splits c sr sc -> exists rest base n,
  sub_cells c sr sc = (tc_row c, tc_col c, part (tc_rs c) sr 0, part (tc_cs c) sc 0) :: rest
  /\ split_cell d (tc_id c) sr sc = Ok (settle (add_cells (set_cells d
       (map (fun x => if N.eqb (tc_id x) (tc_id c) then set_spans x (part (tc_rs c) sr 0) (part (tc_cs c) sc 0) else x) (t_cells d))) rest) base n).
Proof.
  intros O Hc (H1 & H2 & H3). destruct (sub_first c sr sc) as [rest E]; [lia|lia|]. unfold split_cell.
  destruct (Z.ltb_spec sr 1); [lia|]. destruct (Z.ltb_spec sc 1); [lia|]. cbn [orb].
  match goal with |- context [find ?g ?m] => destruct (find g m) as [x|] eqn:F end; cbn [ok_or bind].
  - apply find_some in F. destruct F as [Hx Ex]. apply N.eqb_eq in Ex. rewrite (id_unique d x c O Hx Hc Ex) in *.
    destruct (Z.ltb_spec (tc_rs c) sr); [lia|]. destruct (Z.ltb_spec (tc_cs c) sc); [lia|].
    replace ((tc_rs c =? 1) && (tc_cs c =? 1) && (sr =? 1) && (sc =? 1)) with false by (zb; cbn [andb]; easy || lia).
    rewrite E. exists rest. do 2 eexists. split; reflexivity.
  - assert (Q := find_none _ _ F c Hc). cbn beta in Q. now rewrite N.eqb_refl in Q.
Qed.
Lemma split_keeps d c sr sc : grid d -> own_ids d -> In c (t_cells d) -> splits c sr sc ->
  exists d', split_cell d (tc_id c) sr sc = Ok d' /\ grid d' /\ own_ids d' /\ t_rows d' = t_rows d /\ t_cols d' = t_cols d /\ t_widths d' = t_widths d
    /\ (forall r k x, covering d r k = [x] -> x <> c -> exists x', covering d' r k = [x'] /\ same_cell x x')
    /\ (exists c', covering d' (tc_row c) (tc_col c) = [c'] /\ same_cell c c')
    /\ (forall r k, covering d r k = [c] -> exists x', covering d' r k = [x'] /\ (same_cell c x' \/ blank d x')
          /\ tc_rs c / sr <= tc_rs x' <= tc_rs c / sr + 1 /\ tc_cs c / sc <= tc_cs x' <= tc_cs c / sc + 1)
    /\ Z.of_nat (length (t_cells d')) = Z.of_nat (length (t_cells d)) + sr * sc - 1.
Proof.
  intros G O Hc S. destruct (split_run d c sr sc O Hc S) as (rest & base & n & E & ->). destruct S as (S1 & S2 & _).
  set (h := fun x => if N.eqb (tc_id x) (tc_id c) then set_spans x (part (tc_rs c) sr 0) (part (tc_cs c) sc 0) else x).
  set (d0 := set_cells d (map h (t_cells d))). set (d1 := add_cells d0 rest).
  assert (P1 := sub_cover c sr sc). assert (P2 := sub_in c sr sc). rewrite E in P1, P2.
  assert (L : t_cells d1 = map h (t_cells d) ++ fresh_cells (t_next d) (t_nextb d) rest).
  { destruct (add_cells_spec rest d0) as (L & _). exact L. }
  destruct (add_cells_spec rest d0) as (_ & R & C & W & _). cbn [d0 set_cells t_rows t_cols t_widths] in R, C, W. fold d0 in R, C, W. fold d1 in R, C, W.
  assert (V : forall x, In x (t_cells d) -> h x = if N.eqb (tc_id x) (tc_id c) then h c else x).
  { intros x Hx. unfold h. destruct (N.eqb_spec (tc_id x) (tc_id c)) as [Ex|Ex]; [|easy]. rewrite (id_unique d x c O Hx Hc Ex). now rewrite N.eqb_refl. }
  assert (hc : h c = set_spans c (part (tc_rs c) sr 0) (part (tc_cs c) sc 0)) by (unfold h; now rewrite N.eqb_refl).
  assert (hq : forall r k, covers (h c) r k = quad_covers (tc_row c, tc_col c, part (tc_rs c) sr 0, part (tc_cs c) sc 0) r k).
  { intros r k. rewrite hc. reflexivity. }
  assert (Same : forall x, same_cell x (h x)). { intros x. unfold h. destruct (N.eqb _ _); repeat split. }
  (* slots of other cells *)
  assert (Out : forall r k, covers c r k = false -> covering d1 r k = covering d r k).
  { intros r k Hn. specialize (P1 r k S1 S2). rewrite Hn in P1. apply length_zero_iff_nil in P1. cbn [filter] in P1.
    rewrite <- hq in P1. destruct (covers (h c) r k) eqn:Q; [easy|]. unfold covering. rewrite L, filter_app, (fresh_covering _ _ _ r k P1), app_nil_r, filter_map.
    rewrite (filter_ext_in _ (fun x => covers x r k)).
    - rewrite (map_ext_in _ (fun x => x)), map_id; [easy|]. intros x Hx. apply filter_In in Hx. rewrite V by easy.
      destruct (N.eqb_spec (tc_id x) (tc_id c)) as [Ex|Ex]; [|easy]. rewrite (id_unique d x c O) in Hx by easy. rewrite Hn in Hx. easy.
    - intros x Hx. rewrite V by easy. destruct (N.eqb_spec (tc_id x) (tc_id c)) as [Ex|Ex]; [|easy]. now rewrite (id_unique d x c O Hx Hc Ex), Hn. }
  (* slots of the cell *)
  assert (In_ : forall r k, covers c r k = true -> exists x, covering d1 r k = [x] /\ (x = h c \/ In x (fresh_cells (t_next d) (t_nextb d) rest))).
  { intros r k Hv. assert (Cov : covering d r k = [c]).
    { assert (I : In c (covering d r k)) by (now apply filter_In). destruct G as (_ & _ & B & G). destruct (G r k) as [x Hx]; [now apply (B c Hc)|].
      rewrite Hx in *. destruct I as [->|[]]. easy. }
    specialize (P1 r k S1 S2). rewrite Hv in P1. cbn [filter] in P1. rewrite <- hq in P1.
    assert (Old : filter (fun x => covers x r k) (map h (t_cells d)) = if covers (h c) r k then [h c] else []).
    { rewrite filter_map. rewrite (filter_ext_in _ (fun x => covers (h c) r k && N.eqb (tc_id x) (tc_id c))).
      - destruct (covers (h c) r k); cbn [andb]; [now rewrite filter_id|]. now rewrite filter_none.
      - intros x Hx. rewrite V by easy. destruct (N.eqb_spec (tc_id x) (tc_id c)) as [Ex|Ex]; [now rewrite andb_true_r|]. rewrite andb_false_r.
        destruct (covers x r k) eqn:Q; [|easy]. assert (I : In x (covering d r k)) by (now apply filter_In). rewrite Cov in I. destruct I as [->|[]]. easy. }
    unfold covering. rewrite L, filter_app, Old. destruct (covers (h c) r k); cbn [length] in P1.
    - injection P1 as P1. apply length_zero_iff_nil in P1. rewrite (fresh_covering _ _ _ r k P1). cbn. eauto.
    - destruct (filter (fun q => quad_covers q r k) rest) as [|q [|]] eqn:Q; try easy.
      destruct (fresh_covering_one (t_next d) (t_nextb d) _ _ _ _ Q) as (x & -> & Hx). cbn. eauto. }
  assert (Size : forall x, x = h c \/ In x (fresh_cells (t_next d) (t_nextb d) rest) -> In (tc_row x, tc_col x, tc_rs x, tc_cs x) (sub_cells c sr sc)).
  { intros x [->|Hx]; rewrite E; [left; now rewrite hc|right]. apply fresh_in in Hx. apply Hx. }
  exists (settle d1 base n). split; [reflexivity|].
  split; [|split; [|split; [|split; [|split; [|split; [|split; [|split]]]]]]].
  - apply grid_settle. apply grid_intro; rewrite ?R, ?C.
    + apply G.
    + destruct G as (_ & G & _). exact G.
    + rewrite L. intros x Hx. apply in_app_iff in Hx. assert (Bc := grid_cell d c G Hc).
      assert (Q : (In x (t_cells d)) \/ (x = h c \/ In x (fresh_cells (t_next d) (t_nextb d) rest))).
      { destruct Hx as [Hx|Hx]; [|auto]. apply in_map_iff in Hx. destruct Hx as (y & <- & Hy). rewrite V by easy. destruct (N.eqb _ _); auto. }
      destruct Q as [Q|Q]; [apply (grid_cell d x G Q)|]. assert (Z1 := Size x Q). rewrite E in Z1. specialize (P2 _ S1 S2 Z1). cbn beta iota in P2. lia.
    + unfold slot. rewrite R, C. intros r k H. destruct (covers c r k) eqn:Q.
      * destruct (In_ r k Q) as (x & -> & _). eauto.
      * rewrite Out by easy. destruct G as (_ & _ & _ & G). now apply G.
  - apply own_ids_settle. apply own_ids_add. apply (own_ids_map d h); [easy| |easy]. intros x. apply Same.
  - exact R.
  - exact C.
  - exact W.
  - intros r k x Hx Ne. rewrite covering_settle. destruct (in_covering _ _ _ _ _ Hx) as [_ Hv]. rewrite Out.
    + rewrite Hx. cbn [map]. eexists. split; [reflexivity|]. apply settled_same.
    + destruct (covers c r k) eqn:Q; [|easy]. assert (I : In c (covering d r k)) by (now apply filter_In). rewrite Hx in I. destruct I as [->|[]]. easy.
  - destruct (In_ (tc_row c) (tc_col c)) as (x & Hx & _); [apply covers_iff; lia|].
    assert (I : In (h c) (covering d1 (tc_row c) (tc_col c))).
    { apply filter_In. split; [rewrite L; apply in_app_iff; left; now apply in_map|]. rewrite hq. apply quad_covers_iff.
      destruct (part_bounds _ _ 0 S1), (part_bounds _ _ 0 S2). lia. }
    rewrite Hx in I. destruct I as [->|[]]. rewrite covering_settle, Hx. cbn [map]. eexists. split; [reflexivity|].
    eapply same_cell_trans; [apply Same|apply settled_same].
  - intros r k Hk. destruct (in_covering _ _ _ _ _ Hk) as [_ Hv]. destruct (In_ r k Hv) as (x & Hx & Q). rewrite covering_settle, Hx. cbn [map].
    eexists. split; [reflexivity|]. split.
    + destruct Q as [->|Q]; [left; eapply same_cell_trans; [apply Same|apply settled_same]|right].
      apply (fresh_blank d rest x (settled _) O Q). apply settled_same.
    + assert (Z1 := Size x Q). rewrite E in Z1. specialize (P2 _ S1 S2 Z1). cbn beta iota in P2.
      rewrite !Z.quot_div_nonneg in P2 by lia. cbn [settled set_blocks tc_rs tc_cs]. lia.
  - rewrite settle_cells, map_length, L, app_length, map_length.
    assert (F : forall qs a b, length (fresh_cells a b qs) = length qs).
    { clear. induction qs as [|[[[r k] rs] cs] qs IH]; intros a b; cbn; [easy|]. now rewrite IH. }
    rewrite F. assert (M := sub_length c sr sc ltac:(lia) ltac:(lia)). rewrite E in M. cbn [length] in M. lia.
Qed.

(** ** A new table *)
Definition table_quads (rows cols : Z) : list (Z * Z * Z * Z) := flat_map (fun r => map (fun k => (r, k, 1, 1)) (zrange cols)) (zrange rows).
Lemma add_cells_app d a b : add_cells d (a ++ b) = add_cells (add_cells d a) b.
Proof. unfold add_cells. now rewrite fold_left_app. Qed.
Lemma table_fold cols l : forall d, fold_left (fun d r => fold_left (fun d c => new_cell d r c 1 1) (zrange cols) d) l d
  = add_cells d (flat_map (fun r => map (fun k => (r, k, 1, 1)) (zrange cols)) l).
Proof. induction l as [|r l IH]; intros d; [easy|]. cbn [fold_left flat_map]. now rewrite IH, row_fold, add_cells_app. Qed.
Lemma filter_flat_map {A B} (p : B -> bool) (f : A -> list B) l : filter p (flat_map f l) = flat_map (fun x => filter p (f x)) l.
Proof. induction l as [|x l IH]; [easy|]. cbn. now rewrite filter_app, IH. Qed.
Lemma flat_map_if {A} (q : Z -> A) x n : 0 <= x < n -> flat_map (fun i => if x =? i then [q i] else []) (zrange n) = [q x].
Proof.
  intros H. transitivity (map q (filter (fun k => k =? x) (zrange n))); [|now rewrite filter_zrange].
  induction (zrange n) as [|y l IH]; [easy|]. cbn. rewrite (Z.eqb_sym x y). destruct (y =? x); cbn; now rewrite IH.
Qed.
Lemma table_quads_cover rows cols r k : 0 <= r < rows -> 0 <= k < cols ->
  filter (fun q => quad_covers q r k) (table_quads rows cols) = [(r, k, 1, 1)].
Proof.
  intros Hr Hk. unfold table_quads. rewrite filter_flat_map.
  rewrite (flat_map_ext _ (fun i => if r =? i then [(i, k, 1, 1)] else [])); [|intros i; now apply row_quads].
  now apply (flat_map_if (fun i => (i, k, 1, 1))).
Qed.
Lemma table_quads_in rows cols q : In q (table_quads rows cols) -> exists r k, q = (r, k, 1, 1) /\ 0 <= r < rows /\ 0 <= k < cols.
Proof.
  unfold table_quads. intros H. apply in_flat_map in H. destruct H as (r & Hr & H). apply in_map_iff in H. destruct H as (k & <- & Hk).
  apply in_zrange in Hr, Hk. eauto.
Qed.
Lemma insert_table_error others at_ start rows cols count chars next nextb :
  ~ (1 <= rows /\ 1 <= cols) -> insert_table others at_ start rows cols count chars next nextb = Err.
Proof. intros H. unfold insert_table. zb; cbn [orb]; easy || lia. Qed.
Lemma insert_table_grid others at_ start rows cols count chars next nextb : 1 <= rows -> 1 <= cols ->
  exists d, insert_table others at_ start rows cols count chars next nextb = Ok d /\ grid d /\ own_ids d
    /\ t_rows d = rows /\ t_cols d = cols /\ t_widths d = repeat 0 (Z.to_nat cols)
    /\ forall r k, 0 <= r < rows -> 0 <= k < cols -> exists c, covering d r k = [c] /\ tc_row c = r /\ tc_col c = k
         /\ tc_fmt c = 0%N /\ exists i, content (tc_blocks c) = [(i, 0)].
Proof.
  intros R C. unfold insert_table. destruct (Z.ltb_spec rows 1); [lia|]. destruct (Z.ltb_spec cols 1); [lia|]. cbn [orb].
  rewrite table_fold. fold (table_quads rows cols). set (d0 := mk_tdoc _ _ _ _ _ _ _ _ _ _). set (d1 := add_cells d0 (table_quads rows cols)).
  destruct (add_cells_spec (table_quads rows cols) d0) as (L & R1 & C1 & W1 & _). fold d1 in L, R1, C1, W1. cbn [d0 t_rows t_cols t_cells app t_next t_nextb t_widths] in L, R1, C1, W1.
  set (l := number_from start (flat_map tc_blocks (t_cells d1))).
  eexists. split; [reflexivity|]. match goal with |- grid ?x /\ _ => set (d' := x) end.
  assert (L' : t_cells d' = map (settled l) (t_cells d1)) by reflexivity.
  assert (Cov : forall r k, 0 <= r < rows -> 0 <= k < cols -> exists c, covering d1 r k = [c] /\ tc_row c = r /\ tc_col c = k
         /\ tc_fmt c = 0%N /\ exists i, content (tc_blocks c) = [(i, 0)]).
  { intros r k Hr Hk. unfold covering. rewrite L.
    destruct (fresh_covering_one next nextb _ _ _ _ (table_quads_cover rows cols r k Hr Hk)) as (c & E & Hc). exists c. split; [exact E|].
    assert (V : covers c r k = true). { apply (filter_In (fun c => covers c r k) c (fresh_cells next nextb (table_quads rows cols))). rewrite E. now left. }
    apply covers_iff in V. apply fresh_in in Hc. destruct Hc as (_ & F1 & F2 & Hc). apply table_quads_in in Hc. destruct Hc as (r' & k' & [= E1 E2 E3 E4] & _).
    split; [lia|]. split; [lia|]. auto. }
  split; [|split; [|split; [|split; [|split]]]].
  - apply (grid_map d1 d' l); [easy|easy|exact L'|]. apply grid_intro; rewrite ?R1, ?C1; [easy|easy| |].
    + rewrite L. intros c Hc. apply fresh_in in Hc. destruct Hc as (_ & _ & _ & Hc). apply table_quads_in in Hc. destruct Hc as (r & k & [= -> -> -> ->] & Hr & Hk). lia.
    + unfold slot. rewrite R1, C1. intros r k [Hr Hk]. destruct (Cov r k Hr Hk) as (c & -> & _). eauto.
  - assert (O : own_ids d1) by (apply own_ids_add; split; [constructor|easy]). destruct O as [N F].
    split; rewrite L'; [now rewrite ids_settled|]. intros c Hc. apply in_map_iff in Hc. destruct Hc as (x & <- & Hx). exact (F x Hx).
  - exact R1.
  - exact C1.
  - exact W1.
  - intros r k Hr Hk. destruct (Cov r k Hr Hk) as (c & E & E1 & E2 & E3 & E4). exists (settled l c).
    split; [|split; [exact E1|split; [exact E2|split; [exact E3|]]]].
    + unfold covering. rewrite L', settled_covering. unfold covering in E. now rewrite E.
    + destruct (settled_same l c) as (_ & _ & S). now rewrite S.
Qed.

(** ** Histories *)
Lemma split_ok d i sr sc d' : split_cell d i sr sc = Ok d' -> exists c, In c (t_cells d) /\ tc_id c = i /\ 1 <= sr <= tc_rs c /\ 1 <= sc <= tc_cs c
  /\ ~ (tc_rs c = 1 /\ tc_cs c = 1).
Proof.
  unfold split_cell. destruct (Z.ltb_spec sr 1); [easy|]. destruct (Z.ltb_spec sc 1); [easy|]. cbn [orb].
  match goal with |- context [find ?g ?m] => destruct (find g m) as [c|] eqn:F end; cbn [ok_or bind]; [|easy].
  apply find_some in F. destruct F as [Hc E]. apply N.eqb_eq in E.
  destruct (Z.ltb_spec (tc_rs c) sr); [easy|]. destruct (Z.ltb_spec (tc_cs c) sc); [easy|].
  destruct ((tc_rs c =? 1) && (tc_cs c =? 1) && (sr =? 1) && (sc =? 1)) eqn:Q; [easy|]. intros _. exists c.
  rewrite !andb_false_iff, !Z.eqb_neq in Q. repeat split; easy || lia.
Qed.
Lemma step_grid d o d' : grid d -> own_ids d -> clean d o -> tstep d o = Ok d' -> grid d' /\ own_ids d'.
Proof.
  intros G O Cl. destruct o as [i|i|i|i|r0 c0 r1 c1|i sr sc]; cbn [tstep clean] in *.
  - intros E. destruct (Z_le_gt_dec 0 i), (Z_le_gt_dec i (t_rows d)); try (rewrite insert_row_error in E by lia; easy).
    destruct (insert_row_keeps d i G O ltac:(lia) Cl) as (x & Ex & G1 & O1 & _). rewrite Ex in E. now injection E as <-.
  - intros E. destruct (Z_le_gt_dec 0 i), (Z_le_gt_dec i (t_cols d)); try (rewrite insert_column_error in E by lia; easy).
    destruct (insert_column_keeps d i G O ltac:(lia) Cl) as (x & Ex & G1 & O1 & _). rewrite Ex in E. now injection E as <-.
  - intros E. destruct (Z_le_gt_dec 0 i), (Z_lt_ge_dec i (t_rows d)), (Z_lt_ge_dec 1 (t_rows d)); try (rewrite remove_row_error in E by lia; easy).
    destruct (remove_row_keeps d i G O ltac:(lia) ltac:(lia)) as (x & Ex & G1 & O1 & _). rewrite Ex in E. now injection E as <-.
  - intros E. destruct (Z_le_gt_dec 0 i), (Z_lt_ge_dec i (t_cols d)), (Z_lt_ge_dec 1 (t_cols d)); try (rewrite remove_column_error in E by lia; easy).
    destruct (remove_column_keeps d i G O ltac:(lia) ltac:(lia)) as (x & Ex & G1 & O1 & _). rewrite Ex in E. now injection E as <-.
  - destruct (merge_cells d r0 c0 r1 c1) as [[x j]| |] eqn:M; cbn [bind]; try easy. intros [= <-].
    destruct (merge_keeps _ _ _ _ _ _ _ G O M Cl) as (G1 & O1 & _). easy.
  - intros E. destruct (split_ok _ _ _ _ _ E) as (c & Hc & <- & S).
    destruct (split_keeps d c sr sc G O Hc S) as (x & Ex & G1 & O1 & _). rewrite Ex in E. now injection E as <-.
Qed.
Definition shape_covers (s : id * Z * Z * Z * Z) (r k : Z) : bool :=
  let '(_, row, col, rs, cs) := s in (row <=? r) && (r <? row + rs) && (col <=? k) && (k <? col + cs).
Lemma covering_shapes d r k : map shape (covering d r k) = filter (fun s => shape_covers s r k) (map shape (t_cells d)).
Proof. unfold covering. rewrite filter_map. reflexivity. Qed.
Lemma retyped_in d d' c' : retyped d d' -> In c' (t_cells d') -> exists c, In c (t_cells d) /\ shape c = shape c'.
Proof. intros (_ & _ & _ & E & _) H. apply (in_map shape) in H. rewrite E in H. apply in_map_iff in H. destruct H as (c & Hc & Hin). eauto. Qed.
Lemma retyped_grid d d' : retyped d d' -> grid d -> own_ids d -> grid d' /\ own_ids d'.
Proof.
  intros T G [N F]. assert (T' := T). destruct T' as (R & C & _ & E & X). split.
  - assert (G' := G). destruct G' as (G1 & G2 & _ & G4). apply grid_intro; rewrite ?R, ?C; [easy|easy| |].
    + intros c' Hc. destruct (retyped_in d d' c' T Hc) as (c & Hin & S). injection S as S1 S2 S3 S4 S5. assert (B := grid_cell d c G Hin). lia.
    + intros r k H. unfold slot in H. rewrite R, C in H. destruct (G4 r k H) as [c Hc]. assert (Q := covering_shapes d' r k).
      rewrite E, <- covering_shapes, Hc in Q. destruct (covering d' r k) as [|x [|]]; try discriminate. eauto.
  - split.
    + replace (map tc_id (t_cells d')) with (map (fun s : id * Z * Z * Z * Z => fst (fst (fst (fst s)))) (map shape (t_cells d'))) by (rewrite map_map; reflexivity).
      rewrite E, map_map. exact N.
    + intros c' Hc. destruct (retyped_in d d' c' T Hc) as (c & Hin & S). injection S as S1 S2 S3 S4 S5. specialize (F c Hin). unfold id in *. lia.
Qed.
Lemma history_grid d : table_history d -> grid d /\ own_ids d.
Proof.
  induction 1 as [others at_ start rows cols count chars next nextb d E|d o d' H [G O] Cl E|d d' H [G O] T]; [| |now apply (retyped_grid d)].
  - assert (B : 1 <= rows /\ 1 <= cols).
    { destruct (Z_le_gt_dec 1 rows), (Z_le_gt_dec 1 cols); try (rewrite insert_table_error in E by lia; easy). easy. }
    destruct (insert_table_grid others at_ start rows cols count chars next nextb) as (x & Ex & G & O & _); try easy. rewrite Ex in E. now injection E as <-.
  - now apply (step_grid d o).
Qed.
(** The conditions are exact. *)
Lemma step_exact d o d' : grid d -> own_ids d -> tstep d o = Ok d' -> (grid d' <-> clean d o).
Proof.
  intros G O E. split; [|intros Cl; now apply (step_grid d o d')]. intros G'. destruct o as [i|i|i|i|r0 c0 r1 c1|i sr sc]; cbn [clean tstep] in *; try easy.
  - intros A. destruct (insert_row_across d i G A) as (x & Ex & N). rewrite Ex in E. injection E as <-. easy.
  - intros A. destruct (insert_column_across d i G A) as (x & Ex & N). rewrite Ex in E. injection E as <-. easy.
  - intros A. destruct (merge_cells d r0 c0 r1 c1) as [[x j]| |] eqn:M; cbn [bind] in E; try easy. injection E as <-.
    now apply (merge_reached _ _ _ _ _ _ _ G O M A).
Qed.

(** ** Selections *)
Definition within (q q' : rect) : Prop := r_top q' <= r_top q /\ r_left q' <= r_left q /\ r_bottom q <= r_bottom q' /\ r_right q <= r_right q'.
Definition nonempty (q : rect) : Prop := r_top q <= r_bottom q /\ r_left q <= r_right q.
Definition positive (cells : list (Z * Z * Z * Z)) : Prop := forall row col rs cs, In (row, col, rs, cs) cells -> 1 <= rs /\ 1 <= cs.
Lemma contains_within q q' : nonempty q' -> contains q q' <-> within q' q.
Proof.
  intros [N1 N2]. split.
  - intros C. destruct (C (r_top q') (r_left q')) as [A1 A2]; [split; lia|]. destruct (C (r_bottom q') (r_right q')) as [A3 A4]; [split; lia|].
    unfold within. lia.
  - unfold within, contains, inside. intros W r k. lia.
Qed.
Definition meets (q : rect) (c : Z * Z * Z * Z) : Prop := let '(row, col, rs, cs) := c in
  row <= r_bottom q /\ r_top q <= row + rs - 1 /\ col <= r_right q /\ r_left q <= col + cs - 1.
Definition cell_within (c : Z * Z * Z * Z) (q : rect) : Prop := let '(row, col, rs, cs) := c in
  r_top q <= row /\ row + rs - 1 <= r_bottom q /\ r_left q <= col /\ col + cs - 1 <= r_right q.
Lemma whole_iff cells q : positive cells -> nonempty q -> whole cells q <-> forall c, In c cells -> meets q c -> cell_within c q.
Proof.
  intros P [N1 N2]. split.
  - intros W [[[row col] rs] cs] Hc (M1 & M2 & M3 & M4). destruct (P row col rs cs Hc).
    assert (A : exists r k, span_covers (row, col, rs, cs) r k /\ inside q r k).
    { exists (Z.max row (r_top q)), (Z.max col (r_left q)). unfold span_covers, inside. lia. }
    destruct A as (r & k & A1 & A2). assert (X := W _ _ _ Hc A1 A2).
    destruct (X row col) as [B1 B2]; [cbn; lia|]. destruct (X (row + rs - 1) (col + cs - 1)) as [B3 B4]; [cbn; lia|]. unfold cell_within. lia.
  - intros W [[[row col] rs] cs] r k Hc A1 A2 r' k' A3. destruct (P row col rs cs Hc). specialize (W _ Hc). unfold span_covers, inside, meets, cell_within in *. lia.
Qed.
(** One cell. *)
Lemma grow_spec q e c : exists q' e', grow (q, e) c = (q', e') /\ within q q' /\ (e = true -> e' = true)
  /\ (e' = false -> q' = q /\ (meets q c -> cell_within c q))
  /\ (e = false -> e' = true -> ~ within q' q)
  /\ (forall w, nonempty q -> within q w -> (meets w c -> cell_within c w) -> within q' w).
Proof.
  destruct c as [[[row col] rs] cs]. destruct q as [t l b r]. unfold grow. cbn [r_top r_left r_bottom r_right].
  destruct (Z.leb_spec row b); cbn [andb].
  2:{ exists (mk_rect t l b r), e. split; [easy|]. unfold within, meets, cell_within. cbn [r_top r_left r_bottom r_right]. split; [lia|]. split; [easy|]. split; [intros _; split; [easy|lia]|]. split; [congruence|]. intros w _ W _. exact W. }
  destruct (Z.leb_spec t (row + rs - 1)); cbn [andb].
  2:{ exists (mk_rect t l b r), e. split; [easy|]. unfold within, meets, cell_within. cbn [r_top r_left r_bottom r_right]. split; [lia|]. split; [easy|]. split; [intros _; split; [easy|lia]|]. split; [congruence|]. intros w _ W _. exact W. }
  destruct (Z.leb_spec col r); cbn [andb].
  2:{ exists (mk_rect t l b r), e. split; [easy|]. unfold within, meets, cell_within. cbn [r_top r_left r_bottom r_right]. split; [lia|]. split; [easy|]. split; [intros _; split; [easy|lia]|]. split; [congruence|]. intros w _ W _. exact W. }
  destruct (Z.leb_spec l (col + cs - 1)); cbn [andb].
  2:{ exists (mk_rect t l b r), e. split; [easy|]. unfold within, meets, cell_within. cbn [r_top r_left r_bottom r_right]. split; [lia|]. split; [easy|]. split; [intros _; split; [easy|lia]|]. split; [congruence|]. intros w _ W _. exact W. }
  do 2 eexists. split; [reflexivity|]. unfold within, meets, cell_within, nonempty. cbn [r_top r_left r_bottom r_right].
  split; [zb; lia|]. split; [intros ->; easy|]. split; [|split].
  - intros E. rewrite !orb_false_iff, !Z.ltb_ge in E. split; [f_equal; zb; lia|lia].
  - intros ->. cbn [orb]. rewrite !orb_true_iff, !Z.ltb_lt. intros E. zb; lia.
  - intros w N W C. zb; lia.
Qed.
Lemma round_spec cells : forall q e, exists q' e', fold_left grow cells (q, e) = (q', e') /\ within q q' /\ (e = true -> e' = true)
  /\ (e' = false -> q' = q /\ forall c, In c cells -> meets q c -> cell_within c q)
  /\ (e = false -> e' = true -> ~ within q' q)
  /\ (forall w, nonempty q -> within q w -> (forall c, In c cells -> meets w c -> cell_within c w) -> within q' w).
Proof.
  induction cells as [|c cells IH]; intros q e.
  - exists q, e. cbn. split; [easy|]. split; [unfold within; lia|]. split; [easy|]. split; [easy|]. split; [congruence|easy].
  - cbn [fold_left]. destruct (grow_spec q e c) as (q1 & e1 & -> & W1 & T1 & F1 & S1 & M1).
    destruct (IH q1 e1) as (q2 & e2 & -> & W2 & T2 & F2 & S2 & M2). exists q2, e2. split; [easy|]. split; [unfold within in *; lia|]. split; [auto|]. split; [|split].
    + intros ->. destruct F2 as [-> F2]; [easy|]. assert (E1 : e1 = false) by (destruct e1; [now rewrite T2|easy]). destruct F1 as [-> F1]; [easy|].
      split; [easy|]. intros x [->|Hx]; auto.
    + intros He He2. destruct e1.
      * specialize (S1 He eq_refl). unfold within in *. lia.
      * destruct F1 as [-> _]; [easy|]. now apply S2.
    + intros w N Hw Hc. apply M2; [unfold nonempty, within in *; lia| |intros x Hx; apply Hc; now right].
      apply M1; [easy|easy|]. apply Hc. now left.
Qed.
Lemma round_stop cells q q' : round cells q = (q', false) -> q' = q /\ forall c, In c cells -> meets q c -> cell_within c q.
Proof. intros E. unfold round in E. destruct (round_spec cells q false) as (a & b & H & _ & _ & F & _). rewrite H in E. injection E as -> ->. now apply F. Qed.
Lemma round_again cells q q' : round cells q = (q', true) -> within q q' /\ ~ within q' q.
Proof. intros E. unfold round in E. destruct (round_spec cells q false) as (a & b & H & W & _ & _ & S & _). rewrite H in E. injection E as -> ->. auto. Qed.
Lemma round_least cells q q' e w : round cells q = (q', e) -> nonempty q -> within q w -> (forall c, In c cells -> meets w c -> cell_within c w) -> within q' w.
Proof. intros E. unfold round in E. destruct (round_spec cells q false) as (a & b & H & _ & _ & _ & _ & M). rewrite H in E. injection E as -> ->. auto. Qed.

Lemma within_nonempty q q' : nonempty q -> within q q' -> nonempty q'. Proof. unfold nonempty, within. lia. Qed.
Lemma expands_spec cells q q' : positive cells -> nonempty q -> expands cells q q' ->
  contains q' q /\ whole cells q' /\ forall w, whole cells w -> contains w q -> contains w q'.
Proof.
  intros P N X. assert (Y : within q q' /\ whole cells q' /\ forall w, nonempty w -> whole cells w -> within q w -> within q' w).
  { induction X as [q q' E|q q1 q' E X IH].
    - apply round_stop in E. destruct E as [-> E]. split; [unfold within; lia|]. split; [now apply whole_iff|]. easy.
    - destruct (round_again _ _ _ E) as [W _]. destruct IH as (I1 & I2 & I3); [now apply (within_nonempty q)|].
      split; [unfold within in *; lia|]. split; [easy|]. intros w Nw Hw Wq. apply I3; try easy. apply (round_least _ _ _ _ w E N Wq). now apply whole_iff. }
  destruct Y as (Y1 & Y2 & Y3). assert (N' := within_nonempty _ _ N Y1). split; [now apply contains_within|]. split; [easy|].
  intros w Hw Wq. apply contains_within in Wq; [|easy]. apply contains_within; [easy|]. apply Y3; try easy. now apply (within_nonempty q).
Qed.
(** The loop ends: a box around everything bounds it. *)
Lemma box cells q : exists w, within q w /\ forall c, In c cells -> cell_within c w.
Proof.
  induction cells as [|[[[row col] rs] cs] cells [w [W1 W2]]].
  - exists q. split; [unfold within; lia|easy].
  - exists (mk_rect (Z.min row (r_top w)) (Z.min col (r_left w)) (Z.max (row + rs - 1) (r_bottom w)) (Z.max (col + cs - 1) (r_right w))).
    split; [unfold within in *; cbn; lia|]. intros c [<-|Hc]; [cbn; lia|]. specialize (W2 c Hc). destruct c as [[[row' col'] rs'] cs']. cbn in *. lia.
Qed.
Lemma expands_ends cells q : nonempty q -> exists q', expands cells q q'.
Proof.
  intros N. destruct (box cells q) as (w & W & C).
  remember (Z.to_nat ((r_top q - r_top w) + (r_left q - r_left w) + (r_bottom w - r_bottom q) + (r_right w - r_right q))) as n eqn:E.
  revert q N W E. induction n as [n IH] using lt_wf_ind. intros q N W E. destruct (round cells q) as [q1 [|]] eqn:R; [|exists q1; now constructor].
  destruct (round_again _ _ _ R) as [W1 S1]. assert (W2 := round_least _ _ _ _ w R N W (fun c Hc _ => C c Hc)).
  assert (A : (Z.to_nat ((r_top q1 - r_top w) + (r_left q1 - r_left w) + (r_bottom w - r_bottom q1) + (r_right w - r_right q1)) < n)%nat)
    by (unfold within in *; lia).
  destruct (IH _ A q1 (within_nonempty q q1 N W1) W2 eq_refl) as [q' Hq].
  exists q'. now apply (expands_again _ _ q1).
Qed.
Lemma expands_fun cells q a b : expands cells q a -> expands cells q b -> a = b.
Proof.
  intros X. revert b. induction X as [q a E|q q1 a E X IH]; intros b Y.
  - inversion Y as [? ? E2|? ? ? E2]; subst; congruence.
  - inversion Y as [? ? E2|? q2 ? E2 Y2]; subst; [congruence|]. apply IH. congruence.
Qed.

(** ** The selected cells *)
Lemma spans_positive d : positive (cell_spans d).
Proof. intros row col rs cs H. apply in_map_iff in H. destruct H as (c & [= <- <- <- <-] & _). lia. Qed.
Lemma start_unique d a b : grid d -> In a (t_cells d) -> In b (t_cells d) -> tc_row a = tc_row b -> tc_col a = tc_col b -> a = b.
Proof.
  intros G Ha Hb E1 E2. assert (B1 := grid_cell d a G Ha). assert (B2 := grid_cell d b G Hb). destruct G as (_ & _ & _ & G).
  destruct (G (tc_row a) (tc_col a)) as [x Hx]; [unfold slot; lia|].
  assert (Ia : In a (covering d (tc_row a) (tc_col a))) by (apply filter_In; split; [easy|]; apply covers_iff; lia).
  assert (Ib : In b (covering d (tc_row a) (tc_col a))) by (apply filter_In; split; [easy|]; apply covers_iff; lia).
  rewrite Hx in Ia, Ib. destruct Ia as [<-|[]]. destruct Ib as [->|[]]. easy.
Qed.
Lemma cell_at_spec d r k c : grid d -> cell_at d r k = Some c <-> In c (t_cells d) /\ tc_row c = r /\ tc_col c = k.
Proof.
  intros G. unfold cell_at. split.
  - intros F. apply find_some in F. rewrite andb_true_iff, !Z.eqb_eq in F. easy.
  - intros (Hc & <- & <-). match goal with |- ?x = _ => destruct x as [y|] eqn:F end.
    + apply find_some in F. rewrite andb_true_iff, !Z.eqb_eq in F. f_equal. now apply (start_unique d).
    + assert (Q := find_none _ _ F c Hc). cbn beta in Q. now rewrite !Z.eqb_refl in Q.
Qed.
Lemma in_offsets a n x : In x (map (Z.add a) (zrange n)) <-> a <= x < a + n.
Proof.
  rewrite in_map_iff. split; [intros (y & <- & H); apply in_zrange in H; lia|]. intros H. exists (x - a). split; [lia|]. apply in_zrange. lia.
Qed.
Lemma nodup_offsets a n : NoDup (map (Z.add a) (zrange n)).
Proof. apply FinFun.Injective_map_NoDup; [intros x y; lia|apply nodup_zrange]. Qed.
Lemma nodup_flat_map {A B} (f : A -> list B) l : NoDup l -> (forall x, In x l -> NoDup (f x)) ->
  (forall x y z, In x l -> In y l -> In z (f x) -> In z (f y) -> x = y) -> NoDup (flat_map f l).
Proof.
  induction l as [|x l IH]; intros N F D; cbn; [constructor|]. inversion N; subst.
  assert (IHl : NoDup (flat_map f l)) by (apply IH; [easy|intros y Hy; apply F; now right|intros a b z Ha Hb; apply D; now right]).
  assert (Nx : NoDup (f x)) by (apply F; now left).
  assert (X : forall z, In z (f x) -> ~ In z (flat_map f l)).
  { intros z Hz Hl. apply in_flat_map in Hl. destruct Hl as (y & Hy & Hzy). apply H1. rewrite (D x y z); try easy; [now left|now right]. }
  clear -IHl Nx X. induction (f x) as [|z s IHs]; cbn; [easy|]. inversion Nx; subst. constructor.
  - rewrite in_app_iff. intros [H|H]; [easy|]. apply (X z); [now left|easy].
  - apply IHs; [easy|]. intros y Hy. apply X. now right.
Qed.
Lemma selected_in d q c : grid d -> In c (selected_cells d q) <-> In c (t_cells d) /\ inside q (tc_row c) (tc_col c).
Proof.
  intros G. unfold selected_cells. rewrite in_flat_map. split.
  - intros (r & Hr & H). apply in_flat_map in H. destruct H as (k & Hk & H). apply in_offsets in Hr, Hk.
    destruct (cell_at d r k) as [x|] eqn:E; [|easy]. destruct H as [->|[]]. apply cell_at_spec in E; [|easy]. destruct E as (Hc & -> & ->). unfold inside. split; [easy|lia].
  - unfold inside. intros (Hc & H1 & H2). exists (tc_row c). split; [apply in_offsets; lia|]. apply in_flat_map. exists (tc_col c). split; [apply in_offsets; lia|].
    replace (cell_at d (tc_row c) (tc_col c)) with (Some c) by (symmetry; now apply cell_at_spec). now left.
Qed.
Lemma selected_nodup d q : grid d -> NoDup (selected_cells d q).
Proof.
  intros G. unfold selected_cells. apply nodup_flat_map; [apply nodup_offsets| |].
  - intros r _. apply nodup_flat_map; [apply nodup_offsets| |].
    + intros k _. destruct (cell_at d r k); repeat constructor; easy.
    + intros k k' c _ _ H1 H2. destruct (cell_at d r k) as [a|] eqn:E1; [|easy]. destruct (cell_at d r k') as [b|] eqn:E2; [|easy].
      destruct H1 as [->|[]], H2 as [->|[]]. apply cell_at_spec in E1, E2; try easy. intuition congruence.
  - intros r r' c _ _ H1 H2. apply in_flat_map in H1, H2. destruct H1 as (k & _ & H1), H2 as (k' & _ & H2).
    destruct (cell_at d r k) as [a|] eqn:E1; [|easy]. destruct (cell_at d r' k') as [b|] eqn:E2; [|easy].
    destruct H1 as [->|[]], H2 as [->|[]]. apply cell_at_spec in E1, E2; try easy. intuition congruence.
Qed.
Lemma selected_whole d q q' : grid d -> nonempty q -> expands (cell_spans d) q q' -> NoDup (selected_cells d q')
  /\ forall c, In c (selected_cells d q') <-> In c (t_cells d) /\ exists r k, covers c r k = true /\ inside q' r k.
Proof.
  intros G N X. split; [now apply selected_nodup|]. intros c. rewrite selected_in by easy.
  destruct (expands_spec _ _ _ (spans_positive d) N X) as (_ & W & _). split.
  - intros [Hc H]. split; [easy|]. exists (tc_row c), (tc_col c). split; [|easy]. destruct (grid_cell d c G Hc) as (B1 & B2 & _). apply covers_iff. lia.
  - intros [Hc (r & k & Hv & H)]. split; [easy|]. destruct (grid_cell d c G Hc) as (B1 & B2 & _). apply covers_iff in Hv.
    apply (W (tc_row c, tc_col c, Z.max (tc_rs c) 1, Z.max (tc_cs c) 1) r k).
    + apply in_map_iff. now exists c.
    + unfold span_covers. lia.
    + easy.
    + unfold span_covers. lia.
Qed.
