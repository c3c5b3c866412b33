(** Copying in a document with a table: the loops. *)
From Coq Require Import Sorting.Permutation Sorting.Sorted.
From Verif Require Import Base RopeModel TableModel TableSpec TableFacts TablePlaces TableTextModel TableTextSpec TableTextFacts TableTextTheorems TableEditModel TableEditSpec TableEditFacts TableEditSteps TableEditTheorems
  PropSpec FlowSpec XCopyModel XCopySpec XCopyCuts.
Local Open Scope Z_scope.

(** ** The gathered blocks *)
Definition earlier (a b : tblock) : Prop := tb_pos a <= tb_pos b.
Lemma put_sorted b l : StronglySorted earlier l -> StronglySorted earlier (put_block b l) /\ Permutation (put_block b l) (b :: l).
Proof.
  induction 1 as [|x l S IH F]; cbn [put_block]; [split; [repeat constructor|easy]|]. destruct (Z.leb_spec (tb_pos b) (tb_pos x)) as [L|L].
  - split; [|easy]. constructor; [now constructor|]. constructor; [exact L|]. revert F. apply Forall_impl. unfold earlier. intros; lia.
  - destruct IH as [IH1 IH2]. split; [|now rewrite IH2, perm_swap]. constructor; [easy|]. apply Forall_forall. intros y Hy. apply (Permutation_in _ IH2) in Hy.
    destruct Hy as [<-|Hy]; [unfold earlier; lia|]. now apply (proj1 (Forall_forall _ _) F).
Qed.
Lemma gather_sorted l : StronglySorted earlier (sort_tblocks l) /\ Permutation (sort_tblocks l) l.
Proof.
  induction l as [|b l [IH1 IH2]]; [split; [constructor|easy]|]. cbn [sort_tblocks fold_right]. fold (sort_tblocks l). destruct (put_sorted b _ IH1) as [A B].
  split; [easy|]. now rewrite B, IH2.
Qed.
Lemma sorted_unique : forall l l', StronglySorted earlier l -> StronglySorted earlier l' -> Permutation l l' ->
  (forall a b, In a l -> In b l -> tb_pos a = tb_pos b -> a = b) -> l = l'.
Proof.
  induction l as [|x l IH]; intros l' S S' P U; [now apply Permutation_nil in P|]. destruct l' as [|y l']; [apply Permutation_sym, Permutation_nil in P; discriminate|].
  inversion S as [|? ? Sl F]; subst. inversion S' as [|? ? Sl' F']; subst. assert (x = y).
  { assert (Hx := Permutation_in _ P (or_introl eq_refl)). assert (Hy := Permutation_in _ (Permutation_sym P) (or_introl eq_refl)).
    destruct Hx as [<-|Hx]; [easy|]. destruct Hy as [<-|Hy]; [easy|]. apply U; [now left|now right|].
    assert (A := proj1 (Forall_forall _ _) F y Hy). assert (B := proj1 (Forall_forall _ _) F' x Hx). unfold earlier in *. lia. }
  subst y. f_equal. apply IH; [easy|easy|now apply Permutation_cons_inv in P|]. intros a b Ha Hb. apply U; now right.
Qed.
Definition twice (bs : list tblock) : list tblock := flat_map (fun b => [b; b]) bs.
Lemma twice_in b bs : In b (twice bs) <-> In b bs.
Proof. unfold twice. rewrite in_flat_map. split; [intros (y & Hy & [<-|[<-|[]]]); easy|intros H; exists b; split; [easy|now left]]. Qed.
Lemma twice_perm bs : Permutation (twice bs) (bs ++ bs).
Proof. unfold twice. induction bs as [|b bs IH]; [easy|]. cbn [flat_map app]. rewrite <- Permutation_middle. do 2 constructor. exact IH. Qed.
Lemma in_place_sorted bs : forall r, (forall y, In y bs -> 0 <= tb_len y) -> in_place r bs -> StronglySorted earlier bs /\ Forall (fun b => r <= tb_pos b) bs.
Proof.
  induction bs as [|b bs IH]; intros r L P; [split; constructor|]. cbn [in_place] in P. destruct P as [E P]. assert (0 <= tb_len b) by (apply L; now left).
  destruct (IH _ (fun y Hy => L y (or_intror Hy)) P) as [S F]. split; constructor; [easy| |lia|]; revert F; apply Forall_impl; unfold earlier; intros; lia.
Qed.
Lemma twice_sorted a c b : StronglySorted earlier (a ++ c ++ b) -> StronglySorted earlier (a ++ twice c ++ b).
Proof.
  induction a as [|x a IH]; cbn [app].
  - induction c as [|x c IH]; cbn [twice flat_map app]; [easy|]. intros S. inversion S as [|? ? S' F]; subst. fold (twice c). specialize (IH S').
    assert (G : Forall (earlier x) (twice c ++ b)).
    { apply Forall_forall. intros y Hy. apply (proj1 (Forall_forall _ _) F). rewrite in_app_iff in *. now rewrite twice_in in Hy. }
    constructor; [now constructor|]. constructor; [unfold earlier; lia|easy].
  - intros S. inversion S as [|? ? S' F]; subst. constructor; [now apply IH|]. apply Forall_forall. intros y Hy. apply (proj1 (Forall_forall _ _) F).
    rewrite !in_app_iff in *. now rewrite twice_in in Hy.
Qed.
Lemma in_place_inj bs : forall r, (forall y, In y bs -> 0 <= tb_len y) -> in_place r bs -> forall a b, In a bs -> In b bs -> tb_pos a = tb_pos b -> a = b.
Proof.
  induction bs as [|x bs IH]; intros r L P a b Ha Hb E; [easy|]. cbn [in_place] in P. destruct P as [Ex P]. assert (0 <= tb_len x) by (apply L; now left).
  destruct (in_place_sorted _ _ (fun y Hy => L y (or_intror Hy)) P) as [_ F]. destruct Ha as [<-|Ha], Hb as [<-|Hb]; [easy| | |now apply (IH _ (fun y Hy => L y (or_intror Hy)) P)].
  - assert (G := proj1 (Forall_forall _ _) F b Hb). cbn in G. lia.
  - assert (G := proj1 (Forall_forall _ _) F a Ha). cbn in G. lia.
Qed.
Definition upper (d : tdoc) : list tblock := firstn (t_at d) (t_others d).
Definition lower (d : tdoc) : list tblock := skipn (t_at d) (t_others d).
Definition inner (d : tdoc) : list tblock := flat_map tc_blocks (sort_cells (t_cells d)).
Lemma flow_is d : flow_blocks d = upper d ++ inner d ++ lower d. Proof. easy. Qed.
Lemma flat_map_perm {A B} (f : A -> list B) l l' : Permutation l l' -> Permutation (flat_map f l) (flat_map f l').
Proof.
  induction 1 as [|x l l' _ IH|x y l|l l2 l3 _ IH1 _ IH2]; [easy| | |now rewrite IH1].
  - cbn [flat_map]. now apply Permutation_app_head.
  - cbn [flat_map]. rewrite !app_assoc. apply Permutation_app_tail, Permutation_app_comm.
Qed.
Lemma gathered_is d : (forall y, In y (flow_blocks d) -> 0 <= tb_len y) -> in_place 0 (flow_blocks d) -> gathered d = upper d ++ twice (inner d) ++ lower d.
Proof.
  intros L P. unfold gathered. destruct (gather_sorted (flow_blocks d ++ flat_map tc_blocks (t_cells d))) as [S1 P1].
  destruct (in_place_sorted _ _ L P) as [S2 _]. assert (X : Permutation (flow_blocks d ++ flat_map tc_blocks (t_cells d)) (upper d ++ twice (inner d) ++ lower d)).
  { rewrite flow_is. rewrite twice_perm. rewrite <- (flat_map_perm tc_blocks _ _ (sort_cells_perm (t_cells d))). fold (inner d). rewrite <- !app_assoc.
    do 2 apply Permutation_app_head. apply Permutation_app_comm. }
  apply sorted_unique; [easy|apply twice_sorted; now rewrite <- flow_is|now rewrite P1|].
  intros a b Ha Hb. apply (in_place_inj _ _ L P).
  - apply (Permutation_in _ P1), (Permutation_in _ X) in Ha. rewrite flow_is. rewrite !in_app_iff in *. now rewrite twice_in in Ha.
  - apply (Permutation_in _ P1), (Permutation_in _ X) in Hb. rewrite flow_is. rewrite !in_app_iff in *. now rewrite twice_in in Hb.
Qed.

(** ** Whose block *)
Lemma flat_owner {A B} (f : B -> id) (g : A -> list B) : forall l a b u v, NoDup (map f (flat_map g l)) -> In a l -> In b l -> In u (g a) -> In v (g b) -> f u = f v -> a = b.
Proof.
  induction l as [|x l IH]; intros a b u v N Ha Hb Hu Hv E; [easy|]. cbn [flat_map] in N. rewrite map_app in N.
  assert (D : forall w z y, In w (g x) -> In y l -> In z (g y) -> f w <> f z).
  { intros w z y Hw Hy Hz X. apply (proj2 (proj2 (NoDup_app_parts _ _ N)) (f w)); [now apply in_map|]. rewrite X. apply in_map, in_flat_map. now exists y. }
  destruct Ha as [<-|Ha], Hb as [<-|Hb]; [easy| | |].
  - exfalso. now apply (D u v b).
  - exfalso. now apply (D v u a).
  - apply (IH a b u v); try easy. apply (NoDup_app_parts _ _ N).
Qed.
Lemma all_nodup x : xhistory x -> NoDup (block_ids (t_others (x_table x) ++ flat_map tc_blocks (t_cells (x_table x)))).
Proof. intros H. apply (Permutation_NoDup (Permutation_map tb_id (flow_all (x_table x)))), (flow_ids_nodup _ H). Qed.
Lemma apart x b c y : xhistory x -> In b (t_others (x_table x)) -> In c (t_cells (x_table x)) -> In y (tc_blocks c) -> tb_id b <> tb_id y.
Proof.
  intros H Hb Hc Hy E. assert (N := all_nodup _ H). unfold block_ids in N. rewrite map_app in N. apply (proj2 (proj2 (NoDup_app_parts _ _ N)) (tb_id b)); [now apply in_map|].
  rewrite E. apply in_map, in_flat_map. now exists c.
Qed.
Lemma owner_none x b : xhistory x -> In b (t_others (x_table x)) -> cell_with (x_table x) (tb_id b) = None.
Proof.
  intros H Hb. unfold cell_with. destruct (find _ (t_cells (x_table x))) as [c|] eqn:E; [|easy]. apply find_some in E. destruct E as [Hc E].
  apply existsb_exists in E. destruct E as (i & Hi & E). apply N.eqb_eq in E. subst i. apply in_map_iff in Hi. destruct Hi as (y & E & Hy). exfalso. now apply (apart x b c y).
Qed.
Lemma owner_some x c b : xhistory x -> In c (t_cells (x_table x)) -> In b (tc_blocks c) -> cell_with (x_table x) (tb_id b) = Some (tc_id c).
Proof.
  intros H Hc Hb. unfold cell_with. destruct (find _ (t_cells (x_table x))) as [c'|] eqn:E.
  - apply find_some in E. destruct E as [Hc' E]. apply existsb_exists in E. destruct E as (i & Hi & E). apply N.eqb_eq in E. subst i.
    apply in_map_iff in Hi. destruct Hi as (y & E & Hy). cbn. do 2 f_equal. assert (N := all_nodup _ H). unfold block_ids in N. rewrite map_app in N.
    exact (flat_owner tb_id tc_blocks _ c' c y b (proj1 (proj2 (NoDup_app_parts _ _ N))) Hc' Hc Hy Hb E).
  - exfalso. assert (X := find_none _ _ E c Hc). cbn in X. rewrite (proj2 (existsb_exists _ _)) in X; [discriminate|]. exists (tb_id b). split; [now apply in_map|apply N.eqb_refl].
Qed.
Lemma inner_in d b : In b (inner d) <-> exists c, In c (t_cells d) /\ In b (tc_blocks c).
Proof.
  unfold inner. rewrite in_flat_map. split; intros (c & Hc & Hb); exists c; (split; [|easy]); revert Hc; apply Permutation_in; [|apply Permutation_sym]; apply sort_cells_perm.
Qed.
Lemma upper_in d b : In b (upper d) -> In b (t_others d).
Proof. intros H. rewrite <- (firstn_skipn (t_at d) (t_others d)). apply in_app_iff. now left. Qed.
Lemma lower_in d b : In b (lower d) -> In b (t_others d).
Proof. intros H. rewrite <- (firstn_skipn (t_at d) (t_others d)). apply in_app_iff. now right. Qed.
Lemma others_in d b : In b (t_others d) -> In b (upper d) \/ In b (lower d).
Proof. intros H. rewrite <- (firstn_skipn (t_at d) (t_others d)) in H. now apply in_app_iff in H. Qed.

(** ** Crossing cells *)
Definition lens (st : rstore) (bs : list tblock) : Prop := forall b, In b bs -> len_in st b = Ok (tb_len b).
Definition hit (s e : Z) (b : tblock) : Prop := s <= tb_pos b + tb_len b /\ tb_pos b < e.
Lemma missed_hit s e b : missed s e b (tb_len b) = false <-> hit s e b.
Proof. unfold missed, hit. rewrite orb_false_iff, Z.ltb_ge, Z.leb_gt. easy. Qed.
Lemma missed_not s e b : missed s e b (tb_len b) = true <-> ~ hit s e b.
Proof. rewrite <- missed_hit. now destruct (missed s e b (tb_len b)). Qed.
Lemma same_owner_eq a b : same_owner a b = true <-> a = b.
Proof. destruct a as [i|], b as [j|]; cbn; try easy. rewrite N.eqb_eq. split; [now intros ->|now injection 1]. Qed.
Lemma cross_copy_ok st d s e : forall bs f, lens st bs -> exists v, cross_copy st d s e bs f = Ok v
  /\ (v = false -> forall b, In b bs -> hit s e b -> match f with Some c => cell_with d (tb_id b) = c | None => forall y, In y bs -> hit s e y -> cell_with d (tb_id b) = cell_with d (tb_id y) end)
  /\ ((forall b, In b bs -> hit s e b -> cell_with d (tb_id b) = match f with Some c => c | None => None end) -> v = false).
Proof.
  induction bs as [|b bs IH]; intros f L; [exists false; easy|]. cbn [cross_copy]. rewrite (L b (or_introl eq_refl)). cbn [bind].
  assert (L' : lens st bs) by (intros y Hy; apply L; now right). destruct (missed s e b (tb_len b)) eqn:M.
  - apply missed_not in M. destruct (IH f L') as (v & E & A & B). exists v. split; [easy|]. split.
    + intros Ev y [<-|Hy] Hit; [easy|]. specialize (A Ev y Hy Hit). destruct f as [c|]; [easy|]. intros z [<-|Hz] Hz2; [easy|now apply A].
    + intros F. apply B. intros y Hy. apply F. now right.
  - apply missed_hit in M. destruct f as [c|].
    + destruct (same_owner c (cell_with d (tb_id b))) eqn:So.
      * apply same_owner_eq in So. destruct (IH (Some c) L') as (v & E & A & B). exists v. split; [easy|]. split.
        -- intros Ev y [<-|Hy] Hit; [easy|now apply A].
        -- intros F. apply B. intros y Hy. apply F. now right.
      * exists true. split; [easy|]. split; [easy|]. intros F. rewrite (F b (or_introl eq_refl) M) in So. assert (X := proj2 (same_owner_eq c c) eq_refl). congruence.
    + destruct (IH (Some (cell_with d (tb_id b))) L') as (v & E & A & B). exists v. split; [easy|]. split.
      * intros Ev y Hy Hit z Hz Hitz. assert (G : forall u, In u (b :: bs) -> hit s e u -> cell_with d (tb_id u) = cell_with d (tb_id b)).
        { intros u [<-|Hu] Hitu; [easy|]. now apply (A Ev u Hu Hitu). }
        rewrite (G y Hy Hit). symmetry. now apply G.
      * intros F. apply B. intros y Hy Hit. rewrite (F b (or_introl eq_refl) M). apply F; [now right|easy].
Qed.

(** ** The parts *)
Definition final_at (l : id) (n : nat) (bs : list tblock) : Prop :=
  forall bs1 b bs2, bs = bs1 ++ b :: bs2 -> (tb_id b = l <-> (length bs2 + n = 0)%nat).
Lemma missed_out s e r b (t : str) : tb_pos b = Z.of_nat r -> missed (Z.of_nat s) (Z.of_nat e) b (Z.of_nat (length t)) = out s e r t.
Proof.
  intros E. unfold missed, out. rewrite E. f_equal.
  - destruct (Z.ltb_spec (Z.of_nat r + Z.of_nat (length t)) (Z.of_nat s)), (Nat.ltb_spec (r + length t) s); (easy || lia).
  - destruct (Z.leb_spec (Z.of_nat e) (Z.of_nat r)), (Nat.leb_spec e r); (easy || lia).
Qed.
Lemma piece_part x s e l b t r fin : known x b t -> tb_pos b = Z.of_nat r -> (r < e)%nat -> (tb_id b = l <-> fin = true) ->
  piece_of (x_store x) (Z.of_nat s) (Z.of_nat e) l b = Ok (part s e r t fin).
Proof.
  intros (K1 & K2 & K3) E Lt F. unfold piece_of, len_in. rewrite K2. cbn [bind]. unfold text_of in K1. rewrite K1. cbn [bind]. unfold part. rewrite E. f_equal. f_equal.
  - assert (X : Z.to_nat (if Z.of_nat r <? Z.of_nat s then Z.of_nat s - Z.of_nat r else 0) = (s - r)%nat) by (destruct (Z.ltb_spec (Z.of_nat r) (Z.of_nat s)); lia). rewrite X.
    assert (Y : Z.to_nat (if Z.of_nat e <? Z.of_nat r + Z.of_nat (length t) then Z.of_nat e - Z.of_nat r else Z.of_nat (length t)) = Nat.min (e - r) (length t)).
    { destruct (Z.ltb_spec (Z.of_nat e) (Z.of_nat r + Z.of_nat (length t))); lia. }
    rewrite Y. unfold between_positions. destruct (Nat.le_gt_cases (e - r) (length t)) as [G|G]; [now rewrite Nat.min_l by easy|].
    rewrite Nat.min_r by lia. rewrite !firstn_all2; [easy|rewrite skipn_length; lia|rewrite skipn_length; lia].
  - assert (X : N.eqb (tb_id b) l = fin) by (destruct fin; [apply N.eqb_eq; now apply F|apply N.eqb_neq; intros Z; apply F in Z; discriminate]). rewrite X.
    destruct (Z.ltb_spec (Z.of_nat r) (Z.of_nat s)), (Nat.leb_spec s r); try lia.
    + rewrite Z.eqb_refl. cbn [andb]. destruct (Z.ltb_spec (Z.of_nat e) (Z.of_nat r + Z.of_nat (length t))).
      * destruct (Z.eqb_spec (Z.of_nat e - Z.of_nat r) (Z.of_nat (length t))); [lia|]. destruct (Nat.ltb_spec (r + length t) e); [lia|]. destruct (Nat.leb_spec (r + length t) e); [lia|]. cbn. now rewrite andb_false_r.
      * rewrite Z.eqb_refl. cbn [andb]. destruct (Nat.leb_spec (r + length t) e); [|lia]. rewrite andb_true_r. f_equal.
        destruct (Z.ltb_spec (Z.of_nat r + Z.of_nat (length t)) (Z.of_nat e)), (Nat.ltb_spec (r + length t) e); (easy || lia).
Qed.
Lemma final_tail l n b bs : final_at l n (b :: bs) -> final_at l n bs /\ (tb_id b = l <-> (length bs + n =? 0)%nat = true).
Proof.
  intros F. split; [|rewrite Nat.eqb_eq; exact (F [] b bs eq_refl)]. intros bs1 y bs2 ->. apply (F (b :: bs1) y bs2). reflexivity.
Qed.
Lemma out_false s e r t : out s e r t = false -> (r < e)%nat.
Proof. unfold out. rewrite orb_false_iff, Nat.leb_gt. easy. Qed.
Lemma copy_text_cut x s e l n R : forall bs ts r, seen x bs ts -> in_place (Z.of_nat r) bs -> final_at l n bs ->
  copy_text (x_store x) (Z.of_nat s) (Z.of_nat e) l (bs ++ R) = (let! more := copy_text (x_store x) (Z.of_nat s) (Z.of_nat e) l R in Ok (cut s e r n ts ++ more)).
Proof.
  induction bs as [|b bs IH]; intros ts r Se P F; inversion Se as [|? t ? us K Se']; subst.
  - cbn [app cut]. now destruct (copy_text _ _ _ _ R).
  - cbn [in_place] in P. destruct P as [Eb P]. destruct (final_tail _ _ _ _ F) as [F1 F2]. assert (K' := K). destruct K' as (_ & K2 & K3).
    cbn [app copy_text cut]. unfold len_in. rewrite K2. cbn [bind]. rewrite (missed_out s e r b t Eb).
    replace (Z.of_nat r + tb_len b + 1) with (Z.of_nat (S (r + length t))) in P by lia.
    assert (Ll : length us = length bs) by (clear -Se'; induction Se'; [easy|cbn; lia]).
    rewrite (IH us _ Se' P F1). destruct (out s e r t) eqn:O; cbn [app]; [easy|].
    rewrite Ll. rewrite (piece_part x s e l b t r _ K Eb (out_false _ _ _ _ O) F2). cbn [bind]. now destruct (copy_text _ _ _ _ R).
Qed.
Lemma copy_text_missed x s e l R : forall bs, lens (x_store x) bs -> (forall b, In b bs -> ~ hit s e b) -> copy_text (x_store x) s e l (bs ++ R) = copy_text (x_store x) s e l R.
Proof.
  induction bs as [|b bs IH]; intros L M; [easy|]. cbn [app copy_text]. rewrite (L b (or_introl eq_refl)). cbn [bind]. rewrite (proj2 (missed_not s e b) (M b (or_introl eq_refl))).
  apply IH; intros y Hy; [apply L|apply M]; now right.
Qed.
Lemma mixed_cut x s e l n R done : forall bs ts r k, seen x bs ts -> in_place (Z.of_nat r) bs -> final_at l n bs -> (forall b, In b bs -> cell_with (x_table x) (tb_id b) = None) ->
  copy_mixed (x_store x) (x_table x) (Z.of_nat s) (Z.of_nat e) l (bs ++ R) done k
  = (let! (ps, tabs, lines) := copy_mixed (x_store x) (x_table x) (Z.of_nat s) (Z.of_nat e) l R done (k + length (cut s e r n ts)) in
     Ok (cut s e r n ts ++ ps, tabs, map xp_text (cut s e r n ts) ++ lines)).
Proof.
  induction bs as [|b bs IH]; intros ts r k Se P F O; inversion Se as [|? t ? us K Se']; subst.
  - cbn [app cut length map]. rewrite Nat.add_0_r. now destruct (copy_mixed _ _ _ _ _ R _ _) as [[[ps tabs] lines]| |].
  - cbn [in_place] in P. destruct P as [Eb P]. destruct (final_tail _ _ _ _ F) as [F1 F2]. assert (K' := K). destruct K' as (_ & K2 & K3).
    cbn [app copy_mixed cut]. unfold len_in. rewrite K2. cbn [bind]. rewrite (missed_out s e r b t Eb).
    replace (Z.of_nat r + tb_len b + 1) with (Z.of_nat (S (r + length t))) in P by lia.
    assert (Ll : length us = length bs) by (clear -Se'; induction Se'; [easy|cbn; lia]).
    assert (O' : forall y, In y bs -> cell_with (x_table x) (tb_id y) = None) by (intros; apply O; now right).
    destruct (out s e r t) eqn:Q; cbn [app]; [exact (IH us _ k Se' P F1 O')|].
    rewrite (O b (or_introl eq_refl)), Ll, (piece_part x s e l b t r _ K Eb (out_false _ _ _ _ Q) F2). cbn [bind]. rewrite (IH us _ (S k) Se' P F1 O').
    cbn [length map app]. replace (k + S (length (cut s e (S (r + length t)) n us)))%nat with (S k + length (cut s e (S (r + length t)) n us))%nat by lia.
    now destruct (copy_mixed _ _ _ _ _ R _ _) as [[[ps tabs] lines]| |].
Qed.
Lemma mixed_skip x s e l R : forall bs k, lens (x_store x) bs -> (forall b, In b bs -> cell_with (x_table x) (tb_id b) <> None) ->
  copy_mixed (x_store x) (x_table x) s e l (bs ++ R) true k = copy_mixed (x_store x) (x_table x) s e l R true k.
Proof.
  induction bs as [|b bs IH]; intros k L O; [easy|]. cbn [app copy_mixed]. rewrite (L b (or_introl eq_refl)). cbn [bind].
  rewrite IH; [|intros y Hy; apply L; now right|intros y Hy; apply O; now right]. assert (X := O b (or_introl eq_refl)). destruct (missed _ _ _ _); [easy|]. now destruct (cell_with (x_table x) (tb_id b)).
Qed.
Lemma full_seen x bs ts : seen x bs ts -> full_pieces (x_store x) bs = Ok (map (fun t => mk_xpiece t true) ts).
Proof.
  induction 1 as [|b t bs ts (K1 & K2 & K3) _ IH]; [easy|]. cbn [full_pieces]. unfold len_in. rewrite K2. cbn [bind]. unfold text_of in K1. rewrite K1. cbn [bind]. rewrite IH. cbn [bind map].
  now rewrite Nat2Z.id, firstn_all.
Qed.
Lemma copy_cells_ok x : forall cs ts, (forall c, In c cs -> length (tc_blocks c) = 1%nat /\ 1 <= tc_rs c /\ 1 <= tc_cs c) -> seen x (flat_map tc_blocks cs) ts -> exists fs, copy_cells (x_store x) cs = Ok fs
  /\ map (fun c => (fc_row c, fc_col c, fc_rs c, fc_cs c)) fs = map (fun c => (tc_row c, tc_col c, tc_rs c, tc_cs c)) cs
  /\ map (fun c => map (fun q => Ok (xp_text q)) (fc_blocks c)) fs = map (cell_text x) cs /\ copied_texts fs = ts.
Proof.
  induction cs as [|c cs IH]; intros ts F Se.
  - inversion Se; subst. now exists [].
  - cbn [flat_map] in Se. apply seen_app in Se. destruct Se as (t1 & t2 & -> & S1 & S2). destruct (IH t2 (fun c Hc => F c (or_intror Hc)) S2) as (fs & E & M1 & M2 & M3).
    destruct (F c (or_introl eq_refl)) as (F1 & F2 & F3). cbn [copy_cells]. rewrite TablePlaces.sort_one by easy. rewrite (full_seen _ _ _ S1). cbn [bind]. rewrite E. cbn [bind].
    eexists. split; [reflexivity|]. cbn [map fc_row fc_col fc_rs fc_cs fc_blocks]. rewrite M1, M2, !Z.max_r by easy. split; [easy|]. split.
    + f_equal. unfold cell_text. rewrite (seen_texts _ _ _ S1). rewrite map_map. reflexivity.
    + cbn [copied_texts flat_map fc_blocks]. fold (copied_texts fs). rewrite M3, map_map. cbn [xp_text]. now rewrite map_id.
Qed.
