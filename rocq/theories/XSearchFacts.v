(** Facts about searching and replacing in documents with a table. *)
From Coq Require Import Sorting.Permutation.
From Verif Require Import Base RopeModel SearchModel SearchSpec TableModel TableSpec TableFacts TablePlaces TableTextModel TableTextSpec TableTextFacts TableTextTheorems TableEditModel TableEditSpec TableEditFacts TableEditSteps TableEditTheorems
  TableTextRefuted PropSpec FlowSpec XCopyModel XCopyCuts XCopyFacts XCopyTheorems XSearchModel XSearchSpec.
Local Open Scope Z_scope.

(** ** The text that is searched *)
Lemma searched_flow x ts : inv x -> seen x (flow_blocks (x_table x)) ts -> searched (x_table x) = flow_blocks (x_table x).
Proof.
  intros I Se. unfold searched. destruct (gather_sorted (t_others (x_table x) ++ flat_map tc_blocks (t_cells (x_table x)))) as [S1 P1]. assert (L := seen_lens _ _ _ Se).
  destruct (in_place_sorted _ _ L (inv_placed _ I)) as [S2 _]. apply sorted_unique; [easy|easy|now rewrite P1, <- flow_all|].
  intros a b Ha Hb. apply (in_place_inj _ _ L (inv_placed _ I)); apply (Permutation_in _ (Permutation_sym (flow_all _))), (Permutation_in _ P1); easy.
Qed.
Lemma contents_seen x bs ts : seen x bs ts -> contents (x_store x) bs = Ok ts.
Proof. induction 1 as [|b t bs ts (K & _) _ IH]; [easy|]. cbn [contents]. unfold text_of in K. rewrite K. cbn [bind]. now rewrite IH. Qed.
Lemma searched_text x ts : inv x -> seen x (flow_blocks (x_table x)) ts -> x_full_text x = Ok (joined ts).
Proof. intros I Se. unfold x_full_text. rewrite (searched_flow _ _ I Se), (contents_seen _ _ _ Se). cbn [bind]. now rewrite with_breaks_joined. Qed.

(** ** The paragraph of a match *)
Lemma start_grows ts : forall i j t, nth_error ts i = Some t -> (i < j)%nat -> (start_of i ts + length t < start_of j ts)%nat.
Proof.
  induction ts as [|u ts IH]; intros [|i] [|j] t E H; try lia; try discriminate.
  - cbn in E. injection E as ->. rewrite start_cons. cbn. lia.
  - cbn in E. rewrite !start_cons. specialize (IH i j t E ltac:(lia)). lia.
Qed.
Lemma lies_one ts m i j : (0 < snd m)%nat -> lies_in ts m i = true -> lies_in ts m j = true -> i = j.
Proof.
  unfold lies_in. intros Hm A B. destruct (nth_error ts i) as [t|] eqn:Ei; [|discriminate]. destruct (nth_error ts j) as [u|] eqn:Ej; [|discriminate].
  apply andb_prop in A, B. rewrite !Nat.leb_le in A, B. destruct (Nat.lt_trichotomy i j) as [D|[D|D]]; [|easy|].
  - assert (G := start_grows _ _ _ _ Ei D). lia.
  - assert (G := start_grows _ _ _ _ Ej D). lia.
Qed.
Lemma lies_lt ts m k : lies_in ts m k = true -> (k < length ts)%nat.
Proof. unfold lies_in. destruct (nth_error ts k) eqn:E; [|discriminate]. intros _. apply nth_error_Some. now rewrite E. Qed.
Lemma place_found ts m k : (0 < snd m)%nat -> lies_in ts m k = true -> find (lies_in ts m) (seq 0 (length ts)) = Some k.
Proof.
  intros Hm L. assert (K := lies_lt _ _ _ L). destruct (find (lies_in ts m) (seq 0 (length ts))) as [j|] eqn:E.
  - apply find_some in E. f_equal. now apply (lies_one ts m).
  - assert (X := find_none _ _ E k). rewrite L in X. assert (false = true -> False) by discriminate. exfalso. enough (true = false) by discriminate. apply X. apply in_seq. lia.
Qed.
Lemma block_found x bs : forall ts r k p, seen x bs ts -> in_place (Z.of_nat r) bs ->
  (exists j t off, nth_error ts j = Some t /\ p = (r + start_of j ts + off)%nat /\ (off < length t)%nat /\ x_find_block (x_store x) bs k p = Ok (Some ((k + j)%nat, off)))
  \/ (forall j t, nth_error ts j = Some t -> ~ (r + start_of j ts <= p < r + start_of j ts + length t)%nat) /\ x_find_block (x_store x) bs k p = Ok None.
Proof.
  induction bs as [|b bs IH]; intros ts r k p Se P; inversion Se as [|? t ? us (K1 & K2 & K3) Se']; subst.
  - right. split; [intros [|j] t E; discriminate|easy].
  - cbn [in_place] in P. destruct P as [Eb P]. cbn [x_find_block]. unfold len_in. rewrite K2. cbn [bind]. rewrite Eb.
    destruct (Z.leb_spec 0 (Z.of_nat r)); [|lia]. cbn [andb].
    assert (D : (r <= p < r + length t)%nat \/ ~ (r <= p < r + length t)%nat) by lia. destruct D as [D|D].
    + left. exists 0%nat, t, (p - r)%nat. destruct (Z.leb_spec (Z.of_nat r) (Z.of_nat p)); [|lia]. destruct (Z.ltb_spec (Z.of_nat p) (Z.of_nat r + Z.of_nat (length t))); [|lia]. cbn [andb].
      rewrite Nat2Z.id. split; [easy|]. cbn. split; [lia|]. split; [lia|]. now rewrite Nat.add_0_r.
    + assert (F : (Z.of_nat r <=? Z.of_nat p) && (Z.of_nat p <? Z.of_nat r + Z.of_nat (length t)) = false).
      { destruct (Z.leb_spec (Z.of_nat r) (Z.of_nat p)); [|easy]. destruct (Z.ltb_spec (Z.of_nat p) (Z.of_nat r + Z.of_nat (length t))); [lia|easy]. }
      rewrite F. rewrite K3 in P. replace (Z.of_nat r + Z.of_nat (length t) + 1) with (Z.of_nat (S (r + length t))) in P by lia.
      destruct (IH us (S (r + length t)) (S k) p Se' P) as [(j & u & off & E1 & E2 & E3 & E4)|[N E4]]; rewrite E4; [left|right].
      * exists (S j), u, off. rewrite start_cons. split; [easy|]. split; [lia|]. split; [easy|]. do 3 f_equal. lia.
      * split; [|easy]. intros [|j] u E; [cbn in E; injection E as <-; cbn; lia|]. rewrite start_cons. specialize (N j u E). lia.
Qed.
Lemma match_found x bs ts m : seen x bs ts -> in_place 0 bs -> (0 < snd m)%nat ->
  x_match_in (x_store x) bs m = Ok (option_map (fun k => (k, fst m - start_of k ts)%nat) (find (lies_in ts m) (seq 0 (length ts)))).
Proof.
  intros Se P Hm. unfold x_match_in. destruct (block_found x bs ts 0 0 (fst m) Se P) as [(j & t & off & E1 & E2 & E3 & E4)|[N E4]]; rewrite E4; cbn [bind].
  - cbn [Nat.add]. cbn [Nat.add] in E2. destruct (nth_error bs j) as [b|] eqn:Eb; [|apply nth_error_None in Eb; assert (L := seen_len _ _ _ Se); assert (nth_error ts j <> None) by (rewrite E1; easy); apply nth_error_Some in H; lia].
    destruct (seen_at _ _ _ _ _ Se Eb) as (u & Eu & _ & K2 & _). rewrite Eu in E1. injection E1 as ->. cbn [unwrap bind]. unfold len_in. rewrite K2. cbn [bind]. f_equal.
    assert (Lk : lies_in ts m j = (off + snd m <=? length t)%nat).
    { unfold lies_in. rewrite Eu, E2. replace (start_of j ts <=? start_of j ts + off)%nat with true by (symmetry; apply Nat.leb_le; lia). cbn [andb].
      destruct (Nat.leb_spec (off + snd m) (length t)); [apply Nat.leb_le|apply Nat.leb_gt]; lia. }
    destruct (Nat.leb_spec (off + snd m) (length t)) as [D|D].
    + destruct (Z.leb_spec (Z.of_nat (off + snd m)) (Z.of_nat (length t))); [|lia]. rewrite (place_found _ _ _ Hm Lk). cbn [option_map]. do 2 f_equal. lia.
    + destruct (Z.leb_spec (Z.of_nat (off + snd m)) (Z.of_nat (length t))); [lia|]. destruct (find (lies_in ts m) (seq 0 (length ts))) as [i|] eqn:Ef; [|easy].
      apply find_some in Ef. destruct Ef as [_ Ef]. assert (i = j).
      { unfold lies_in in Ef. destruct (nth_error ts i) as [v|] eqn:Ei; [|discriminate]. apply andb_prop in Ef. rewrite !Nat.leb_le in Ef. destruct (Nat.lt_trichotomy i j) as [G|[G|G]]; [|easy|].
        - assert (X := start_grows _ _ _ _ Ei G). lia.
        - assert (X := start_grows _ _ _ _ Eu G). lia. }
      subst i. rewrite Lk in Ef. discriminate.
  - destruct (find (lies_in ts m) (seq 0 (length ts))) as [i|] eqn:Ef; [|easy]. apply find_some in Ef. destruct Ef as [_ Ef]. unfold lies_in in Ef.
    destruct (nth_error ts i) as [v|] eqn:Ei; [|discriminate]. apply andb_prop in Ef. rewrite !Nat.leb_le in Ef. exfalso. apply (N i v Ei). cbn. lia.
Qed.

(** What is kept of a match. *)
Definition tagged (ts : list str) (m : nat * nat) : nat * nat * nat :=
  match find (lies_in ts m) (seq 0 (length ts)) with Some k => (snd m, k, (fst m - start_of k ts)%nat) | None => (snd m, 0%nat, 0%nat) end.
Lemma within_find ts m : within ts m = match find (lies_in ts m) (seq 0 (length ts)) with Some _ => true | None => false end.
Proof.
  unfold within. destruct (find (lies_in ts m) (seq 0 (length ts))) as [k|] eqn:E.
  - apply existsb_exists. exists k. now apply find_some in E.
  - destruct (existsb (lies_in ts m) (seq 0 (length ts))) eqn:F; [|easy]. apply existsb_exists in F. destruct F as (k & K1 & K2). rewrite (find_none _ _ E k K1) in K2. discriminate.
Qed.
Lemma valid_found x bs ts : seen x bs ts -> in_place 0 bs -> forall ms, Forall (fun m => 0 < snd m)%nat ms ->
  x_valid (x_store x) bs ms = Ok (map (tagged ts) (filter (within ts) ms), Z.of_nat (length ms) - Z.of_nat (length (filter (within ts) ms))).
Proof.
  intros Se P. induction ms as [|m ms IH]; intros F; [easy|]. inversion F as [|? ? Fm F']; subst. cbn [x_valid filter]. rewrite (match_found x bs ts m Se P Fm). cbn [bind]. rewrite (IH F'). cbn [bind].
  rewrite within_find. unfold tagged at 2. destruct (find (lies_in ts m) (seq 0 (length ts))) as [k|] eqn:E; cbn [option_map length].
  - cbn [map length]. unfold tagged at 2. rewrite E. f_equal. f_equal. lia.
  - f_equal. f_equal. lia.
Qed.

(** ** Moving blocks *)
Fixpoint dsum (delta : nat -> Z) (k j : nat) : Z := match j with O => 0 | S j => delta k + dsum delta (S k) j end.
Lemma dsum_add f g h : (forall i, h i = f i + g i) -> forall j k, dsum h k j = dsum f k j + dsum g k j.
Proof. intros E. induction j as [|j IH]; intros k; cbn; [easy|]. rewrite IH, E. lia. Qed.
Lemma moves_at delta bs : forall k shift j y, NoDup (block_ids bs) -> nth_error bs j = Some y ->
  x_moved (x_moves delta k bs shift) y = mk_tblock (tb_id y) (tb_pos y + (shift + dsum delta k j)) (tb_len y + delta (k + j)%nat).
Proof.
  induction bs as [|b bs IH]; intros k shift [|j] y N E; try discriminate; cbn [block_ids map] in N; inversion N as [|? ? N1 N2]; subst; cbn [nth_error] in E; unfold x_moved; cbn [x_moves find fst].
  - injection E as ->. rewrite N.eqb_refl, Nat.add_0_r. cbn [dsum]. f_equal. lia.
  - destruct (N.eqb_spec (tb_id b) (tb_id y)) as [e|_].
    + exfalso. apply N1. rewrite e. apply in_map. now apply nth_error_In in E.
    + specialize (IH (S k) (shift + delta k) j y N2 E). unfold x_moved in IH. rewrite IH. cbn [dsum]. replace (S k + j)%nat with (k + S j)%nat by lia. f_equal. lia.
Qed.
Lemma moved_id l y : tb_id (x_moved l y) = tb_id y.
Proof. unfold x_moved. destruct (find (fun e => N.eqb (fst e) (tb_id y)) l) as [[? [? ?]]|]; easy. Qed.
Lemma moved_ids l bs : block_ids (map (x_moved l) bs) = block_ids bs.
Proof. unfold block_ids. rewrite map_map. apply map_ext, moved_id. Qed.
Lemma edit_twice d f g n m : edit_blocks (edit_blocks d f n) g m = edit_blocks d (fun y => g (f y)) m.
Proof.
  unfold edit_blocks. cbn. rewrite !map_map. f_equal. apply map_ext. intros c. cbn. now rewrite map_map.
Qed.
Lemma edit_ext d f g n : (forall y, In y (flow_blocks d) -> f y = g y) -> edit_blocks d f n = edit_blocks d g n.
Proof.
  intros H. assert (A : forall y, In y (t_others d ++ flat_map tc_blocks (t_cells d)) -> f y = g y) by (intros y Hy; apply H, (Permutation_in _ (Permutation_sym (flow_all d))), Hy).
  unfold edit_blocks. f_equal.
  - apply map_ext_in. intros c Hc. f_equal. apply map_ext_in. intros y Hy. apply A, in_app_iff. right. apply in_flat_map. now exists c.
  - apply map_ext_in. intros y Hy. apply A, in_app_iff. now left.
Qed.
Lemma edit_none d : edit_blocks d (fun y => y) (t_chars d) = d.
Proof.
  destruct d. unfold edit_blocks. cbn. f_equal; [|now rewrite map_id]. transitivity (map (fun c : tcell => c) t_cells); [|apply map_id]. apply map_ext. intros []. unfold TableModel.set_blocks. cbn. now rewrite map_id.
Qed.
Lemma delta_cons r v vs i : delta_of r (v :: vs) i = delta_of r [v] i + delta_of r vs i.
Proof. destruct v as [[len k] off]. unfold delta_of. cbn [fold_right]. destruct (k =? i)%nat; lia. Qed.
Lemma each_app st bs r : forall vs ws, x_replace_each st bs (vs ++ ws) r = let! st' := x_replace_each st bs vs r in x_replace_each st' bs ws r.
Proof.
  intros vs. revert st. induction vs as [|[[len k] off] vs IH]; intros st ws; [easy|]. cbn [app x_replace_each]. destruct (unwrap (nth_error bs k)); try easy. cbn [bind].
  destruct (erase_in _ _ _ _); try easy. cbn [bind]. destruct (type_in _ _ _ _); try easy. cbn [bind]. apply IH.
Qed.
Lemma dsum_one r len k off : forall j i, dsum (delta_of r [(len, k, off)]) i j = if (i <=? k)%nat && (k <? i + j)%nat then Z.of_nat (length r) - Z.of_nat len else 0.
Proof.
  induction j as [|j IH]; intros i; cbn [dsum].
  - destruct (Nat.leb_spec i k); [|easy]. destruct (Nat.ltb_spec k (i + 0)); [lia|easy].
  - rewrite IH. unfold delta_of. cbn [fold_right]. destruct (Nat.eqb_spec k i), (Nat.leb_spec i k), (Nat.leb_spec (S i) k), (Nat.ltb_spec k (i + S j)), (Nat.ltb_spec k (S i + j)); cbn [andb]; lia.
Qed.

(** ** One replacement *)
Lemma one_replaced x us k off len r t : inv x -> seen x (flow_blocks (x_table x)) us -> nth_error us k = Some t -> (off + len <= length t)%nat ->
  exists b st1 st2, nth_error (flow_blocks (x_table x)) k = Some b /\ erase_in (x_store x) (tb_id b) off len = Ok st1 /\ type_in st1 (tb_id b) off r = Ok st2
   /\ let x' := mk_xdoc (edit_blocks (x_table x) (x_moved (x_moves (delta_of r [(len, k, off)]) 0 (flow_blocks (x_table x)) 0)) (t_chars (x_table x) + (Z.of_nat (length r) - Z.of_nat len))) st2 (x_tid x) in
      inv x' /\ seen x' (flow_blocks (x_table x')) (replaced us k off (off + len) r).
Proof.
  intros I Se Et Hl. assert (H := inv_history _ I). assert (Hk : (k < length us)%nat) by (apply nth_error_Some; rewrite Et; easy).
  destruct (nth_error_split _ _ Et) as (ts1 & ts2 & Eu & E1). assert (Se0 := Se). rewrite Eu in Se0. apply Forall2_app_inv_r in Se0. destruct Se0 as (pre & l & S1 & S2 & Ef).
  inversion S2 as [|b ? post ? K S3]; subst l. subst y l'. assert (Lp : length pre = k) by (rewrite <- E1; symmetry; exact (seen_len _ _ _ S1)).
  assert (Eb : nth_error (flow_blocks (x_table x)) k = Some b) by (rewrite Ef, nth_error_app2, <- Lp, Nat.sub_diag by lia; easy).
  assert (Hb : block_in x (tb_id b)) by (apply flow_block_in; now apply nth_error_In in Eb).
  destruct (text_erase x (tb_id b) off len H Hb) as (t' & st1 & Et1 & Est1 & X1). assert (t' = t) by (destruct K as (K & _); congruence). subst t'.
  assert (H1 := x_erase x (tb_id b) off len st1 (x_table x) H Hb Est1 (same_blocks_refl _)). set (x1 := mk_xdoc (x_table x) st1 (x_tid x)) in *.
  destruct (X1 (x_table x) (same_blocks_refl _)) as [T1 O1]. fold x1 in T1, O1.
  destruct (text_type x1 (tb_id b) off r H1 Hb) as (t1 & st2 & Et2 & Est2 & X2). assert (t1 = firstn off t ++ skipn (off + len) t) by congruence. subst t1.
  exists b, st1, st2. split; [easy|]. split; [easy|]. split; [easy|]. cbn zeta.
  set (f := x_moved _). set (n := Z.of_nat (length r) - Z.of_nat len).
  assert (Fi : forall y, tb_id (f y) = tb_id y) by (intros; apply moved_id).
  assert (Sb : same_blocks (x_table x) (edit_blocks (x_table x) f (t_chars (x_table x) + n))) by now apply edit_same.
  assert (Lf : length (firstn off t) = off) by (apply firstn_length_le; lia).
  assert (Et' : firstn off (firstn off t ++ skipn (off + len) t) ++ r ++ skipn off (firstn off t ++ skipn (off + len) t) = firstn off t ++ r ++ skipn (off + len) t).
  { rewrite firstn_app, skipn_app, Lf, Nat.sub_diag, firstn_firstn, Nat.min_id, (@skipn_all2 _ off (firstn off t)) by lia. cbn [firstn skipn app]. now rewrite app_nil_r. }
  destruct (X2 _ Sb) as [T2 O2]. cbn [x1 x_tid] in T2, O2. rewrite Et' in T2.
  assert (No := flow_ids_nodup _ H).
  assert (En : Z.of_nat (length (firstn off t ++ r ++ skipn (off + len) t)) - Z.of_nat (length t) = n) by (rewrite !app_length, Lf, skipn_length; unfold n; lia).
  assert (Er : replaced us k off (off + len) r = ts1 ++ (firstn off t ++ r ++ skipn (off + len) t) :: ts2) by (rewrite Eu, <- E1; apply replaced_mid). rewrite Er.
  apply (inv_edited x st2 f (t_chars (x_table x) + n) pre b post ts1 t ts2 (firstn off t ++ r ++ skipn (off + len) t)); try easy.
  - intros y Hy. destruct (In_nth_error _ _ Hy) as [j Ej]. assert (Hj : (j < length pre)%nat) by (apply nth_error_Some; rewrite Ej; easy). unfold f. rewrite (moves_at _ _ 0 0 j y No) by (rewrite Ef, nth_error_app1 by easy; easy).
    rewrite dsum_one. unfold delta_of. cbn [fold_right Nat.add]. destruct (Nat.ltb_spec k j); [lia|]. destruct (Nat.eqb_spec k j); [lia|]. rewrite andb_false_r. destruct y as [yi yp yl]. cbn [tb_id tb_pos tb_len]. f_equal; lia.
  - intros y Hy. rewrite En. destruct (In_nth_error _ _ Hy) as [j Ej]. unfold f. rewrite (moves_at _ _ 0 0 (k + S j) y No) by (rewrite Ef, nth_error_app2 by lia; replace (k + S j - length pre)%nat with (S j) by lia; easy).
    rewrite dsum_one. unfold delta_of. cbn [fold_right Nat.add]. destruct (Nat.ltb_spec k (k + S j)); [|lia]. destruct (Nat.eqb_spec k (k + S j)); [lia|]. cbn [Nat.leb andb]. unfold later. fold n. f_equal; lia.
  - rewrite En. unfold f. rewrite (moves_at _ _ 0 0 k b No Eb), dsum_one. unfold delta_of. cbn [fold_right Nat.add]. destruct (Nat.ltb_spec k k); [lia|]. rewrite Nat.eqb_refl, andb_false_r. fold n. f_equal; lia.
  - now rewrite En.
  - exact (x_type x1 (tb_id b) off r st2 _ H1 Hb Est2 Sb).
  - intros i Hi Ni. rewrite (O2 i Hi Ni). now apply O1.
Qed.
