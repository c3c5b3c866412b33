(** A table put into a document without tables. *)
From Coq Require Import Sorting.Permutation.
From Verif Require Import Base RopeModel RopeSpec RopeFacts RopeTables TableModel TableSpec TableFacts TablePlaces TableTextModel TableTextSpec TableTextFacts.
From Verif Require Import DocModel DocSpec DocInv DocFacts DocAttr DocTheorems PropSpec QueryTheorems.

(** ** The paragraphs at their places *)
Fixpoint at_places (n : nat) (l : list para) : list tblock :=
  match l with [] => [] | (b, t) :: rest => mk_tblock b (Z.of_nat n) (Z.of_nat (length t)) :: at_places (n + length t + 1) rest end.
Lemma caught_up_wf d l : forall pre, wf d (pre ++ l) -> caught_up d (map fst l) = Ok (at_places (cpre pre) l).
Proof.
  induction l as [|[b t] l IH]; intros pre W; [reflexivity|]. cbn [map fst caught_up at_places].
  assert (R := wf_rep _ _ W). rewrite segs_mid in R. rewrite (rep_doc_position _ _ _ _ _ 0 R). cbn [bind].
  rewrite (wf_length_in _ _ b t W) by (apply in_app_iff; right; now left). cbn [bind].
  rewrite (IH (pre ++ [(b, t)])) by (now rewrite <- app_assoc). cbn [bind]. rewrite cpre_app, cpre_one.
  change (length (jpre (segs pre))) with (cpre pre). do 3 f_equal. lia.
Qed.
Lemma at_places_ids n l : block_ids (at_places n l) = map fst l.
Proof. revert n. induction l as [|[b t] l IH]; intros n; cbn; [easy|]. f_equal. apply IH. Qed.
Lemma at_places_length n l : length (at_places n l) = length l.
Proof. rewrite <- (map_length tb_id). change (map tb_id (at_places n l)) with (block_ids (at_places n l)). now rewrite at_places_ids, map_length. Qed.
Lemma at_places_in_place l : forall n, in_place (Z.of_nat n) (at_places n l).
Proof.
  induction l as [|[b t] l IH]; intros n; cbn; [easy|]. split; [easy|]. replace (Z.of_nat n + Z.of_nat (length t) + 1)%Z with (Z.of_nat (n + length t + 1)) by lia. apply IH.
Qed.
Lemma at_places_len l : forall n b, In b (at_places n l) -> (0 <= tb_len b)%Z.
Proof. induction l as [|[i t] l IH]; intros n b H; [easy|]. destruct H as [<-|H]; [cbn; lia|]. now apply IH in H. Qed.
Lemma at_places_width l : forall n k, width (firstn k (at_places n l)) = Z.of_nat (cpre (firstn k l)).
Proof.
  unfold width. induction l as [|[b t] l IH]; intros n k; [now rewrite !firstn_nil|]. destruct k as [|k]; [easy|]. cbn [at_places firstn fold_right tb_len].
  rewrite IH, cpre_cons. lia.
Qed.
Lemma at_places_chars l : forall n, fold_right (fun b m => tb_len b + m)%Z 0%Z (at_places n l) = Z.of_nat (length (concat (map snd l))).
Proof. induction l as [|[b t] l IH]; intros n; [easy|]. cbn [at_places fold_right tb_len map snd concat]. rewrite IH, app_length. lia. Qed.

(** ** The table *)
Lemma insert_table_cells others at_ start rows cols count chars next nextb t : insert_table others at_ start rows cols count chars next nextb = Ok t ->
  block_ids (t_others t) = block_ids others /\ t_at t = at_
  /\ exists l qs, t_cells t = map (settled l) (fresh_cells next nextb qs) /\ t_nextb t = (nextb + N.of_nat (length qs))%N.
Proof.
  unfold insert_table. destruct ((rows <? 1)%Z || (cols <? 1)%Z); [easy|]. rewrite table_fold. fold (table_quads rows cols). set (d0 := mk_tdoc _ _ _ _ _ _ _ _ _ _).
  set (d1 := add_cells d0 (table_quads rows cols)). destruct (add_cells_spec (table_quads rows cols) d0) as (H1 & _ & _ & _ & H5 & H6 & _ & _ & _ & H10).
  fold d1 in H1, H5, H6, H10. cbn [d0 t_cells t_next t_nextb app t_others t_at] in H1, H5, H6, H10. intros [= <-]. cbn [add_count shift_others set_others set_cells t_others t_at t_cells t_nextb].
  rewrite ids_moved, H5. split; [easy|]. split; [easy|]. eexists _, (table_quads rows cols). split; [|easy]. rewrite <- H1. reflexivity.
Qed.
(** How many paragraphs start before position [q]. *)
Lemma started R pre b t post i : i <= length t ->
  paragraphs_started (cpre pre + i) (items_of R (pre ++ (b, t) :: post)) = if 0 <? i then S (length pre) else length pre.
Proof.
  intros Hi. destruct (Nat.ltb_spec 0 i).
  - replace (cpre pre + i) with (S (cpre pre + (i - 1))) by lia. cbn [paragraphs_started]. rewrite breaks_items by lia. reflexivity.
  - replace i with 0 by lia. rewrite Nat.add_0_r. destruct pre as [|[c u] pre] using rev_ind; [reflexivity|]. clear IHpre.
    rewrite cpre_app, cpre_one. replace (cpre pre + (length u + 1)) with (S (cpre pre + length u)) by lia. cbn [paragraphs_started].
    rewrite <- app_assoc. cbn [app]. rewrite breaks_items by lia. rewrite app_length. cbn. lia.
Qed.
Lemma segs_firstn k l : segs (firstn k l) = firstn k (segs l).
Proof. unfold segs. apply eq_sym, firstn_map. Qed.

Definition put_in (ps : list para) (k : nat) (x : xdoc) : Prop :=
  t_at (x_table x) = k /\ block_ids (t_others (x_table x)) = map fst ps
  /\ (forall i t, In (i, t) ps -> text_of x i = Ok t)
  /\ forall c, In c (t_cells (x_table x)) -> cell_text x c = empty_cell.
Lemma insert_layout d ps p a rows cols tid next : wf d ps -> (1 <= rows)%Z -> (1 <= cols)%Z ->
  let k := paragraphs_started (clipz (ctotal ps) (Z.min p a)) (items_of (d_runs d) ps) in
  exists x start, x_insert_table d p a rows cols tid next = Ok x
    /\ k <= length ps /\ start = width (firstn k (at_places 0 ps))
    /\ insert_table (at_places 0 ps) k start rows cols (d_nblocks d) (d_chars d) next (d_next d) = Ok (x_table x)
    /\ (exists a b c, layout x a b c) /\ put_in ps k x.
Proof.
  intros W Hr Hc k. unfold x_insert_table. destruct (Z.ltb_spec rows 1); [lia|]. destruct (Z.ltb_spec cols 1); [lia|]. cbn [orb].
  rewrite (wf_order _ _ W), (caught_up_wf d ps [] W). cbn [bind]. change (cpre []) with 0.
  destruct (wf_loc _ _ (Z.min p a) W) as (pre & b & t & post & i & -> & Hi & Loc).
  destruct (find_in_list d pre b t post i (Z.min p a) (sort_blocks (get_multi d (d_fblocks d))) W Hi Loc) as (j & y & _ & _ & Ey & ->).
  { assert (P : Permutation (map b_id (sort_blocks (get_multi d (d_fblocks d)))) (d_fblocks d)).
    { rewrite <- (wf_multi_f _ _ W) at 2. apply Permutation_map, sort_perm. }
    apply (Permutation_in b (Permutation_sym P)), (Permutation_in b (Permutation_sym (wf_fblocks _ _ W))). rewrite map_app, in_app_iff. right. now left. }
  cbn [bind set_b_pos b_id b_pos]. rewrite Ey. rewrite (wf_length_in _ _ b t W) by (apply in_app_iff; right; now left). cbn [bind].
  assert (ND := wf_nodup _ _ W). destruct (nodup_mid _ _ _ _ ND) as [N1 N2].
  rewrite map_app. cbn [map fst]. rewrite (pos_of_id_mid _ _ _ N1), map_length.
  assert (K : k = if 0 <? i then S (length pre) else length pre) by (unfold k; rewrite Loc; now apply started).
  replace ((0 <? Z.of_nat i)%Z) with (0 <? i) by (destruct (Nat.ltb_spec 0 i), (Z.ltb_spec 0 (Z.of_nat i)); easy || lia).
  rewrite <- K.
  set (start := if 0 <? i then _ else _).
  assert (Kl : k <= length (pre ++ (b, t) :: post)) by (rewrite K, app_length; cbn [length]; destruct (0 <? i); lia).
  assert (S0 : start = width (firstn k (at_places 0 (pre ++ (b, t) :: post)))).
  { rewrite at_places_width. unfold start. rewrite K. destruct (0 <? i).
    - replace (S (length pre)) with (length pre + 1) by lia. rewrite firstn_app_2. cbn [firstn]. rewrite cpre_app, cpre_one. lia.
    - rewrite firstn_app, firstn_all, Nat.sub_diag. cbn [firstn]. now rewrite app_nil_r. }
  destruct (insert_table_grid (at_places 0 (pre ++ (b, t) :: post)) k start rows cols (d_nblocks d) (d_chars d) next (d_next d) Hr Hc) as (tb & Et & _).
  rewrite Et. cbn [bind]. destruct (insert_table_cells _ _ _ _ _ _ _ _ _ _ Et) as (O & At & l & qs & C & Nb). rewrite at_places_ids in O.
  assert (R := wf_rep _ _ W). assert (NA : ~ In (MAnchor tid) (map fst (segs (pre ++ (b, t) :: post)))) by (rewrite segs_fst; apply anchor_not_block).
  assert (X : exists st, rope_insert_table_anchor (d_rs d) tid b (0 <? i) = Ok st
     /\ rep st (firstn k (segs (pre ++ (b, t) :: post)) ++ (MAnchor tid, [FFFC]) :: skipn k (segs (pre ++ (b, t) :: post)))).
  { rewrite segs_mid in *. rewrite K. destruct (Nat.ltb_spec 0 i).
    - destruct (rep_anchor_after _ _ _ _ _ tid R NA) as (st & E & Q).
      { left. destruct t; [cbn in Hi; lia|easy]. }
      exists st. split; [easy|]. replace (segs pre ++ (MBlock b, t) :: segs post) with ((segs pre ++ [(MBlock b, t)]) ++ segs post) by now rewrite <- app_assoc.
      replace (S (length pre)) with (length (segs pre ++ [(MBlock b, t)])) by (rewrite app_length, segs_length; cbn; lia).
      rewrite firstn_app, firstn_all, skipn_app, skipn_all, Nat.sub_diag. cbn [firstn skipn app]. now rewrite app_nil_r, <- app_assoc.
    - destruct (rep_anchor_before _ _ _ _ _ tid R NA) as (st & E & Q). exists st. split; [easy|].
      rewrite <- (segs_length pre), firstn_app, firstn_all, skipn_app, skipn_all, Nat.sub_diag. cbn [firstn skipn app]. now rewrite app_nil_r. }
  destruct X as (st & -> & Q). cbn [bind].
  set (ps := pre ++ (b, t) :: post) in *. set (A := firstn k (segs ps)) in *. set (B := skipn k (segs ps)) in *.
  assert (NE : A ++ (MAnchor tid, [FFFC]) :: B <> []) by now destruct A.
  assert (CI : cell_ids (t_cells tb) = fresh_ids (d_next d) (length qs)) by (now rewrite C, ids_settled_cells, fresh_ids_cells).
  assert (M : forall m, In m (map fst (A ++ (MAnchor tid, [FFFC]) :: B)) -> m = MAnchor tid \/ In m (map MBlock (map fst ps))).
  { intros m. rewrite map_app, in_app_iff. cbn [map fst In]. rewrite <- segs_fst. rewrite <- (firstn_skipn k (segs ps)). fold A B. rewrite map_app, in_app_iff. intuition (subst; auto). }
  unfold frame_end. rewrite (walk_total _ _ _ Q); [|..|lia].
  2:{ intros m Hm. apply M in Hm. rewrite O, in_app_iff. cbn [In]. destruct Hm as [->|Hm]; tauto. }
  2:{ exact NE. }
  cbn [bind]. rewrite CI.
  assert (Fr : forall y, In y (map fst ps) -> (y < d_next d)%N) by apply (wf_next _ _ W).
  destruct (mirror_new_rep (fresh_ids (d_next d) (length qs)) st _ Q NE (fresh_ids_nodup _ _)) as (st' & Em & Rm).
  { clear y Ey; intros y Hy Hm. apply M in Hm. destruct Hm as [Hm|Hm]; [discriminate|]. apply in_mblock in Hm. apply Fr in Hm. apply fresh_ids_in in Hy. unfold id in *. lia. }
  clear y Ey. rewrite Em. cbn [bind]. eexists _, start. split; [reflexivity|]. split; [exact Kl|]. split; [exact S0|]. split; [exact Et|]. split.
  - exists A, B, (blanks (fresh_ids (d_next d) (length qs))). unfold layout. cbn [x_table x_store x_tid]. split; [exact Rm|].
    rewrite O, At. unfold A, B. rewrite <- firstn_map, <- skipn_map, segs_fst, firstn_map, skipn_map. split; [easy|]. split; [easy|].
    rewrite CI, blanks_fst. split; [easy|]. split.
    + intros y Hy. unfold block_in in Hy. cbn [x_table] in Hy. rewrite O, CI in Hy. rewrite Nb. destruct Hy as [Hy|Hy]; [apply Fr in Hy|apply fresh_ids_in in Hy]; unfold id in *; lia.
    + intros Z. rewrite Z in O. unfold ps in O. destruct pre as [|[u v] pre']; discriminate.
  - split; [exact At|]. split; [exact O|]. split.
    + intros y u Hy. apply (rep_read _ _ _ _ Rm). apply in_app_iff. left. apply (in_map (fun p => (MBlock (fst p), snd p))) in Hy. fold (segs ps) in Hy. cbn [fst snd] in Hy.
      rewrite <- (firstn_skipn k (segs ps)) in Hy. fold A B in Hy. rewrite in_app_iff in *. cbn [In]. tauto.
    + intros c Hc'. cbn [x_table] in Hc'. unfold cell_text, empty_cell. assert (I : incl (block_ids (tc_blocks c)) (cell_ids (t_cells tb))).
      { intros y Hy. unfold cell_ids, block_ids in *. apply in_map_iff in Hy. destruct Hy as (z & <- & Hz). apply in_map, in_flat_map. now exists c. }
      rewrite C in Hc'. apply in_map_iff in Hc'. destruct Hc' as (z & <- & Hz). apply fresh_one in Hz. destruct Hz as (bb & Eb & _).
      replace (tc_blocks (settled l z)) with [assigned l bb] in * by (unfold settled; cbn; now rewrite Eb). cbn [map]. do 2 f_equal. apply (rep_read _ _ _ _ Rm). apply in_app_iff. right.
      unfold blanks. apply in_map_iff. eexists. split; [reflexivity|]. rewrite CI in I. apply I. now left.
Qed.
