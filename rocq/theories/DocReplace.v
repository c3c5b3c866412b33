(** Replacing a selection inside one paragraph, and inserting formatted text. *)
From Verif Require Import Base BaseFacts FormatRunsModel FormatRunsSpec FormatRunsFacts
  RopeModel RopeSpec RopeFacts DocModel DocSpec BlockFacts DocInv DocFacts DocAttr DocDelete.
From Coq Require Import Permutation.

Lemma mid_text_length (t : str) i j : i <= j -> j <= length t -> length (mid_text t i j) = j - i.
Proof. intros. unfold mid_text. rewrite firstn_length, skipn_length. lia. Qed.

Lemma boff_min (t : str) k : boff t k = boff t (Nat.min k (length t)).
Proof.
  destruct (Nat.le_gt_cases k (length t)); [now rewrite Nat.min_l|].
  rewrite Nat.min_r by lia. rewrite !boff_all; [easy|lia|lia].
Qed.

Lemma delete_range_wf d pre b t post i j x so eo :
  wf d (pre ++ (b, t) :: post) -> i <= j ->
  i = Nat.min (Z.to_nat so) (length t) -> j = Nat.min (Z.to_nat eo) (length t) -> b_id x = b ->
  attr d b = Some (b_list x, b_fmt x) ->
  let ps' := pre ++ (b, firstn i t ++ skipn j t) :: post in
  exists d', delete_range_in_block d x so eo = Ok (d', Z.of_nat (j - i))
   /\ wf d' ps'
   /\ items_of (d_runs d') ps' = spec_delete (cpre pre + i) (cpre pre + j) (items_of (d_runs d) (pre ++ (b, t) :: post))
   /\ same_attr d d' /\ d_chars d' = d_chars d /\ d_nblocks d' = d_nblocks d
   /\ d_next d' = d_next d /\ d_order d' = d_order d /\ map b_id (d_blocks d') = map b_id (d_blocks d).
Proof.
  intros W Hij Hso Heo Hx Ha ps'. unfold delete_range_in_block.
  assert (Hj : j <= length t) by lia.
  destruct (eo <=? so)%Z eqn:E0.
  - assert (j = i) by lia. clear Heo. subst j. exists d.
    assert (Eps : ps' = pre ++ (b, t) :: post) by (unfold ps'; now rewrite firstn_skipn).
    split; [do 3 f_equal; lia|]. rewrite Eps. split; [exact W|].
    repeat split. unfold spec_delete. now rewrite firstn_skipn.
  - rewrite Hx, (wf_content _ _ _ _ _ W). cbn [bind].
    rewrite (wf_images _ _ W), !lob_nil, (boff_min t (Z.to_nat so)), (boff_min t (Z.to_nat eo)), <- Hso, <- Heo.
    rewrite (slice_mid t i j) by easy. cbn [bind].
    cbn [d_rs d_images set_runs]. rewrite ?(wf_images _ _ W), shift_images_delete_nil. cbv beta iota.
    pose proof (wf_rep _ _ W) as R1. rewrite segs_mid in R1. rewrite (cut3 t i j) in R1 by easy.
    destruct (rep_delete_in_block _ _ _ _ _ _ _ R1) as (st' & E2 & R2).
    cbn [d_rs set_images set_runs]. rewrite (boff_mid t i j) by easy. rewrite boff_split, E2. cbn [bind].
    assert (Wr : wf_runs (firstn i t ++ mid_text t i j ++ skipn j t) (d_runs d b)).
    { rewrite <- cut3 by easy. apply (wf_runs_in _ _ W). rewrite in_app_iff. right. now left. }
    set (R' := shift_runs_for_delete _ _ _). set (d3 := set_rs _ _).
    assert (HW3 : wf d3 ps' /\ items_of (d_runs d3) ps'
       = ipre (d_runs d) pre ++ styled (firstn i t ++ skipn j t) R' ++ ipost (d_runs d) post).
    { eapply wf_edit; try reflexivity.
      - exact W.
      - cbn. rewrite segs_mid. exact R2.
      - unfold R'. apply delete_runs_wf, Wr.
      - intros c. cbn. unfold upd. destruct (N.eqb c b); [easy|apply (wf_images _ _ W)]. }
    destruct HW3 as [W3 I3].
    assert (M : meta d3 (update_block d3 x)).
    { apply meta_update. rewrite Hx. eapply wf_has; [exact W3|]. unfold ps'.
      rewrite map_app, in_app_iff. right. now left. }
    eexists. split; [|split; [eapply wf_meta; [exact W3|exact M]|split; [|split]]].
    + do 2 f_equal. rewrite mid_text_length by easy. lia.
    + transitivity (items_of (d_runs d3) ps'); [easy|]. rewrite I3. unfold R'.
      rewrite (delete_runs_styled _ _ _ _ Wr). unfold spec_delete.
      rewrite (firstn_items (d_runs d) pre b t post i) by lia.
      rewrite (skipn_items (d_runs d) pre b t post j) by lia.
      rewrite <- !app_assoc. rewrite (boff_mid t i j), boff_split by easy. reflexivity.
    + apply (same_attr_trans _ d3); [now apply same_attr_blocks|].
      apply attr_update. transitivity (attr d (b_id x)); [now apply same_attr_blocks|].
      rewrite Hx. exact Ha.
    + repeat split. apply (meta_ids _ _ M).
Qed.

Lemma sorted_multi_ids d ps : wf d ps ->
  forall i, In i (map b_id (sort_blocks (get_multi d (collect_block_ids d)))) <-> In i (map fst ps).
Proof.
  intros W i. pose proof (wf_multi _ _ W) as M. rewrite <- M.
  split; apply Permutation_in; apply Permutation_map; [apply sort_perm|symmetry; apply sort_perm].
Qed.

Lemma sorted_multi_attr d is_ b :
  In b (sort_blocks (get_multi d is_)) -> attr d (b_id b) = Some (b_list b, b_fmt b).
Proof.
  intros H. eapply get_multi_attr, Permutation_in; [apply sort_perm|exact H].
Qed.

Lemma clipz_after (T T' : nat) p s0 :
  clipz T p = s0 -> s0 <= T' -> T' <= T -> (T' < T -> s0 < T) -> clipz T' p = s0.
Proof. unfold clipz. lia. Qed.

(** Moving the stored positions of some blocks. *)
Lemma update_shift d ps bs n k f :
  wf d ps ->
  (forall y, In y bs -> In (b_id y) (map b_id (d_blocks d)) /\ attr d (b_id y) = Some (b_list y, b_fmt y)) ->
  f = (fun x => set_b_pos x (b_pos x + n)%Z) ->
  let d' := update_multi d (map f (skipn k bs)) in
  wf d' ps /\ meta d d' /\ same_attr d d'.
Proof.
  intros W H -> d'.
  assert (Hs : forall y, In y (map (fun x => set_b_pos x (b_pos x + n)%Z) (skipn k bs)) ->
     In (b_id y) (map b_id (d_blocks d)) /\ attr d (b_id y) = Some (b_list y, b_fmt y)).
  { intros y Hy. apply in_map_iff in Hy. destruct Hy as (z & <- & Hz). cbn [b_id b_list b_fmt set_b_pos].
    apply H. rewrite <- (firstn_skipn k bs), in_app_iff. now right. }
  assert (M : meta d d').
  { apply meta_update_multi. intros i Hi. apply in_map_iff in Hi. destruct Hi as (y & <- & Hy). now apply Hs. }
  split; [eapply wf_meta; eassumption|]. split; [exact M|].
  apply attr_update_multi. intros y Hy. now apply Hs.
Qed.

Lemma selection_same d pre b t post i j p a text :
  let ps := pre ++ (b, t) :: post in
  let ps' := pre ++ (b, firstn i t ++ text ++ skipn j t) :: post in
  wf d ps -> i <= j -> j <= length t ->
  clipz (ctotal ps) (Z.min p a) = cpre pre + i ->
  clipz (ctotal ps) (Z.max p a) = cpre pre + j ->
  exists d', insert_text_selection d p a text = Ok (d', Z.of_nat (cpre pre + i + length text))
   /\ wf d' ps'
   /\ items_of (d_runs d') ps'
      = spec_insert (cpre pre + i) text (spec_delete (cpre pre + i) (cpre pre + j) (items_of (d_runs d) ps))
   /\ para_attrs d' = para_attrs d
   /\ d_chars d' = (d_chars d - Z.of_nat (j - i) + Z.of_nat (length text))%Z
   /\ d_nblocks d' = d_nblocks d /\ d_next d' = d_next d.
Proof.
  intros ps ps' W Hij Hj Hs He.
  unfold insert_text_selection. set (bs := sort_blocks _).
  assert (Hin : In b (map b_id bs)) by (apply (sorted_multi_ids _ _ W); eapply wf_in_mid, W).
  destruct (find_in_list _ _ _ _ _ _ _ bs W (Nat.le_trans _ _ _ Hij Hj) Hs Hin) as (k & x & K1 & K2 & K3 & ->).
  destruct (find_in_list _ _ _ _ _ _ _ bs W Hj He Hin) as (k' & x' & K1' & K2' & K3' & ->).
  rewrite K1 in K1'. injection K1' as <-. cbn [bind]. rewrite Nat.eqb_refl. cbn [negb].
  assert (Ha : attr d b = Some (b_list x, b_fmt x)).
  { rewrite <- K3. eapply sorted_multi_attr, nth_error_In, K2. }
  destruct (delete_range_wf d pre b t post i j (set_b_pos x (Z.of_nat (cpre pre))) (Z.of_nat i) (Z.of_nat j)
              W Hij ltac:(lia) ltac:(lia) K3 Ha)
    as (d1 & -> & W1 & I1 & A1 & C1 & C2 & C3 & C4 & C5).
  cbn [bind].
  set (d2 := set_chars d1 _).
  set (ps1 := pre ++ (b, firstn i t ++ skipn j t) :: post) in *.
  assert (W2 : wf d2 ps1) by (eapply wf_meta; [exact W1|apply meta_chars]).
  assert (A2 : same_attr d d2) by exact A1.
  assert (Hbs : forall y, In y bs -> In (b_id y) (map b_id (d_blocks d2)) /\ attr d2 (b_id y) = Some (b_list y, b_fmt y)).
  { intros y Hy. split.
    - change (In (b_id y) (map b_id (d_blocks d1))). rewrite C5.
      eapply wf_has; [exact W|]. apply (sorted_multi_ids _ _ W). now apply in_map.
    - rewrite (A2 (b_id y)). eapply sorted_multi_attr, Hy. }
  destruct (update_shift d2 ps1 bs (- Z.of_nat (j - i))%Z (S k) _ W2 Hbs eq_refl) as (W3 & M3 & A3).
  change (fun x0 : block => set_b_pos x0 (b_pos x0 - Z.of_nat (j - i))%Z)
    with (fun x0 : block => set_b_pos x0 (b_pos x0 + - Z.of_nat (j - i))%Z).
  set (d3 := update_multi d2 _) in *.
  replace (collect_block_ids d) with (collect_block_ids d3).
  2:{ rewrite (wf_collect _ _ W3), (wf_collect _ _ W). unfold ps1, ps. now rewrite !map_app. }
  set (bs' := sort_blocks (get_multi d3 _)).
  assert (Hin3 : In b (map b_id bs')) by (apply (sorted_multi_ids _ _ W3); eapply wf_in_mid, W3).
  set (t1 := firstn i t ++ skipn j t) in *.
  assert (Lt1 : length t1 = length t - (j - i)).
  { unfold t1. rewrite app_length, firstn_length, skipn_length. lia. }
  assert (Hs3 : clipz (ctotal ps1) (Z.min p a) = cpre pre + i).
  { unfold ps, ps1 in *. rewrite ctotal_mid in *.
    eapply clipz_after; [exact Hs|lia|lia|].
    unfold clipz in Hs, He. lia. }
  assert (Hi1 : i <= length t1) by lia.
  destruct (find_in_list _ _ _ _ _ _ _ bs' W3 Hi1 Hs3 Hin3) as (k3 & x3 & K4 & K5 & K6 & ->).
  cbn [bind b_id b_pos set_b_pos]. rewrite K6, (wf_content _ _ _ _ _ W3). cbn [bind].
  rewrite (wf_images _ _ W3), Nat2Z.id, lob_nil, slice_0_boff. cbn [bind].
  set (cur := set_b_pos x3 _).
  assert (M4 : meta d3 (update_block d3 cur)).
  { apply meta_update. cbn [cur set_b_pos b_id]. rewrite K6. eapply wf_has; [exact W3|eapply wf_in_mid, W3]. }
  assert (A4 : same_attr d3 (update_block d3 cur)).
  { apply attr_update. cbn [cur set_b_pos b_id b_list b_fmt]. eapply sorted_multi_attr, nth_error_In, K5. }
  pose proof (wf_meta _ _ _ W3 M4) as W4.
  destruct (insert_bytes_wf _ _ _ _ _ _ text W4 Hi1) as (d5 & -> & W5 & I5 & B1 & B2 & B3 & B4 & B5 & B6 & B7).
  cbn [bind].
  assert (A5 : same_attr d d5).
  { eapply same_attr_trans; [exact A2|]. eapply same_attr_trans; [exact A3|].
    eapply same_attr_trans; [exact A4|]. now apply same_attr_blocks. }
  assert (Hids5 : map b_id (d_blocks d5) = map b_id (d_blocks d3)) by (rewrite B1; apply (meta_ids _ _ M4)).
  assert (Hbs' : forall y, In y bs' -> In (b_id y) (map b_id (d_blocks d5)) /\ attr d5 (b_id y) = Some (b_list y, b_fmt y)).
  { intros y Hy. split.
    - rewrite Hids5. eapply wf_has; [exact W3|]. apply (sorted_multi_ids _ _ W3). now apply in_map.
    - transitivity (attr d3 (b_id y)); [|eapply sorted_multi_attr, Hy].
      rewrite <- (A4 (b_id y)). now apply same_attr_blocks. }
  destruct (update_shift d5 _ bs' (Z.of_nat (length text)) (S k3) _ W5 Hbs' eq_refl) as (W6 & M6 & A6).
  set (d6 := update_multi d5 _) in *.
  assert (Et : ins_text t1 i text = firstn i t ++ text ++ skipn j t).
  { unfold ins_text, t1. rewrite firstn_app, skipn_app, firstn_length.
    replace (i - Nat.min i (length t)) with 0 by lia. rewrite firstn_O, app_nil_r.
    rewrite firstn_firstn, Nat.min_id. rewrite skipn_all2 by (rewrite firstn_length; lia). reflexivity. }
  rewrite Et in *.
  eexists. split; [|split; [|split; [|split; [|split; [|split]]]]].
  - cbn [cur b_pos set_b_pos]. do 3 f_equal. lia.
  - eapply wf_meta; [exact W6|apply meta_chars].
  - transitivity (items_of (d_runs d5) ps'); [cbn [d_runs set_chars]; now rewrite (meta_runs _ _ M6)|].
    unfold ps'. rewrite I5. f_equal.
    rewrite (meta_items _ _ _ M4), (meta_items _ _ _ M3). exact I1.
  - unfold para_attrs. transitivity (map (attr d6) (d_order d6)); [easy|].
    rewrite (meta_order _ _ M6), B5, (meta_order _ _ M4), (meta_order _ _ M3).
    change (d_order d2) with (d_order d1). rewrite C4. apply map_ext. intros q. rewrite (A6 q). apply A5.
  - cbn [d_chars set_chars]. unfold d3. rewrite update_multi_chars. reflexivity.
  - cbn [d_nblocks set_chars]. unfold d6. rewrite update_multi_nblocks, B3.
    transitivity (d_nblocks d3); [easy|]. unfold d3. rewrite update_multi_nblocks. exact C2.
  - cbn [d_next set_chars]. rewrite (meta_next _ _ M6), B4, (meta_next _ _ M4), (meta_next _ _ M3). exact C3.
Qed.

(** A selection over two paragraphs is refused. *)
Lemma selection_cross d pre b t mid c u post i j p a text :
  let ps := pre ++ (b, t) :: mid ++ (c, u) :: post in
  wf d ps -> i <= length t -> j <= length u ->
  clipz (ctotal ps) (Z.min p a) = cpre pre + i ->
  clipz (ctotal ps) (Z.max p a) = cpre (pre ++ (b, t) :: mid) + j ->
  insert_text_selection d p a text = Err.
Proof.
  intros ps W Hi Hj Hs He. unfold insert_text_selection. set (bs := sort_blocks _).
  assert (Eps2 : ps = (pre ++ (b, t) :: mid) ++ (c, u) :: post) by (unfold ps; now rewrite <- app_assoc).
  assert (W' : wf d ((pre ++ (b, t) :: mid) ++ (c, u) :: post)) by (now rewrite <- Eps2).
  assert (Hin : In b (map b_id bs)) by (apply (sorted_multi_ids _ _ W); eapply wf_in_mid, W).
  assert (Hin' : In c (map b_id bs)) by (apply (sorted_multi_ids _ _ W'); eapply wf_in_mid, W').
  destruct (find_in_list _ _ _ _ _ _ _ bs W Hi Hs Hin) as (k & x & K1 & K2 & K3 & ->).
  rewrite Eps2 in He.
  destruct (find_in_list _ _ _ _ _ _ _ bs W' Hj He Hin') as (k' & x' & K1' & K2' & K3' & ->).
  cbn [bind]. destruct (k =? k') eqn:E; [|easy].
  apply Nat.eqb_eq in E. subst k'. pose proof (index_of_inj _ _ _ _ K1 K1') as Ebc.
  pose proof (wf_nodup _ _ W) as ND. unfold ps in ND. apply nodup_mid in ND. destruct ND as [_ N2].
  exfalso. apply N2. rewrite map_app, in_app_iff. right. left. now subst.
Qed.

(** ** Formatted text *)

Definition fmt_runs_at (runs : list run) (o n : nat) (f : cfmt) : list run :=
  splice_range (shift_runs_for_insert runs o n) o (o + n) [mk_run o (o + n) f].

Lemma inside_one o n f : 0 < n -> inside o (o + n) [mk_run o (o + n) f].
Proof. intros H. split; cbn; lia. Qed.

Lemma fmt_runs_wf t1 x t2 runs f :
  wf_runs (t1 ++ t2) runs -> x <> [] ->
  wf_runs (t1 ++ x ++ t2) (fmt_runs_at runs (blen t1) (blen x) f).
Proof.
  intros W Hx. destruct (insert_runs_wf t1 x t2 runs W) as (O & Mx & E).
  assert (Hp : 0 < blen x).
  { destruct (blen x) eqn:Ex; [|lia]. now apply blen_nil_inv in Ex. }
  assert (E1 : on_char_edge (t1 ++ x ++ t2) (blen t1)) by (apply edge_app; left; apply edge_blen).
  assert (E2 : on_char_edge (t1 ++ x ++ t2) (blen t1 + blen x)).
  { apply edge_app. right. exists (blen x). split; [|easy]. apply edge_app. left. apply edge_blen. }
  split; [|split].
  - apply splice_range_ordered; try lia; [exact O|now apply inside_one].
  - apply splice_range_maximal.
  - apply splice_range_edges; auto. constructor; [easy|constructor].
Qed.

Lemma fmt_runs_styled t1 x t2 runs f :
  wf_runs (t1 ++ t2) runs -> x <> [] ->
  styled (t1 ++ x ++ t2) (fmt_runs_at runs (blen t1) (blen x) f)
  = styled t1 runs ++ map (fun c => Chr c f) x ++ styled_from (blen t1) t2 runs.
Proof.
  intros W Hx. pose proof (insert_runs_wf t1 x t2 runs W) as (O & _ & _). pose proof W as (Ow & _ & _).
  assert (Hp : 0 < blen x).
  { destruct (blen x) eqn:Ex; [|lia]. now apply blen_nil_inv in Ex. }
  assert (F : forall k, fmt_at (fmt_runs_at runs (blen t1) (blen x) f) k =
     if k <? blen t1 then fmt_at runs k else if k <? blen t1 + blen x then Some f else fmt_at runs (k - blen x)).
  { intros k. unfold fmt_runs_at. rewrite (splice_range_fmt 0); try lia; try easy; [|now apply inside_one].
    rewrite (shift_insert_fmt 0) by exact Ow. cbn [fmt_at]. unfold covers. cbn [rstart rend rfmt].
    destruct (blen t1 <=? k) eqn:A1, (k <? blen t1 + blen x) eqn:A2, (k <? blen t1) eqn:A3;
      cbn [andb]; try lia; easy. }
  unfold styled. rewrite styled_app, styled_app. cbn [plus]. f_equal; [|f_equal].
  - apply styled_ext. intros k Hk. apply eff_of_fmt. rewrite F. dif; [easy|lia].
  - apply styled_const. intros k Hk. unfold eff_at. rewrite F. dif; [lia|]. dif; [easy|lia].
  - apply styled_ext. intros k Hk. apply eff_of_fmt. rewrite F. dif; [lia|]. dif; [lia|]. f_equal. lia.
Qed.

Lemma insert_formatted_at_wf d pre b t post i x text f off :
  wf d (pre ++ (b, t) :: post) -> i = Nat.min (Z.to_nat off) (length t) -> b_id x = b -> attr d b = Some (b_list x, b_fmt x) ->
  text <> [] ->
  let ps' := pre ++ (b, ins_text t i text) :: post in
  exists d', insert_formatted_at d x off text f = Ok (d', boff t i)
   /\ wf d' ps'
   /\ items_of (d_runs d') ps' = spec_insert_fmt (cpre pre + i) text f (items_of (d_runs d) (pre ++ (b, t) :: post))
   /\ same_attr d d' /\ d_chars d' = d_chars d /\ d_nblocks d' = d_nblocks d
   /\ d_next d' = d_next d /\ d_order d' = d_order d /\ d_fblocks d' = d_fblocks d
   /\ (get_block d b = Some x -> d_blocks d' = d_blocks d)
   /\ (forall k, d_runs d' k = upd (d_runs d) b (fmt_runs_at (d_runs d b) (boff t i) (blen text) f) k).
Proof.
  intros W Hoff Hx Ha Hne ps'. pose proof (wf_runs_split _ _ _ _ _ i W) as Wr.
  assert (Hi : i <= length t) by lia.
  unfold insert_formatted_at. rewrite Hx, (wf_content _ _ _ _ _ W). cbn [bind].
  rewrite (wf_images _ _ W), lob_nil, (boff_min t (Z.to_nat off)), <- Hoff, slice_0_boff. cbn [bind].
  cbn [d_rs d_runs d_images update_block set_blocks set_runs set_images].
  rewrite (wf_images _ _ W), shift_images_insert_nil.
  pose proof (wf_rep _ _ W) as R. rewrite segs_mid in R. rewrite <- (firstn_skipn i t) in R.
  destruct (rep_insert_in_block _ _ _ (firstn i t) (skipn i t) text _ R) as (st' & E & R2).
  rewrite boff_split, E. cbn [bind].
  fold (fmt_runs_at (d_runs d b) (blen (firstn i t)) (blen text) f).
  assert (M : meta d (update_block d x)).
  { apply meta_update. rewrite Hx. eapply wf_has; [exact W|eapply wf_in_mid, W]. }
  eexists. split; [reflexivity|]. set (d' := set_rs _ _).
  destruct (wf_edit d pre b t post (ins_text t i text)
     (fmt_runs_at (d_runs d b) (blen (firstn i t)) (blen text) f) d' W) as [W' I']; try reflexivity.
  - cbn. rewrite segs_mid. exact R2.
  - apply fmt_runs_wf; assumption.
  - exact (meta_ids _ _ M).
  - intros k. cbn. unfold upd. destruct (N.eqb k b); [easy|apply (wf_images _ _ W)].
  - split; [exact W'|]. split; [|split; [|repeat split]].
    + unfold ps'. rewrite I'. unfold ins_text. rewrite (fmt_runs_styled _ _ _ _ _ Wr Hne). unfold spec_insert_fmt.
      rewrite (firstn_items (d_runs d) pre b t post i Hi), (skipn_items (d_runs d) pre b t post i Hi).
      rewrite <- !app_assoc. reflexivity.
    + apply (same_attr_trans _ (update_block d x)); [apply attr_update; now rewrite Hx|now apply same_attr_blocks].
    + intros G. cbn. now apply blocks_put_same in G.
Qed.

Lemma seq_walk d ps p : wf d ps -> forall pre b t post running,
  incl (pre ++ (b, t) :: post) ps ->
  (running + Z.of_nat (cpre pre) <= p)%Z ->
  (p <= running + Z.of_nat (cpre pre + length t) \/ post = [])%Z ->
  find_sequential d (map fst (pre ++ (b, t) :: post)) running p
  = match get_block d b with Some x => Ok (x, (running + Z.of_nat (cpre pre))%Z) | None => Err end.
Proof.
  intros W. induction pre as [|[c u] pre IH]; intros b t post running Hl H1 H2.
  - cbn [app map fst find_sequential].
    destruct (get_block d b) as [x|]; [|easy]. cbn [ok_or bind].
    rewrite (wf_length_in _ _ b t W (Hl _ (or_introl eq_refl))). cbn [bind].
    rewrite cpre_nil in *. cbn [plus] in *.
    destruct ((running <=? p) && (p <=? running + Z.of_nat (length t)))%Z eqn:E.
    + do 2 f_equal. lia.
    + destruct H2 as [H2| ->]; [lia|]. cbn [map]. do 2 f_equal. lia.
  - cbn [app map fst find_sequential].
    assert (Hc : In c (map fst ps)) by (apply (in_map fst ps (c, u)), Hl; now left).
    destruct (wf_get _ _ _ W Hc) as (y & -> & _). cbn [ok_or bind].
    rewrite (wf_length_in _ _ c u W (Hl _ (or_introl eq_refl))). cbn [bind].
    rewrite cpre_cons in *.
    destruct ((running <=? p) && (p <=? running + Z.of_nat (length u)))%Z eqn:E; [lia|].
    destruct (map fst (pre ++ (b, t) :: post)) as [|q l] eqn:El; [destruct pre; discriminate|].
    rewrite <- El, (IH b t post).
    + destruct (get_block d b); [|easy]. do 2 f_equal. lia.
    + intros z Hz. apply Hl. now right.
    + lia.
    + destruct H2 as [H2|H2]; [left; lia|now right].
Qed.

Lemma clip_nonneg_cases (pre post : list para) b t i p :
  (0 <= p)%Z -> i <= length t ->
  clipz (ctotal (pre ++ (b, t) :: post)) p = cpre pre + i ->
  (Z.of_nat (cpre pre) <= p)%Z
  /\ (p <= Z.of_nat (cpre pre + length t) \/ post = [])%Z
  /\ clamp 0 (Z.of_nat (length t)) (p - Z.of_nat (cpre pre)) = Z.of_nat i.
Proof.
  intros Hp Hi. rewrite ctotal_mid. unfold clipz, clamp. intros H.
  destruct post as [|[c u] post].
  - rewrite cpre_nil in *. repeat split; [lia|now right|lia].
  - rewrite cpre_cons in *. repeat split; [lia|left; lia|lia].
Qed.

Lemma insert_formatted_simple_full d pre b t post i p text f :
  let ps := pre ++ (b, t) :: post in
  let ps' := pre ++ (b, ins_text t i text) :: post in
  wf d ps -> (0 <= p)%Z -> i <= length t -> text <> [] ->
  clipz (ctotal ps) p = cpre pre + i ->
  exists d' x, get_block d b = Some x /\
   insert_formatted_simple d p text f
   = Ok (d', (p + Z.of_nat (length text))%Z,
         mk_su b x (d_runs d b) [] (d_chars d) (boff t i) (blen text))
   /\ wf d' ps'
   /\ items_of (d_runs d') ps' = spec_insert_fmt (cpre pre + i) text f (items_of (d_runs d) ps)
   /\ para_attrs d' = para_attrs d
   /\ d_blocks d' = d_blocks d /\ d_chars d' = (d_chars d + Z.of_nat (length text))%Z
   /\ d_nblocks d' = d_nblocks d
   /\ d_next d' = d_next d /\ d_order d' = d_order d /\ d_fblocks d' = d_fblocks d
   /\ (forall k, d_runs d' k = upd (d_runs d) b (fmt_runs_at (d_runs d b) (boff t i) (blen text) f) k).
Proof.
  intros ps ps' W Hp0 Hi Hne Hp.
  destruct (clip_nonneg_cases _ _ _ _ _ _ Hp0 Hi Hp) as (H1 & H2 & H3).
  destruct (wf_get _ _ b W ltac:(eapply wf_in_mid, W)) as (x & Hx & Hxi).
  assert (Ha : attr d b = Some (b_list x, b_fmt x)) by (unfold attr; now rewrite Hx).
  unfold insert_formatted_simple. rewrite (wf_collect _ _ W). unfold ps.
  rewrite (seq_walk _ _ p W) by (auto; intros z Hz; exact Hz). rewrite Hx. cbn [bind].
  rewrite Hxi, (wf_length_in _ _ b t W) by (unfold ps; rewrite in_app_iff; right; now left). cbn [bind].
  rewrite Z.add_0_l, H3.
  destruct (insert_formatted_at_wf _ _ _ _ _ i x text f (Z.of_nat i) W ltac:(lia) Hxi Ha Hne)
    as (d1 & -> & W1 & I1 & A1 & C1 & C2 & C3 & C4 & C5 & C6 & C7).
  cbn [bind]. rewrite (wf_images _ _ W). eexists _, x. split; [reflexivity|]. split; [reflexivity|].
  split; [eapply wf_meta; [exact W1|apply meta_chars]|]. split; [exact I1|].
  split; [now apply para_attrs_same|]. repeat split; auto.
Qed.

Lemma undo_formatted_full d d' p text f np u :
  (exists ps, wf d ps) -> (0 <= p)%Z -> text <> [] -> insert_formatted_simple d p text f = Ok (d', np, u) ->
  exists d'', undo_simple d' u = Ok d'' /\ doc_eq d'' d /\ d_next d'' = d_next d'.
Proof.
  intros [ps W] Hp0 Hne E. destruct (wf_loc _ _ p W) as (pre & b & t & post & i & -> & Hi & Hp).
  destruct (insert_formatted_simple_full _ _ _ _ _ _ _ text f W Hp0 Hi Hne Hp)
    as (d1 & x & Hx & E1 & W1 & _ & _ & B1 & B2 & B3 & B4 & B5 & B6 & B7).
  rewrite E1 in E. injection E as <- <- <-.
  unfold undo_simple. cbn [su_id su_block su_runs su_images su_chars su_off su_len].
  unfold get_block in Hx. rewrite <- B1 in Hx. fold (get_block d1 b) in Hx.
  rewrite (update_same _ _ _ Hx). cbn [d_rs set_runs set_images].
  pose proof (wf_rep _ _ W1) as R1. rewrite segs_mid in R1.
  destruct (rep_delete_in_block _ _ _ (firstn i t) text (skipn i t) _ R1) as (st' & E2 & R2).
  rewrite firstn_skipn in R2. rewrite boff_split, E2.
  assert (Hp1 : 0 < blen text).
  { destruct (blen text) eqn:Ex; [|lia]. now apply blen_nil_inv in Ex. }
  destruct (0 <? blen text) eqn:E0; [|lia]. cbn [bind].
  eexists. split; [reflexivity|].
  set (d'' := set_chars _ _).
  assert (Hruns : forall k, d_runs d'' k = d_runs d k).
  { intros k. cbn. unfold upd. rewrite B7. unfold upd. destruct (N.eqb_spec k b) as [->|]; easy. }
  assert (Him : forall k, d_images d'' k = []).
  { intros k. cbn. unfold upd. destruct (N.eqb k b); [easy|]. apply (wf_images _ _ W1). }
  assert (W'' : wf d'' (pre ++ (b, t) :: post)).
  { destruct (wf_edit d1 pre b (ins_text t i text) post t (d_runs d b) d'' W1) as [W'' _]; try easy.
    - cbn. rewrite segs_mid. exact R2.
    - apply (wf_runs_in _ _ W). rewrite in_app_iff. right. now left. }
  split; [|reflexivity].
  eapply wf_doc_eq; [exact W''|exact W|exact B1|exact Hruns|exact B6|reflexivity|exact B3].
Qed.

Lemma seq_idx_walk d ps p : wf d ps -> forall pre b t post k running,
  incl (pre ++ (b, t) :: post) ps ->
  (running + Z.of_nat (cpre pre) <= p)%Z ->
  (p <= running + Z.of_nat (cpre pre + length t) \/ post = [])%Z ->
  find_sequential_idx d (map fst (pre ++ (b, t) :: post)) k running p
  = match get_block d b with
    | Some x => Ok (x, k + length pre, (running + Z.of_nat (cpre pre))%Z) | None => Err end.
Proof.
  intros W. induction pre as [|[c u] pre IH]; intros b t post k running Hl H1 H2.
  - cbn [app map fst find_sequential_idx].
    destruct (get_block d b) as [x|]; [|easy]. cbn [ok_or bind].
    rewrite (wf_length_in _ _ b t W (Hl _ (or_introl eq_refl))). cbn [bind].
    rewrite cpre_nil in *. cbn [plus length] in *. rewrite Nat.add_0_r.
    destruct ((running <=? p) && (p <=? running + Z.of_nat (length t)))%Z eqn:E.
    + do 2 f_equal. lia.
    + destruct H2 as [H2| ->]; [lia|]. cbn [map]. do 2 f_equal. lia.
  - cbn [app map fst find_sequential_idx].
    assert (Hc : In c (map fst ps)) by (apply (in_map fst ps (c, u)), Hl; now left).
    destruct (wf_get _ _ _ W Hc) as (y & -> & _). cbn [ok_or bind].
    rewrite (wf_length_in _ _ c u W (Hl _ (or_introl eq_refl))). cbn [bind].
    rewrite cpre_cons in *.
    destruct ((running <=? p) && (p <=? running + Z.of_nat (length u)))%Z eqn:E; [lia|].
    destruct (map fst (pre ++ (b, t) :: post)) as [|q l] eqn:El; [destruct pre; discriminate|].
    rewrite <- El, (IH b t post).
    + destruct (get_block d b); [|easy]. cbn [length]. do 2 f_equal; [f_equal; lia|lia].
    + intros z Hz. apply Hl. now right.
    + lia.
    + destruct H2 as [H2|H2]; [left; lia|now right].
Qed.

(** Replacing a selection by formatted text. *)
Lemma formatted_selection_same d pre b t post i j p a text f :
  let ps := pre ++ (b, t) :: post in
  let ps' := pre ++ (b, firstn i t ++ text ++ skipn j t) :: post in
  wf d ps -> (0 <= Z.min p a)%Z -> i <= j -> j <= length t -> text <> [] ->
  clipz (ctotal ps) (Z.min p a) = cpre pre + i ->
  clipz (ctotal ps) (Z.max p a) = cpre pre + j ->
  exists d', insert_formatted_selection d p a text f = Ok (d', (Z.min p a + Z.of_nat (length text))%Z)
   /\ wf d' ps'
   /\ items_of (d_runs d') ps'
      = spec_insert_fmt (cpre pre + i) text f (spec_delete (cpre pre + i) (cpre pre + j) (items_of (d_runs d) ps))
   /\ para_attrs d' = para_attrs d
   /\ d_chars d' = (d_chars d - Z.of_nat (j - i) + Z.of_nat (length text))%Z
   /\ d_nblocks d' = d_nblocks d /\ d_next d' = d_next d.
Proof.
  intros ps ps' W Hp0 Hij Hj Hne Hs He.
  destruct (wf_get _ _ b W ltac:(eapply wf_in_mid, W)) as (x & Hx & Hxi).
  assert (Ha : attr d b = Some (b_list x, b_fmt x)) by (unfold attr; now rewrite Hx).
  assert (Hp0' : (0 <= Z.max p a)%Z) by lia.
  destruct (clip_nonneg_cases _ _ _ _ i _ Hp0 (Nat.le_trans _ _ _ Hij Hj) Hs) as (H1 & H2 & H3).
  destruct (clip_nonneg_cases _ _ _ _ j _ Hp0' Hj He) as (H1' & H2' & H3').
  unfold insert_formatted_selection. rewrite (wf_collect _ _ W). unfold ps.
  rewrite (seq_idx_walk _ _ (Z.min p a) W) by (auto; try (intros z Hz; exact Hz)).
  rewrite (seq_idx_walk _ _ (Z.max p a) W) by (auto; try (intros z Hz; exact Hz)).
  rewrite Hx. cbn [bind]. rewrite Nat.eqb_refl. cbn [negb].
  unfold clamp in H3, H3'.
  destruct (delete_range_wf d pre b t post i j x (Z.min p a - (0 + Z.of_nat (cpre pre))) (Z.max p a - (0 + Z.of_nat (cpre pre)))
      W Hij ltac:(lia) ltac:(lia) Hxi Ha)
    as (d1 & -> & W1 & I1 & A1 & C1 & C2 & C3 & C4 & C5).
  cbn [bind]. set (d2 := set_chars d1 _).
  assert (W2 : wf d2 (pre ++ (b, firstn i t ++ skipn j t) :: post)) by (eapply wf_meta; [exact W1|apply meta_chars]).
  rewrite Hxi.
  destruct (wf_get _ _ b W2 ltac:(eapply wf_in_mid, W2)) as (y & Hy & Hyi). rewrite Hy. cbn [ok_or bind].
  assert (Hay : attr d2 b = Some (b_list y, b_fmt y)) by (unfold attr; now rewrite Hy).
  assert (Hoff : i = Nat.min (Z.to_nat (Z.min p a - (0 + Z.of_nat (cpre pre)))) (length (firstn i t ++ skipn j t))).
  { rewrite app_length, firstn_length, skipn_length.
    destruct (Nat.eq_dec i (length t)); [lia|].
    assert (Z.of_nat i = Z.min p a - Z.of_nat (cpre pre))%Z by lia. lia. }
  destruct (insert_formatted_at_wf _ _ _ _ _ i y text f _ W2 Hoff Hyi Hay Hne)
    as (d3 & -> & W3 & I3 & A3 & D1 & D2 & D3 & D4 & D5 & D6 & D7).
  cbn [bind].
  assert (Et : ins_text (firstn i t ++ skipn j t) i text = firstn i t ++ text ++ skipn j t).
  { unfold ins_text. rewrite firstn_app, skipn_app, firstn_length.
    replace (i - Nat.min i (length t)) with 0 by lia. rewrite firstn_O, app_nil_r.
    rewrite firstn_firstn, Nat.min_id. rewrite skipn_all2 by (rewrite firstn_length; lia). reflexivity. }
  rewrite Et in *.
  eexists. split; [reflexivity|].
  split; [eapply wf_meta; [exact W3|apply meta_chars]|]. split; [|split; [|split; [|split]]].
  - transitivity (items_of (d_runs d3) ps'); [easy|]. unfold ps'. rewrite I3. f_equal. exact I1.
  - apply (para_attrs_same d); [|transitivity (d_order d2); [exact D4|exact C4]].
    eapply same_attr_trans; [exact A1|]. exact A3.
  - cbn [d_chars set_chars]. rewrite D1. reflexivity.
  - cbn [d_nblocks set_chars]. rewrite D2. exact C2.
  - cbn [d_next set_chars]. rewrite D3. exact C3.
Qed.

Lemma formatted_selection_cross d pre b t mid c u post i j p a text f :
  let ps := pre ++ (b, t) :: mid ++ (c, u) :: post in
  wf d ps -> (0 <= Z.min p a)%Z -> i <= length t -> j <= length u ->
  clipz (ctotal ps) (Z.min p a) = cpre pre + i ->
  clipz (ctotal ps) (Z.max p a) = cpre (pre ++ (b, t) :: mid) + j ->
  insert_formatted_selection d p a text f = Err.
Proof.
  intros ps W Hp0 Hi Hj Hs He.
  assert (Eps2 : ps = (pre ++ (b, t) :: mid) ++ (c, u) :: post) by (unfold ps; now rewrite <- app_assoc).
  assert (W' : wf d ((pre ++ (b, t) :: mid) ++ (c, u) :: post)) by (now rewrite <- Eps2).
  assert (Hp0' : (0 <= Z.max p a)%Z) by lia.
  destruct (clip_nonneg_cases _ _ _ _ i _ Hp0 Hi Hs) as (H1 & H2 & H3).
  rewrite Eps2 in He.
  destruct (clip_nonneg_cases _ _ _ _ j _ Hp0' Hj He) as (H1' & H2' & H3').
  unfold insert_formatted_selection. rewrite (wf_collect _ _ W). unfold ps at 1.
  rewrite (seq_idx_walk _ _ (Z.min p a) W) by (auto; try (intros z Hz; exact Hz)).
  rewrite Eps2.
  rewrite (seq_idx_walk _ _ (Z.max p a) W') by (auto; try (intros z Hz; exact Hz)).
  destruct (wf_get _ _ b W ltac:(eapply wf_in_mid, W)) as (x & Hx & Hxi). rewrite Hx. cbn [bind].
  destruct (wf_get _ _ c W' ltac:(eapply wf_in_mid, W')) as (y & Hy & Hyi). rewrite Hy. cbn [bind].
  rewrite app_length. cbn [length]. destruct (_ =? _) eqn:E; [|easy]. apply Nat.eqb_eq in E. lia.
Qed.
