(** Attributes and stored positions after a paste. *)
From Verif Require Import Base BaseFacts FormatRunsModel FormatRunsSpec FormatRunsFacts
  RopeModel RopeSpec RopeFacts DocModel DocSpec BlockFacts DocInv DocFacts DocAttr DocDelete DocBreak DocReplace
  DocImport DocFormat DocQuery ReplaceFacts DocFresh QueryModel QuerySpec ListModel ListDocModel FragmentModel FragmentText FragmentSpec FragmentRuns FragmentGrow.
From Coq Require Import Permutation.

(** ** The blocks in order *)

Lemma ascending_sorted l : ascending (map b_pos l) -> sorted_pos l.
Proof.
  induction l as [|a l IH]; [easy|]. destruct l as [|c l]; [easy|]. cbn [map ascending sorted_pos] in *.
  intros [H1 H2]. split; [easy|]. apply IH, H2.
Qed.

Lemma in_order_blocks d ps : wf d ps -> in_order d ->
  sort_blocks (get_multi d (collect_block_ids d)) = get_multi d (map fst ps).
Proof.
  intros W H. rewrite (wf_collect _ _ W). apply sort_id, ascending_sorted. unfold in_order in H.
  now rewrite (wf_order _ _ W) in H.
Qed.

Lemma fresh_list d ps : wf d ps ->
  (fresh d ps <-> map (pos_of d) (map fst ps) = map Some (pos_from 0 ps)).
Proof.
  intros W. rewrite (fresh_pos _ _ W).
  assert (G : forall post pre, 
    ((forall p1 b t p2, post = p1 ++ (b, t) :: p2 -> pos_of d b = Some (Z.of_nat (cpre (pre ++ p1))))
      <-> map (pos_of d) (map fst post) = map Some (pos_from (Z.of_nat (cpre pre)) post))).
  { induction post as [|[c u] post IH]; intros pre.
    - split; [easy|]. intros _ p1 b t p2 H. destruct p1; discriminate.
    - cbn [map fst pos_from]. specialize (IH (pre ++ [(c, u)])).
      assert (E : Z.of_nat (cpre (pre ++ [(c, u)])) = (Z.of_nat (cpre pre) + Z.of_nat (length u) + 1)%Z) by (rewrite cpre_snoc; lia).
      rewrite E in IH. split.
      + intros H. f_equal.
        * rewrite (H [] c u post eq_refl). now rewrite app_nil_r.
        * apply IH. intros p1 b t p2 ->. rewrite <- app_assoc. apply (H ((c, u) :: p1) b t p2). easy.
      + intros [= H1 H2] p1 b t p2 Hp. destruct p1 as [|q p1]; cbn in Hp.
        * injection Hp as <- <- <-. rewrite app_nil_r. exact H1.
        * injection Hp as <- Hp. rewrite <- IH in H2. specialize (H2 _ _ _ _ Hp). rewrite <- app_assoc in H2. exact H2. }
  apply (G ps []).
Qed.

Lemma pos_from_ascending l : forall z, ascending (z :: pos_from (z + 1) l) /\ ascending (pos_from z l).
Proof.
  induction l as [|[i t] l IH]; intros z; [easy|]. cbn [pos_from]. split.
  - cbn [ascending]. split; [lia|]. destruct (IH (z + 1 + Z.of_nat (length t) + 1)%Z) as [_ H].
    destruct l as [|[j u] l]; [easy|]. cbn [pos_from] in *. cbn [ascending]. split; [lia|exact H].
  - destruct (IH (z + Z.of_nat (length t) + 1)%Z) as [_ H].
    destruct l as [|[j u] l]; [easy|]. cbn [pos_from] in *. cbn [ascending]. split; [lia|exact H].
Qed.

Lemma get_multi_pos d is_ l : map (pos_of d) is_ = map Some l -> map b_pos (get_multi d is_) = l.
Proof.
  revert l; induction is_ as [|i is_ IH]; intros [|z l]; cbn [map get_multi]; try easy.
  intros [= H1 H2]. unfold pos_of in H1. destruct (get_block d i) as [b|]; [|easy]. cbn in *.
  injection H1 as <-. f_equal. now apply IH.
Qed.

Lemma fresh_in_order d ps : wf d ps -> fresh d ps -> in_order d.
Proof.
  intros W F. apply (fresh_list _ _ W) in F. unfold in_order. rewrite (wf_order _ _ W).
  rewrite (get_multi_pos _ _ _ F). apply pos_from_ascending.
Qed.

(** ** Blocks that are shifted *)

Lemma multi_find d ps q : wf d ps -> In q (map fst ps) ->
  find_block (get_multi d (map fst ps)) q = get_block d q.
Proof.
  intros W Hq. destruct (wf_get _ _ _ W Hq) as (x & Ex & Hid).
  assert (Hin : In q (map b_id (get_multi d (map fst ps)))).
  { rewrite get_multi_ids; [easy|]. intros i. now apply wf_has. }
  destruct (find_block_in _ _ Hin) as (y & Ey & Iy & Hy).
  apply get_multi_get in Hy. rewrite Iy in Hy. congruence.
Qed.

Lemma skipn_ids d pre b t post : wf d (pre ++ (b, t) :: post) ->
  map b_id (skipn (S (length pre)) (get_multi d (map fst (pre ++ (b, t) :: post)))) = map fst post.
Proof.
  intros W. rewrite <- skipn_map, get_multi_ids by (intros i; now apply wf_has).
  rewrite map_app, skipn_app, map_length, skipn_all2 by (rewrite map_length; lia).
  replace (S (length pre) - length pre) with 1 by lia. reflexivity.
Qed.

Lemma shift_ids d pre b t post n : wf d (pre ++ (b, t) :: post) ->
  map b_id (shift_blocks (get_multi d (map fst (pre ++ (b, t) :: post))) (length pre) n) = map fst post.
Proof.
  intros W. rewrite <- (skipn_ids _ _ _ _ _ W). unfold shift_blocks. rewrite map_map. now apply map_ext.
Qed.

Lemma nodup_post d pre b t post : wf d (pre ++ (b, t) :: post) -> NoDup (map fst post).
Proof. intros W. pose proof (wf_nodup _ _ W) as ND. rewrite map_app in ND. apply nodup_app_r in ND. now inversion ND. Qed.

(** ** The finished document *)

Section Finish.
Variables (d d1 d3 : doc) (pre : list para) (b : id) (t : str) (post : list para) (hr : list run).
Variables (made : list para) (itss : list (list item)) (poss : list Z) (ats : list (option id * bfmt)) (rs : rstore).
Hypothesis W : wf d (pre ++ (b, t) :: post).
Hypothesis H : head_set d d1 b hr.
Hypothesis G : grown d1 d3 made itss poss ats.

Notation ps := (pre ++ (b, t) :: post).
Notation bs := (get_multi d (map fst ps)).
Notation d5 := (set_rs (set_order d3 (order_insert (d_order d) (length pre) (map fst made))) rs).

Lemma fin_old_lt : forall q, In q (map b_id (d_blocks d1)) -> (q < d_next d1)%N.
Proof.
  intros q. rewrite (h_ids _ _ _ _ H), (h_next _ _ _ _ H). intros Hq. apply (wf_next _ _ W).
  eapply Permutation_in; [apply (wf_ids _ _ W)|exact Hq].
Qed.

Lemma fin_in : forall q, In q (map fst ps) -> In q (map b_id (d_blocks d5)).
Proof.
  intros q Hq. cbn. destruct (g_blocks _ _ _ _ _ _ G) as (nb & -> & _). rewrite map_app, in_app_iff. left.
  rewrite (h_ids _ _ _ _ H). eapply wf_has; eassumption.
Qed.

Lemma fin_meta n : meta d5 (update_multi d5 (shift_blocks bs (length pre) n)).
Proof.
  apply meta_update_multi. rewrite (shift_ids _ _ _ _ _ n W).
  intros i Hi. apply fin_in. rewrite map_app, in_app_iff. right. now right.
Qed.

Lemma fin_b : In b (map b_id (d_blocks d)).
Proof. eapply wf_has; [exact W|eapply wf_in_mid, W]. Qed.

Lemma fin_pre_post q : In q (map fst pre) \/ In q (map fst post) -> q <> b /\ In q (map b_id (d_blocks d)).
Proof.
  intros Hq. pose proof (nodup_mid _ _ _ _ (wf_nodup _ _ W)) as [N1 N2]. split; [intros ->; tauto|].
  eapply wf_has; [exact W|]. rewrite map_app, in_app_iff. cbn [map fst In]. tauto.
Qed.

Lemma fin_find_old q : In q (map fst pre) \/ In q (map fst post) -> find_block (d_blocks d5) q = find_block (d_blocks d) q.
Proof. intros Hq. destruct (fin_pre_post q Hq). cbn. eapply grown_find_old; eassumption. Qed.

Lemma fin_order : d_order d5 = map fst pre ++ b :: map fst made ++ map fst post.
Proof. exact (order_mid _ _ _ _ _ _ W). Qed.

Lemma fin_attrs n :
  para_attrs (update_multi d5 (shift_blocks bs (length pre) n))
  = firstn (length pre) (para_attrs d) ++ attr d1 b :: map Some ats ++ skipn (S (length pre)) (para_attrs d).
Proof.
  assert (S : same_attr d5 (update_multi d5 (shift_blocks bs (length pre) n))).
  { apply attr_update_multi. intros y Hy. apply in_map_iff in Hy. destruct Hy as (z & <- & Hz).
    cbn [b_id b_list b_fmt set_b_pos].
    assert (Hz1 : In (b_id z) (map fst post)) by (rewrite <- (skipn_ids _ _ _ _ _ W); now apply in_map).
    unfold attr, get_block. rewrite fin_find_old by tauto.
    change (attr d (b_id z) = Some (b_list z, b_fmt z)). apply (get_multi_attr d (map fst ps)).
    rewrite <- (firstn_skipn (S (length pre)) bs), in_app_iff. now right. }
  rewrite (para_attrs_same _ _ S) by (apply (meta_order _ _ (fin_meta n))).
  unfold para_attrs at 1. rewrite fin_order, map_app. cbn [map]. rewrite map_app.
  assert (Ed : para_attrs d = map (attr d) (map fst pre) ++ attr d b :: map (attr d) (map fst post)).
  { unfold para_attrs. now rewrite (wf_order _ _ W), !map_app. }
  rewrite Ed, firstn_app, skipn_app, firstn_all2, skipn_all2 by (rewrite !map_length; lia).
  rewrite !map_length, Nat.sub_diag. replace (Datatypes.S (length pre) - length pre) with 1 by lia.
  cbn [firstn skipn app]. rewrite app_nil_r. f_equal; [|f_equal; [|f_equal]].
  - apply map_ext_in. intros q Hq. unfold attr, get_block. rewrite fin_find_old by tauto. reflexivity.
  - unfold attr, get_block. cbn. erewrite grown_find_head; [reflexivity|exact H|exact G|apply fin_b].
  - destruct (grown_each (fun x => (b_list x, b_fmt x)) d1 d3 made itss poss ats fin_old_lt G) as (nb & _ & _ & E & E2).
    rewrite <- E, <- E2. reflexivity.
  - apply map_ext_in. intros q Hq. unfold attr, get_block. rewrite fin_find_old by tauto. reflexivity.
Qed.

Lemma pos_from_plus l : forall z n, pos_from (z + n) l = map (fun x => x + n)%Z (pos_from z l).
Proof.
  induction l as [|[i u] l IH]; intros z n; [easy|]. cbn [pos_from map]. f_equal. rewrite <- IH. f_equal. lia.
Qed.

Lemma fin_fresh h n :
  fresh d ps -> wf (update_multi d5 (shift_blocks bs (length pre) n)) (pre ++ (b, h) :: made ++ post) ->
  pos_of d1 b = Some (Z.of_nat (cpre pre)) ->
  poss = pos_from (Z.of_nat (cpre pre) + Z.of_nat (length h) + 1)%Z made ->
  n = (Z.of_nat (length h) + Z.of_nat (cpre made) - Z.of_nat (length t))%Z ->
  fresh (update_multi d5 (shift_blocks bs (length pre) n)) (pre ++ (b, h) :: made ++ post).
Proof.
  intros F W' Hb Hp Hn. set (d6 := update_multi _ _) in *.
  assert (P : forall q, pos_of d6 q = match find_block (shift_blocks bs (length pre) n) q with
                                      | Some y => Some (b_pos y) | None => pos_of d5 q end).
  { intros q. unfold d6. apply pos_update_multi.
    - rewrite (shift_ids _ _ _ _ _ n W). eapply nodup_post, W.
    - intros y Hy. apply fin_in. apply (in_map b_id) in Hy. rewrite (shift_ids _ _ _ _ _ n W) in Hy.
      rewrite map_app, in_app_iff. right. now right. }
  assert (Pout : forall q, ~ In q (map fst post) -> pos_of d6 q = pos_of d5 q).
  { intros q Hq. rewrite P, find_block_none; [easy|]. now rewrite (shift_ids _ _ _ _ _ n W). }
  assert (Ppost : forall q, In q (map fst post) -> pos_of d6 q = option_map (fun z => z + n)%Z (pos_of d q)).
  { intros q Hq. rewrite P. unfold shift_blocks. rewrite find_shift by easy.
    pose proof (skipn_ids _ _ _ _ _ W) as E. rewrite <- E in Hq.
    destruct (find_block_in _ _ Hq) as (y & -> & Iy & Hy). cbn [option_map b_pos set_b_pos].
    assert (Hyb : In y bs) by (rewrite <- (firstn_skipn (S (length pre)) bs), in_app_iff; now right).
    apply get_multi_get in Hyb. rewrite Iy in Hyb. unfold pos_of. rewrite Hyb. reflexivity. }
  pose proof (nodup_mid _ _ _ _ (wf_nodup _ _ W)) as [N1 N2].
  assert (Npp : forall q, In q (map fst pre) -> ~ In q (map fst post)).
  { intros q H1 H2. pose proof (wf_nodup _ _ W) as ND. rewrite map_app in ND. apply (nodup_app_disj _ _ q ND H1). now right. }
  apply (fresh_list _ _ W'). apply (fresh_list _ _ W) in F.
  rewrite !map_app in F. cbn [map fst] in F. rewrite pos_from_app in F. cbn [pos_from] in F. rewrite map_app in F. cbn [map] in F.
  apply app_inv_length in F; [|rewrite !map_length; clear; generalize 0%Z; induction pre as [|[i u] l IH]; intros z; cbn; auto].
  destruct F as [F1 F2]. injection F2 as F2 F3.
  rewrite map_app. cbn [map fst]. rewrite map_app, map_app. cbn [map]. rewrite map_app.
  rewrite pos_from_app. cbn [pos_from]. rewrite pos_from_app, map_app. cbn [map]. rewrite map_app.
  cbn [plus] in *. rewrite Z.add_0_l in *. f_equal; [|f_equal; [|f_equal]].
  - rewrite <- F1. apply map_ext_in. intros q Hq. rewrite Pout by auto. unfold pos_of, get_block. rewrite fin_find_old by tauto. reflexivity.
  - rewrite Pout by easy. rewrite <- Hb. unfold pos_of, get_block. cbn. erewrite grown_find_head; [reflexivity|exact H|exact G|apply fin_b].
  - destruct (grown_each b_pos d1 d3 made itss poss ats fin_old_lt G) as (nb & _ & E & _ & E2).
    rewrite <- Hp, <- E, <- E2. apply map_ext_in. intros q Hq. rewrite Pout; [reflexivity|].
    intros Hq2. rewrite (g_ids _ _ _ _ _ _ G), ids_from_in, (h_next _ _ _ _ H) in Hq.
    assert (Hq3 : In q (map fst ps)) by (rewrite map_app, in_app_iff; right; now right).
    apply (wf_next _ _ W) in Hq3. lia.
  - rewrite (map_ext_in _ (fun q => option_map (fun z => z + n)%Z (pos_of d q))) by (intros q Hq; now apply Ppost).
    rewrite <- (map_map (pos_of d) (option_map (fun z => z + n)%Z)), F3, map_map. cbn [option_map].
    rewrite <- (map_map (fun z => z + n)%Z Some), <- pos_from_plus. do 2 f_equal. lia.
Qed.

End Finish.
