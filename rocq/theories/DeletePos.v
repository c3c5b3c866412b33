(** Stored positions after a deletion. *)
From Verif Require Import Base BaseFacts FormatRunsModel FormatRunsSpec FormatRunsFacts
  RopeModel RopeSpec RopeFacts DocModel DocSpec BlockFacts DocInv DocFacts DocAttr DocDelete DocImport DocFresh
  QueryModel FragmentModel FragmentText FragmentRuns FragmentGrow FragmentFinish.
From Coq Require Import Permutation.

Lemma pos_list d : forall post pre,
  (forall p1 b t p2, post = p1 ++ (b, t) :: p2 -> pos_of d b = Some (Z.of_nat (cpre (pre ++ p1)))) ->
  map (pos_of d) (map fst post) = map Some (pos_from (Z.of_nat (cpre pre)) post).
Proof.
  induction post as [|[c u] post IH]; intros pre H; [easy|]. cbn [map fst pos_from]. f_equal.
  - specialize (H [] c u post eq_refl). now rewrite app_nil_r in H.
  - rewrite (IH (pre ++ [(c, u)])).
    + do 2 f_equal. rewrite cpre_app, cpre_one. lia.
    + intros p1 b t p2 ->. rewrite <- app_assoc. apply (H ((c, u) :: p1) b t p2). reflexivity.
Qed.

Lemma ascending_skip x m c : ascending (x :: m ++ c) -> ascending (x :: c).
Proof.
  induction m as [|y m IH]; [easy|]. cbn [app]. intros [H1 H2]. apply IH.
  destruct (m ++ c) as [|z l]; [easy|]. destruct H2 as [H2 H3]. split; [lia|exact H3].
Qed.
Lemma ascending_drop a x m c : ascending (a ++ x :: m ++ c) -> ascending (a ++ x :: c).
Proof.
  induction a as [|y a IH]; [apply ascending_skip|]. destruct a as [|z a].
  - cbn [app] in *. intros [H1 H2]. split; [easy|now apply IH].
  - cbn [app] in *. intros [H1 H2]. split; [easy|now apply IH].
Qed.

Lemma delete_pos d ps p a : wf d ps -> (p <> a)%Z ->
  let its := items_of (d_runs d) ps in
  exists d' cut ps', delete_text d p a = Ok (d', Z.min p a, cut) /\ wf d' ps' /\ in_order d'
   /\ (S (breaks (clipz (ctotal ps) (Z.max p a)) its) = length ps -> fresh d' ps').
Proof.
  intros W Hpa its. destruct (delete_full d ps p a W Hpa) as (d' & cut & ps' & E & D & _).
  exists d', cut, ps'. split; [easy|]. pose proof (del_wf _ _ _ _ _ _ _ D) as W'. split; [easy|].
  destruct (del_shape _ _ _ _ _ _ _ D) as (pre & b & t & t' & gone & post & Eps & Eps' & Eb).
  pose proof (del_pos _ _ _ _ _ _ _ D) as P. fold its in Eb.
  assert (P1 : map (pos_of d') (map fst pre) = map Some (pos_from 0 pre)).
  { apply (pos_list d' pre []). intros p1 c u p2 ->. cbn [app]. eapply P; [rewrite Eps, <- !app_assoc; cbn [app]; reflexivity|].
    rewrite Eps', !map_app, !in_app_iff. left. right. now left. }
  assert (P2 : pos_of d' b = Some (Z.of_nat (cpre pre))).
  { eapply P; [exact Eps|]. rewrite Eps', map_app, in_app_iff. right. now left. }
  assert (P3 : map (pos_of d') (map fst post) = map Some (pos_from (Z.of_nat (cpre (pre ++ (b, t) :: gone))) post)).
  { apply pos_list. intros p1 c u p2 ->. apply (P _ c u p2); [rewrite Eps; rewrite <- !app_assoc; cbn [app]; now rewrite <- ?app_assoc|].
    rewrite Eps', map_app, in_app_iff. right. right. rewrite map_app, in_app_iff. right. now left. }
  split.
  - unfold in_order. rewrite (wf_order _ _ W').
    erewrite get_multi_pos with (l := pos_from 0 pre ++ Z.of_nat (cpre pre) :: pos_from (Z.of_nat (cpre (pre ++ (b, t) :: gone))) post).
    2:{ rewrite Eps', !map_app. cbn [map fst]. now rewrite P1, P2, P3. }
    apply (ascending_drop _ _ (pos_from (Z.of_nat (cpre (pre ++ [(b, t)]))) gone)).
    pose proof (proj2 (pos_from_ascending ps 0%Z)) as A. rewrite Eps in A.
    rewrite pos_from_app in A. cbn [pos_from] in A. rewrite pos_from_app in A. rewrite Z.add_0_l in A.
    rewrite !cpre_app, cpre_one, cpre_cons.
    replace (Z.of_nat (cpre pre + (length t + 1))) with (Z.of_nat (cpre pre) + Z.of_nat (length t) + 1)%Z by lia.
    replace (Z.of_nat (cpre pre + (length t + 1 + cpre gone)))
      with (Z.of_nat (cpre pre) + Z.of_nat (length t) + 1 + Z.of_nat (cpre gone))%Z by lia. exact A.
  - intros Hl. assert (post = []).
    { rewrite Eb, Eps, !app_length in Hl. cbn [length] in Hl. rewrite app_length in Hl. destruct post; [easy|cbn in Hl; lia]. }
    subst post. apply (fresh_list _ _ W'). rewrite Eps', map_app, map_app, P1. cbn [map fst]. rewrite P2, pos_from_app, map_app.
    reflexivity.
Qed.
