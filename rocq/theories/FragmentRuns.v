(** Runs of pasted paragraphs. *)
From Verif Require Import Base BaseFacts FormatRunsModel FormatRunsSpec FormatRunsFacts
  RopeModel RopeSpec RopeFacts DocModel DocSpec BlockFacts DocInv QueryModel QuerySpec ListModel ListDocModel
  FragmentModel FragmentText FragmentSpec.

Lemma move_run_shift n l : map (move_run n) l = map (shift_up n) l.
Proof. reflexivity. Qed.

(** ** Two texts one after the other *)

Lemma cat_ordered t1 r1 r2 :
  wf_runs t1 r1 -> ordered 0 r2 -> ordered 0 (r1 ++ map (move_run (blen t1)) r2).
Proof.
  intros W1 O2. rewrite ordered_app. split; [apply W1|].
  apply (ordered_weaken (0 + blen t1)); [|now apply shift_up_ordered].
  apply last_end_bound; [lia|]. now apply wf_runs_bound.
Qed.

Lemma cat_runs_wf t1 t2 r1 r2 :
  wf_runs t1 r1 -> wf_runs t2 r2 -> wf_runs (t1 ++ t2) (coalesce (r1 ++ map (move_run (blen t1)) r2)).
Proof.
  intros W1 W2. split; [|split].
  - apply coalesce_ordered, cat_ordered; [easy|apply W2].
  - apply coalesce_maximal.
  - apply coalesce_edges, Forall_app. split.
    + eapply edges_impl; [|apply W1]. intros k Hk. apply edge_app. now left.
    + destruct W2 as (_ & _ & E). rewrite Forall_map. eapply Forall_impl; [|exact E].
      intros r [H1 H2]. cbn. split; apply edge_app; right; [exists (rstart r)|exists (rend r)]; (split; [easy|lia]).
Qed.

Lemma cat_runs_styled t1 t2 r1 r2 :
  wf_runs t1 r1 -> wf_runs t2 r2 ->
  styled (t1 ++ t2) (coalesce (r1 ++ map (move_run (blen t1)) r2)) = styled t1 r1 ++ styled t2 r2.
Proof.
  intros W1 W2. pose proof (cat_ordered t1 r1 r2 W1 ltac:(apply W2)) as O.
  assert (F : forall k, fmt_at (coalesce (r1 ++ map (move_run (blen t1)) r2)) k =
     if k <? blen t1 then fmt_at r1 k else fmt_at r2 (k - blen t1)).
  { intros k. rewrite (coalesce_fmt 0) by exact O. rewrite fmt_at_app, move_run_shift, shift_up_fmt.
    destruct (k <? blen t1) eqn:E; [now destruct (fmt_at r1 k)|].
    rewrite fmt_at_above; [easy|]. eapply Forall_impl; [|apply (wf_runs_bound _ _ W1)]. cbn. lia. }
  unfold styled. rewrite styled_app. cbn [plus]. f_equal; apply styled_ext; intros k Hk; apply eff_of_fmt; rewrite F.
  - dif; [easy|cbn [plus] in *; lia].
  - dif; [lia|]. f_equal. cbn [plus]. lia.
Qed.

(** ** The runs of a pasted paragraph *)

Lemma state_go_ok es : Forall is_text es -> forall o,
  exists rs, state_go es o = (rs, []) /\ ordered o rs
   /\ edges (fun k => exists j, on_char_edge (flat_map segment_text es) j /\ k = o + j) rs
   /\ styled_from o (flat_map segment_text es) rs = flat_map seg_items es.
Proof.
  induction 1 as [|e es He _ IH]; intros o.
  - exists []. repeat split; constructor.
  - destruct e as [t f|i]; [|easy]. cbn [state_go flat_map segment_text seg_items].
    destruct (IH (o + blen t)) as (rs & -> & O & E & S). set (T := flat_map segment_text es) in *.
    assert (E' : edges (fun k => exists j, on_char_edge (t ++ T) j /\ k = o + j) rs).
    { eapply edges_impl; [|exact E]. intros k (j & Hj & ->). exists (blen t + j). split; [|lia].
      apply edge_app. right. now exists j. }
    destruct (0 <? blen t) eqn:Z0.
    + apply Nat.ltb_lt in Z0. eexists. split; [reflexivity|]. split; [|split].
      * cbn [ordered rstart rend]. repeat split; try lia. exact O.
      * constructor; [|exact E']. cbn [rstart rend]. split.
        -- exists 0. split; [apply edge_0|lia].
        -- exists (blen t). split; [|easy]. apply edge_app. left. apply edge_blen.
      * rewrite styled_app. f_equal.
        -- apply styled_const. intros k Hk. unfold eff_at. cbn [fmt_at rfmt].
           rewrite (proj2 (covers_true _ _)); [easy|cbn; lia].
        -- rewrite <- S. apply styled_ext. intros k Hk. apply eff_of_fmt. cbn [fmt_at].
           rewrite (proj2 (covers_false _ _)); [easy|cbn; lia].
    + assert (Et : t = []) by (apply blen_nil_inv; lia). subst t. cbn [blen app map] in *.
      rewrite Nat.add_0_r in *. exists rs. repeat split; try easy.
Qed.

Lemma fb_state fb : text_only fb ->
  exists rs, frag_block_state fb = (rs, []) /\ wf_runs (fb_text fb) rs /\ styled (fb_text fb) rs = fb_items fb.
Proof.
  intros [Ht Et]. unfold frag_block_state. destruct (state_go_ok _ Ht 0) as (rs & -> & O & E & S).
  exists (coalesce rs). split; [easy|]. rewrite Et. split; [split; [|split]|].
  - now apply coalesce_ordered.
  - apply coalesce_maximal.
  - apply coalesce_edges. eapply edges_impl; [|exact E]. intros k (j & Hj & ->). exact Hj.
  - unfold fb_items. rewrite <- S. apply styled_ext. intros k _. apply eff_of_fmt. now apply (coalesce_fmt 0).
Qed.

Lemma fb_items_text fb : text_only fb -> plain (fb_items fb) = fb_text fb.
Proof. intros H. destruct (fb_state fb H) as (rs & _ & _ & <-). apply plain_styled. Qed.
Lemma fb_items_length fb : text_only fb -> length (fb_items fb) = length (fb_text fb).
Proof. intros H. rewrite <- (fb_items_text fb H). unfold plain. now rewrite map_length. Qed.

(** ** A paragraph put inside another *)

Definition paste_runs (runs : list run) (o n : nat) (fr : list run) : list run :=
  coalesce (splice_range (shift_runs_for_insert runs o n) o (o + n) (map (move_run o) fr)).

Lemma moved_inside x fr o : wf_runs x fr -> inside o (o + blen x) (map (move_run o) fr).
Proof.
  intros W. split.
  - exact (shift_up_ordered 0 o fr (proj1 W)).
  - apply last_end_bound; [lia|]. rewrite Forall_map. eapply Forall_impl; [|apply (wf_runs_bound _ _ W)].
    cbn. lia.
Qed.

Lemma paste_runs_wf t1 x t2 runs fr :
  wf_runs (t1 ++ t2) runs -> wf_runs x fr ->
  wf_runs (t1 ++ x ++ t2) (paste_runs runs (blen t1) (blen x) fr).
Proof.
  intros W Wx. destruct (insert_runs_wf t1 x t2 runs W) as (O & _ & E). split; [|split].
  - apply coalesce_ordered, splice_range_ordered; try lia; [exact O|now apply moved_inside].
  - apply coalesce_maximal.
  - assert (E1 : on_char_edge (t1 ++ x ++ t2) (blen t1)) by (apply edge_app; left; apply edge_blen).
    assert (E2 : on_char_edge (t1 ++ x ++ t2) (blen t1 + blen x)).
    { apply edge_app. right. exists (blen x). split; [|easy]. apply edge_app. left. apply edge_blen. }
    apply coalesce_edges, splice_range_edges; auto.
    destruct Wx as (_ & _ & Ex). unfold edges in *. rewrite Forall_map. eapply Forall_impl; [|exact Ex].
    intros r [H1 H2]. cbn. split; apply edge_app; right; [exists (rstart r)|exists (rend r)]; (split; [|lia]);
      apply edge_app; now left.
Qed.

Lemma paste_runs_styled t1 x t2 runs fr :
  wf_runs (t1 ++ t2) runs -> wf_runs x fr ->
  styled (t1 ++ x ++ t2) (paste_runs runs (blen t1) (blen x) fr)
  = styled t1 runs ++ styled x fr ++ styled_from (blen t1) t2 runs.
Proof.
  intros W Wx. pose proof (insert_runs_wf t1 x t2 runs W) as (O & _ & _). pose proof W as (Ow & _ & _).
  pose proof (moved_inside x fr (blen t1) Wx) as In.
  assert (F : forall k, fmt_at (paste_runs runs (blen t1) (blen x) fr) k =
     if k <? blen t1 then fmt_at runs k else if k <? blen t1 + blen x then fmt_at fr (k - blen t1)
     else fmt_at runs (k - blen x)).
  { intros k. unfold paste_runs. rewrite (coalesce_fmt 0) by (apply splice_range_ordered; try lia; [exact O|exact In]).
    rewrite (splice_range_fmt 0); try lia; try easy.
    rewrite (shift_insert_fmt 0) by exact Ow. rewrite move_run_shift, shift_up_fmt.
    destruct (blen t1 <=? k) eqn:A1, (k <? blen t1 + blen x) eqn:A2, (k <? blen t1) eqn:A3;
      cbn [andb]; try lia; easy. }
  unfold styled. rewrite styled_app, styled_app. cbn [plus]. f_equal; [|f_equal].
  - apply styled_ext. intros k Hk. apply eff_of_fmt. rewrite F. dif; [easy|cbn [plus] in *; lia].
  - apply styled_ext. intros k Hk. apply eff_of_fmt. rewrite F. dif; [lia|]. dif; [f_equal; cbn [plus]; lia|lia].
  - apply styled_ext. intros k Hk. apply eff_of_fmt. rewrite F. dif; [lia|]. dif; [lia|]. f_equal. lia.
Qed.
