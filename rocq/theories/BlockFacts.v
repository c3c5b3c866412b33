(** Edits of one paragraph: text and runs together. *)
From Verif Require Import Base BaseFacts FormatRunsModel FormatRunsSpec FormatRunsFacts
  RopeModel DocModel DocSpec.

Ltac dif := match goal with |- context [if ?b then _ else _] => destruct b eqn:? end.

(** ** Character edges *)

Lemma edge_app t1 t2 k :
  on_char_edge (t1 ++ t2) k <-> on_char_edge t1 k \/ (exists j, on_char_edge t2 j /\ k = blen t1 + j).
Proof.
  unfold on_char_edge. rewrite app_length. split.
  - intros (i & Hi & ->). destruct (le_lt_dec i (length t1)).
    + left. exists i. split; [easy|]. now rewrite boff_app_l.
    + right. replace i with (length t1 + (i - length t1)) by lia. rewrite boff_app_r.
      exists (boff t2 (i - length t1)). split; [|easy]. exists (i - length t1). split; [lia|easy].
  - intros [(i & Hi & ->)|(j & (i & Hi & ->) & ->)].
    + exists i. split; [lia|]. now rewrite boff_app_l.
    + exists (length t1 + i). split; [lia|]. now rewrite boff_app_r.
Qed.

Lemma edge_blen t : on_char_edge t (blen t).
Proof. exists (length t). split; [easy|]. symmetry. now apply boff_all. Qed.

Lemma edge_0 t : on_char_edge t 0.
Proof. exists 0. split; [lia|]. now rewrite boff_0. Qed.

Lemma edge_le t k : on_char_edge t k -> k <= blen t.
Proof. intros (i & _ & ->). apply boff_le. Qed.

Lemma edge_boff t i : on_char_edge t (boff t i).
Proof.
  destruct (le_lt_dec i (length t)); [now exists i|].
  rewrite boff_all by lia. apply edge_blen.
Qed.

(** An edge of [t1 ++ t2] is before, at, or after the seam. *)
Lemma edge_app_l t1 t2 k : on_char_edge (t1 ++ t2) k -> k <= blen t1 -> on_char_edge t1 k.
Proof.
  rewrite edge_app. intros [H|(j & Hj & ->)] Hk; [easy|].
  replace (blen t1 + j) with (blen t1) by lia. apply edge_blen.
Qed.
Lemma edge_app_r t1 t2 k : on_char_edge (t1 ++ t2) k -> blen t1 <= k -> on_char_edge t2 (k - blen t1).
Proof.
  rewrite edge_app. intros [H|(j & Hj & ->)] Hk.
  - apply edge_le in H. replace (k - blen t1) with 0 by lia. apply edge_0.
  - now replace (blen t1 + j - blen t1) with j by lia.
Qed.

Lemma edges_impl (P Q : nat -> Prop) runs :
  (forall k, P k -> Q k) -> edges P runs -> edges Q runs.
Proof. intros H. apply Forall_impl. intros r [? ?]. auto. Qed.

Lemma wf_runs_bound t runs : wf_runs t runs -> Forall (fun r => rend r <= blen t) runs.
Proof.
  intros (_ & _ & E). eapply Forall_impl; [|exact E]. intros r [_ H]. now apply edge_le.
Qed.

Lemma wf_runs_nil t : wf_runs t [].
Proof. repeat split; constructor. Qed.

(** ** Reading *)

Lemma styled_length off t runs : length (styled_from off t runs) = length t.
Proof. revert off; induction t; intros; cbn; auto. Qed.

Lemma styled_app off a b runs :
  styled_from off (a ++ b) runs = styled_from off a runs ++ styled_from (off + blen a) b runs.
Proof.
  revert off; induction a as [|c a IH]; intros off; cbn [app styled_from blen].
  - now rewrite Nat.add_0_r.
  - rewrite IH. do 3 f_equal. lia.
Qed.

Lemma styled_ext off off' t runs runs' :
  (forall k, k < blen t -> eff_at runs (off + k) = eff_at runs' (off' + k)) ->
  styled_from off t runs = styled_from off' t runs'.
Proof.
  revert off off'; induction t as [|c t IH]; intros off off' H; cbn [styled_from]; [easy|].
  pose proof (utf8_len_pos c). cbn [blen] in H. f_equal.
  - f_equal. specialize (H 0 ltac:(lia)). now rewrite !Nat.add_0_r in H.
  - apply IH. intros k Hk. rewrite <- !Nat.add_assoc. apply H. lia.
Qed.

Lemma styled_const off t runs f :
  (forall k, k < blen t -> eff_at runs (off + k) = f) ->
  styled_from off t runs = map (fun c => Chr c f) t.
Proof.
  revert off; induction t as [|c t IH]; intros off H; cbn [styled_from map]; [easy|].
  pose proof (utf8_len_pos c). cbn [blen] in H. f_equal.
  - f_equal. specialize (H 0 ltac:(lia)). now rewrite !Nat.add_0_r in H.
  - apply IH. intros k Hk. rewrite <- !Nat.add_assoc. apply H. lia.
Qed.

Lemma plain_styled off t runs : plain (styled_from off t runs) = t.
Proof. revert off; induction t as [|c t IH]; intros; cbn; [easy|]. f_equal. apply IH. Qed.

Lemma eff_of_fmt r k r' k' : fmt_at r k = fmt_at r' k' -> eff_at r k = eff_at r' k'.
Proof. unfold eff_at. now intros ->. Qed.

(** All bytes of one character have the same format. *)
Lemma fmt_in_char t c u runs k :
  wf_runs (t ++ c :: u) runs -> k < utf8_len c -> fmt_at runs (blen t + k) = fmt_at runs (blen t).
Proof.
  intros (Ho & _ & E) Hk.
  assert (Hr : forall r, In r runs -> covers r (blen t + k) = covers r (blen t)).
  { intros r Hr. pose proof (proj1 (Forall_forall _ _) E _ Hr) as [E1 E2].
    pose proof (ordered_in _ _ _ Ho Hr) as [_ Hne].
    assert (Hedge : forall e, on_char_edge (t ++ c :: u) e -> e <= blen t \/ blen t + utf8_len c <= e).
    { intros e He. apply edge_app in He. destruct He as [He|(j & He & ->)].
      - left. now apply edge_le.
      - change (c :: u) with ([c] ++ u) in He. apply edge_app in He.
        destruct He as [(i & Hi & ->)|(j' & _ & ->)].
        + destruct i as [|[|i]]; [left; rewrite boff_0; lia| |cbn in Hi; lia].
          right. unfold boff. cbn. lia.
        + right. cbn [blen]. lia. }
    apply Hedge in E1, E2. unfold covers. lia. }
  clear - Hr. induction runs as [|r rest IH]; cbn [fmt_at]; [easy|].
  rewrite (Hr r) by (now left). destruct (covers r (blen t)); [easy|].
  apply IH. intros r' H'. apply Hr. now right.
Qed.

(** The format just before byte [blen t1] is that of the last character of [t1]. *)
Lemma prev_byte_fmt t1 t2 runs :
  wf_runs (t1 ++ t2) runs -> t1 <> [] ->
  eff_at runs (blen t1 - 1) = last_fmt (styled t1 runs).
Proof.
  intros W H. destruct (exists_last H) as (t & c & ->).
  unfold styled, last_fmt. rewrite styled_app. cbn [styled_from]. rewrite rev_app_distr. cbn [rev app].
  rewrite blen_app. cbn [blen plus]. rewrite Nat.add_0_r.
  pose proof (utf8_len_pos c).
  replace (blen t + utf8_len c - 1) with (blen t + (utf8_len c - 1)) by lia.
  apply eff_of_fmt. rewrite <- app_assoc in W. cbn [app] in W. eapply fmt_in_char; [exact W|lia].
Qed.

(** ** Insertion *)

Lemma insert_runs_wf t1 x t2 runs :
  wf_runs (t1 ++ t2) runs ->
  wf_runs (t1 ++ x ++ t2) (shift_runs_for_insert runs (blen t1) (blen x)).
Proof.
  intros (Ho & Hm & E). split; [now apply shift_insert_ordered|].
  split; [now apply (shift_insert_maximal 0)|].
  unfold shift_runs_for_insert. destruct (blen x =? 0) eqn:E0.
  { apply Nat.eqb_eq, blen_nil_inv in E0. now subst. }
  assert (Hlo : forall k, on_char_edge (t1 ++ t2) k -> k <= blen t1 -> on_char_edge (t1 ++ x ++ t2) k).
  { intros k Hk Hle. apply edge_app. left. now apply edge_app_l in Hk. }
  assert (Hhi : forall k, on_char_edge (t1 ++ t2) k -> blen t1 <= k ->
                  on_char_edge (t1 ++ x ++ t2) (k + blen x)).
  { intros k Hk Hle. apply edge_app. right. exists (blen x + (k - blen t1)). split; [|lia].
    apply edge_app. right. exists (k - blen t1). split; [|easy]. now apply edge_app_r in Hk. }
  unfold edges. rewrite Forall_map. rewrite Forall_forall. intros r Hr.
  pose proof (proj1 (Forall_forall _ _) E _ Hr) as [E1 E2].
  pose proof (ordered_in _ _ _ Ho Hr) as [_ Hne].
  destruct (blen t1 <=? rstart r) eqn:C1; [cbn; split; apply Hhi; auto; lia|].
  destruct (blen t1 <=? rend r) eqn:C2; cbn; split; try (apply Hlo; [easy|lia]); apply Hhi; auto; lia.
Qed.

Lemma insert_runs_styled t1 x t2 runs :
  wf_runs (t1 ++ t2) runs ->
  styled (t1 ++ x ++ t2) (shift_runs_for_insert runs (blen t1) (blen x))
  = styled t1 runs ++ map (fun c => Chr c (last_fmt (styled t1 runs))) x
    ++ styled_from (blen t1) t2 runs.
Proof.
  intros W. pose proof W as (Ho & _ & _). unfold styled.
  rewrite styled_app, styled_app. cbn [plus]. f_equal; [|f_equal].
  - apply styled_ext. intros k Hk. apply eff_of_fmt. cbn [plus].
    rewrite (shift_insert_fmt 0) by easy. destruct (k <? blen t1) eqn:E; [easy|lia].
  - apply styled_const. intros k Hk. unfold eff_at.
    rewrite (shift_insert_fmt 0) by easy.
    destruct (blen t1 + k <? blen t1) eqn:E1; [lia|].
    destruct (blen t1 + k <? blen t1 + blen x) eqn:E2; [|lia].
    destruct (blen t1 =? 0) eqn:E3.
    + apply Nat.eqb_eq, blen_nil_inv in E3. now subst t1.
    + fold (eff_at runs (blen t1 - 1)). apply (prev_byte_fmt _ t2); [easy|].
      intros ->. discriminate.
  - apply styled_ext. intros k Hk. apply eff_of_fmt.
    rewrite (shift_insert_fmt 0) by easy.
    dif; [lia|]. dif; [lia|]. f_equal. lia.
Qed.

(** ** Deletion *)

Lemma delete_runs_wf t1 x t2 runs :
  wf_runs (t1 ++ x ++ t2) runs ->
  wf_runs (t1 ++ t2) (shift_runs_for_delete runs (blen t1) (blen t1 + blen x)).
Proof.
  intros (Ho & Hm & E). split; [now apply shift_delete_ordered|].
  split; [now apply shift_delete_maximal|].
  unfold shift_runs_for_delete. destruct (blen t1 + blen x <=? blen t1) eqn:E0.
  { assert (Hx: blen x = 0) by lia. apply blen_nil_inv in Hx. now subst. }
  apply coalesce_edges. unfold shift_runs_back, edges. rewrite Forall_map.
  assert (E' : edges (on_char_edge (t1 ++ x ++ t2))
                 (splice_range runs (blen t1) (blen t1 + blen x) [])).
  { apply splice_range_edges; auto; [| |constructor].
    - apply edge_app. left. apply edge_blen.
    - apply edge_app. right. exists (blen x). split; [|easy].
      apply edge_app. left. apply edge_blen. }
  pose proof (splice_nil_sides' runs (blen t1) (blen t1 + blen x) Ho ltac:(lia)) as S.
  pose proof (splice_range_ordered 0 runs (blen t1) (blen t1 + blen x) []
                ltac:(lia) ltac:(lia) Ho (inside_nil (blen t1) (blen t1 + blen x) ltac:(lia))) as O'.
  rewrite Forall_forall in *. intros r Hr. specialize (S r Hr).
  pose proof (proj1 (Forall_forall _ _) E' _ Hr) as [E1 E2].
  pose proof (ordered_in _ _ _ O' Hr) as [_ Hne].
  assert (Hhi : forall k, on_char_edge (t1 ++ x ++ t2) k -> blen t1 + blen x <= k ->
     on_char_edge (t1 ++ t2) (k - (blen t1 + blen x - blen t1))).
  { intros k Hk Hle. apply edge_app_r in Hk; [|lia]. apply edge_app_r in Hk; [|lia].
    apply edge_app. right. exists (k - blen t1 - blen x). split; [easy|lia]. }
  assert (Hlo : forall k, on_char_edge (t1 ++ x ++ t2) k -> k <= blen t1 -> on_char_edge (t1 ++ t2) k).
  { intros k Hk Hle. apply edge_app. left. now apply edge_app_l in Hk. }
  destruct (blen t1 + blen x <=? rstart r) eqn:C; cbn [rstart rend]; split.
  - apply Hhi; auto; lia.
  - apply Hhi; auto; lia.
  - apply Hlo; auto; lia.
  - apply Hlo; auto; lia.
Qed.

Lemma delete_runs_styled t1 x t2 runs :
  wf_runs (t1 ++ x ++ t2) runs ->
  styled (t1 ++ t2) (shift_runs_for_delete runs (blen t1) (blen t1 + blen x))
  = styled t1 runs ++ styled_from (blen t1 + blen x) t2 runs.
Proof.
  intros (Ho & _ & _). unfold styled. rewrite styled_app. f_equal.
  - apply styled_ext. intros k Hk. apply eff_of_fmt. rewrite shift_delete_fmt by (auto; lia).
    destruct (_ <? _) eqn:E; [easy|lia].
  - apply styled_ext. intros k Hk. apply eff_of_fmt. rewrite shift_delete_fmt by (auto; lia).
    destruct (_ <? _) eqn:E; [lia|]. f_equal. lia.
Qed.

(** ** Splitting *)

Lemma split_left_wf t1 t2 runs :
  wf_runs (t1 ++ t2) runs -> wf_runs t1 (split_runs_left runs (blen t1)).
Proof.
  intros (Ho & Hm & E). rewrite (split_left_is_splice_left 0) by easy.
  split; [now apply splice_left_ordered|]. split; [now apply (splice_left_maximal 0)|].
  assert (E' : edges (on_char_edge (t1 ++ t2)) (splice_left runs (blen t1))).
  { apply splice_left_edges; [|easy]. apply edge_app. left. apply edge_blen. }
  pose proof (splice_left_bound runs (blen t1)) as B.
  pose proof (splice_left_ordered 0 runs (blen t1) Ho) as O'.
  unfold edges in *. rewrite Forall_forall in *. intros r Hr. specialize (E' r Hr). specialize (B r Hr).
  pose proof (ordered_in _ _ _ O' Hr) as [_ Hne].
  destruct E' as [E1 E2]. split; apply (edge_app_l t1 t2); auto; lia.
Qed.

Lemma split_left_styled t1 t2 runs :
  wf_runs (t1 ++ t2) runs -> styled t1 (split_runs_left runs (blen t1)) = styled t1 runs.
Proof.
  intros (Ho & _). rewrite (split_left_is_splice_left 0) by easy.
  apply styled_ext. intros k Hk. apply eff_of_fmt. cbn [plus].
  rewrite (splice_left_fmt 0) by easy. destruct (_ <? _) eqn:E; [easy|lia].
Qed.

Lemma split_right_edges t1 t2 runs :
  edges (on_char_edge (t1 ++ t2)) runs -> edges (on_char_edge t2) (split_runs_right runs (blen t1)).
Proof.
  induction 1 as [|r rest [E1 E2] H IH]; cbn [split_runs_right]; [constructor|].
  destruct (rend r <=? blen t1) eqn:C1; [easy|].
  destruct (blen t1 <=? rstart r) eqn:C2; constructor; auto; cbn [rstart rend]; split.
  - apply edge_app_r; auto; lia.
  - apply edge_app_r; auto; lia.
  - apply edge_0.
  - apply edge_app_r; auto; lia.
Qed.

Lemma split_right_wf t1 t2 runs :
  wf_runs (t1 ++ t2) runs -> wf_runs t2 (split_runs_right runs (blen t1)).
Proof.
  intros (Ho & Hm & E). destruct (split_right_spec 0 runs (blen t1) Ho) as [O' _].
  split; [eapply ordered_weaken; [|exact O']; lia|].
  split; [now apply (split_right_maximal 0)|now apply split_right_edges].
Qed.

Lemma split_right_styled t1 t2 runs :
  wf_runs (t1 ++ t2) runs ->
  styled t2 (split_runs_right runs (blen t1)) = styled_from (blen t1) t2 runs.
Proof.
  intros (Ho & _). destruct (split_right_spec 0 runs (blen t1) Ho) as [_ F].
  apply styled_ext. intros k Hk. apply eff_of_fmt. cbn [plus]. rewrite F. f_equal. lia.
Qed.

(** ** Merging two paragraphs *)

Definition shift_up (o : nat) (r : run) : run := mk_run (rstart r + o) (rend r + o) (rfmt r).

Lemma rebase_runs_shift lo runs o eo :
  ordered lo runs -> rebase_runs runs o eo = map (shift_up o) (split_runs_right runs eo).
Proof.
  revert lo; induction runs as [|r rest IH]; intros lo; cbn [rebase_runs split_runs_right ordered]; [easy|].
  intros (H1 & H2 & H3). rewrite (IH _ H3).
  destruct (eo <=? rstart r) eqn:C1, (rend r <=? eo) eqn:C2; try lia.
  - reflexivity.
  - destruct (eo <? rend r) eqn:C3; [lia|easy].
  - destruct (eo <? rend r) eqn:C3; [|lia]. reflexivity.
Qed.

Lemma shift_up_ordered lo o runs : ordered lo runs -> ordered (lo + o) (map (shift_up o) runs).
Proof.
  revert lo; induction runs as [|r rest IH]; intros lo; cbn [ordered map shift_up rstart rend]; [easy|].
  intros (H1 & H2 & H3). repeat split; try lia. now apply IH.
Qed.

Lemma shift_up_fmt o runs k :
  fmt_at (map (shift_up o) runs) k = if k <? o then None else fmt_at runs (k - o).
Proof.
  induction runs as [|r rest IH]; cbn [map fmt_at].
  - now destruct (k <? o).
  - rewrite IH. unfold covers, shift_up; cbn [rstart rend rfmt].
    destruct (k <? o) eqn:E.
    + replace (_ && _) with false by lia. easy.
    + replace ((rstart r + o <=? k) && (k <? rend r + o))
        with ((rstart r <=? k - o) && (k - o <? rend r)) by lia. easy.
Qed.

Lemma merge_pre_ordered t1 u1 u2 t2 l r :
  wf_runs (t1 ++ u1) l -> wf_runs (u2 ++ t2) r ->
  ordered 0 (splice_left l (blen t1) ++ rebase_runs r (blen t1) (blen u2)).
Proof.
  intros (Ol & _) (Or & _). rewrite (rebase_runs_shift 0) by easy.
  rewrite ordered_app. split; [now apply splice_left_ordered|].
  destruct (split_right_spec 0 r (blen u2) Or) as [O' _].
  eapply ordered_weaken; [|apply shift_up_ordered; exact O'].
  cbn [Nat.sub plus]. apply last_end_bound; [lia|apply splice_left_bound].
Qed.

Lemma merge_runs_wf t1 u1 u2 t2 l r :
  wf_runs (t1 ++ u1) l -> wf_runs (u2 ++ t2) r ->
  wf_runs (t1 ++ t2) (merge_runs l r (blen t1) (blen u2)).
Proof.
  intros Wl Wr. unfold merge_runs. split; [|split].
  - apply coalesce_ordered. eapply merge_pre_ordered; eassumption.
  - apply coalesce_maximal.
  - apply coalesce_edges. apply Forall_app. split.
    + pose proof (split_left_wf _ _ _ Wl) as (_ & _ & E).
      rewrite (split_left_is_splice_left 0) in E by apply Wl.
      eapply edges_impl; [|exact E]. intros k Hk. apply edge_app. now left.
    + rewrite (rebase_runs_shift 0) by apply Wr.
      pose proof (split_right_wf _ _ _ Wr) as (_ & _ & E).
      rewrite Forall_map. eapply Forall_impl; [|exact E].
      intros x [H1 H2]. cbn [shift_up rstart rend]. split; apply edge_app; right; [exists (rstart x)|exists (rend x)]; (split; [assumption|lia]).
Qed.

Lemma merge_runs_styled t1 u1 u2 t2 l r :
  wf_runs (t1 ++ u1) l -> wf_runs (u2 ++ t2) r ->
  styled (t1 ++ t2) (merge_runs l r (blen t1) (blen u2))
  = styled t1 l ++ styled_from (blen u2) t2 r.
Proof.
  intros Wl Wr. pose proof (merge_pre_ordered _ _ _ _ _ _ Wl Wr) as O.
  pose proof Wl as (Ol & _). pose proof Wr as (Or & _).
  assert (F : forall k, fmt_at (merge_runs l r (blen t1) (blen u2)) k =
     if k <? blen t1 then fmt_at l k else fmt_at r (k - blen t1 + blen u2)).
  { intros k. unfold merge_runs. rewrite (coalesce_fmt 0) by easy.
    rewrite fmt_at_app, (splice_left_fmt 0) by easy.
    rewrite (rebase_runs_shift 0) by easy. rewrite shift_up_fmt.
    destruct (split_right_spec 0 r (blen u2) Or) as [_ ->].
    destruct (k <? blen t1); [|easy]. now destruct (fmt_at l k). }
  unfold styled. rewrite styled_app. f_equal; apply styled_ext; intros k Hk; apply eff_of_fmt; rewrite F.
  - dif; [easy|lia].
  - dif; [lia|]. f_equal. lia.
Qed.

(** ** Formatting *)

Lemma format_runs_styled m t1 x t2 runs :
  wf_runs (t1 ++ x ++ t2) runs -> x <> [] ->
  styled (t1 ++ x ++ t2) (format_block_runs m runs (blen t1) (blen t1 + blen x))
  = styled t1 runs ++ map (restyle m) (styled_from (blen t1) x runs)
    ++ styled_from (blen t1 + blen x) t2 runs.
Proof.
  intros W Hx. pose proof W as (Ho & _).
  assert (Hp : 0 < blen x).
  { destruct (blen x) eqn:E; [|lia]. now apply blen_nil_inv in E. }
  assert (F : forall k, eff_at (format_block_runs m runs (blen t1) (blen t1 + blen x)) k =
     if (blen t1 <=? k) && (k <? blen t1 + blen x) then m (eff_at runs k) else eff_at runs k).
  { intros k. apply format_block_runs_fmt; [easy|lia]. }
  unfold styled. rewrite styled_app, styled_app. cbn [plus]. f_equal; [|f_equal].
  - apply styled_ext. intros k Hk. rewrite F. dif; [lia|easy].
  - assert (G : forall k, k < blen x ->
       eff_at (format_block_runs m runs (blen t1) (blen t1 + blen x)) (blen t1 + k)
       = m (eff_at runs (blen t1 + k))).
    { intros k Hk. rewrite F. dif; [easy|lia]. }
    revert G. generalize (format_block_runs m runs (blen t1) (blen t1 + blen x)) as R.
    generalize (blen t1) as o. clear.
    induction x as [|c x IH]; intros o R G; cbn [styled_from map]; [easy|].
    pose proof (utf8_len_pos c). cbn [blen] in G. cbn [restyle]. f_equal.
    + f_equal. specialize (G 0 ltac:(lia)). now rewrite !Nat.add_0_r in G.
    + apply IH. intros k Hk. rewrite <- !Nat.add_assoc. apply G. lia.
  - apply styled_ext. intros k Hk. rewrite F. dif; [lia|easy].
Qed.
