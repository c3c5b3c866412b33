(** What inserting a frame and typing around it do. *)
From Verif Require Import Base BaseFacts FormatRunsModel FormatRunsSpec FormatRunsFacts RopeModel RopeSpec RopeFacts
  DocModel DocSpec BlockFacts DocInv DocFacts HistModel QueryModel DocDelete DocReach DocImport DocFresh ListModel ReplaceExact
  DocAttr QueryText FrameModel FrameSpec FrameFacts FrameSteps.
From Coq Require Import Permutation.

Lemma cpre_before (l : list para) : cpre l = before l.
Proof. induction l as [|[i u] l IH]; [easy|]. rewrite cpre_cons, before_cons, IH. cbn [snd]. lia. Qed.

(** ** Typing *)
Lemma sub_out x ps b : fwf x ps -> In b (g_flow x) -> (In (b_id b) (frame_paras x) <-> ~ In (b_id b) (map fst ps)).
Proof.
  intros F Hb. split.
  - intros H. apply in_map_iff in H. destruct H as (s & Es & Hs). apply (fw_out _ _ F) in Hs. rewrite Es in Hs. tauto.
  - intros H. destruct (flow_in _ _ _ F Hb) as [[K _]|[_ (s & Hs & Es)]]; [tauto|]. apply in_map_iff. exists s. now rewrite Es.
Qed.

Lemma frame_typing_theorem x p text : framed x ->
  exists l x' l1 i t l2 o,
   shown x = Ok l /\ g_insert_text x (Z.of_nat p) text = Ok (x', Z.of_nat (inside l p + length text))
   /\ l = l1 ++ (i, t) :: l2 /\ o <= length t /\ inside l p = before l1 + o
   /\ (~ In i (frame_paras x) -> shown x' = Ok (l1 ++ (i, firstn o t ++ text ++ skipn o t) :: l2)
        /\ exists q its, doc_items (g_doc x) = Ok its /\ doc_items (g_doc x') = Ok (spec_insert q text its))
   /\ (In i (frame_paras x) -> t = [] /\ shown x' = Ok l /\ doc_items (g_doc x') = doc_items (g_doc x))
   /\ g_order x' = g_order x /\ frame_paras x' = frame_paras x /\ g_nblocks x' = g_nblocks x
   /\ g_chars x' = (g_chars x + Z.of_nat (length text))%Z.
Proof.
  intros H. destruct (framed_fwf _ H) as [ps F].
  destruct (type_full _ _ p text F) as (x' & np & b1 & b & b2 & o & ps' & q & T & E1 & E2 & E3 & E4 & F' & Ev & Ei & G1 & G2 & G3 & G4 & G5 & G6 & G7 & _).
  assert (Hb : In b (g_flow x)) by (rewrite E1, in_app_iff; right; now left).
  exists (view ps (g_flow x)), x', (view ps b1), (b_id b), (text_in ps (b_id b)), (view ps b2), o.
  split; [apply (shown_fwf _ _ F)|]. split; [rewrite T, E3, E4; easy|]. split; [rewrite E1, view_app; reflexivity|].
  split; [exact E2|]. split; [exact E3|]. rewrite (sub_out _ _ _ F Hb).
  rewrite (shown_fwf _ _ F'), Ev. rewrite (doc_items_wf _ _ (fw_wf _ _ F)), (doc_items_wf _ _ (fw_wf _ _ F')), Ei.
  destruct (in_dec N.eq_dec (b_id b) (map fst ps)) as [Hin|Hout].
  - split; [|split; [tauto|repeat split; assumption]]. intros _. split; [reflexivity|]. do 2 eexists. split; reflexivity.
  - split; [tauto|]. split; [|repeat split; assumption]. intros _. rewrite (text_in_out _ _ Hout). split; [easy|]. split; [|easy].
    rewrite E1, view_app. cbn [view map]. now rewrite (text_in_out _ _ Hout).
Qed.

(** ** Inserting a frame *)
Lemma frame_somewhere_theorem x p : framed x ->
  exists r, insert_frame x p = Ok r /\
  forall x', r = InMain x' ->
  exists l l1 l2 i, shown x = Ok l /\ l = l1 ++ l2 /\ shown x' = Ok (l1 ++ (i, []) :: l2) /\ ~ In i (map fst l)
   /\ frame_paras x' = frame_paras x ++ [i] /\ doc_items (g_doc x') = doc_items (g_doc x)
   /\ g_chars x' = g_chars x /\ g_nblocks x' = (g_nblocks x + 1)%Z.
Proof.
  intros H. destruct (framed_fwf _ H) as [ps F]. destruct (insert_frame_ok _ _ p F) as [r E]. exists r. split; [exact E|].
  intros x' ->. destruct (insert_frame_main _ _ _ E) as (o1 & o2 & Eo & ->).
  pose proof (add_fwf _ _ p _ _ F Eo) as F'.
  exists (view ps (g_flow x)), (view ps (flat_map (child_blocks x) o1)), (view ps (flat_map (child_blocks x) o2)), (d_next (g_doc x)).
  split; [apply (shown_fwf _ _ F)|]. split; [unfold g_flow; now rewrite Eo, flat_map_app, view_app|].
  split.
  { rewrite (shown_fwf _ _ F'), (flow_add _ _ p _ _ F Eo), view_app. cbn [view map new_block b_id].
    now rewrite (text_in_out _ _ (proj2 (next_out _ _ F))). }
  split.
  { intros K. apply (proj1 (next_out _ _ F)). unfold view in K. now rewrite map_map in K. }
  split; [unfold frame_paras; cbn [add_sub g_subs]; now rewrite map_app|].
  split; [|easy]. now rewrite (doc_items_wf _ _ (fw_wf _ _ F)), (doc_items_wf _ _ (fw_wf _ _ F')).
Qed.

Fixpoint consec (ps : list para) (running : nat) (bs : list block) : Prop :=
  match bs with
  | [] => True
  | b :: rest => b_pos b = Z.of_nat running /\ consec ps (running + length (text_in ps (b_id b)) + 1) rest
  end.
Lemma fresh_consec d ps : wf d ps -> fresh d ps -> consec ps 0 (get_multi d (map fst ps)).
Proof.
  intros W Fr. assert (G : forall post pre, ps = pre ++ post -> consec ps (cpre pre) (get_multi d (map fst post))).
  { induction post as [|[b t] post IH]; intros pre E; [exact I|]. cbn [map fst get_multi].
    destruct (wf_get d ps b W) as (y & Ey & Hy); [rewrite E, map_app, in_app_iff; right; now left|]. rewrite Ey. cbn [consec].
    split; [eapply Fr; eassumption|]. rewrite Hy, (text_in_in ps b t (wf_nodup _ _ W)) by (rewrite E, in_app_iff; right; now left).
    replace (cpre pre + length t + 1) with (cpre (pre ++ [(b, t)])) by (rewrite cpre_snoc; lia).
    apply IH. now rewrite <- app_assoc. }
  apply (G ps []). easy.
Qed.
Lemma consec_last ps bs : forall running, consec ps running bs -> forall l z, bs = l ++ [z] ->
  (b_pos z + Z.of_nat (length (text_in ps (b_id z))) + 1)%Z = Z.of_nat (running + before (view ps bs)).
Proof.
  induction bs as [|b bs IH]; intros running C l z E; [destruct l; discriminate|]. destruct C as [C1 C2].
  cbn [view map]. rewrite before_cons. cbn [snd]. fold (view ps bs). destruct l as [|y l].
  - injection E as -> ->. cbn. rewrite C1. lia.
  - injection E as -> E. rewrite (IH _ C2 l z E). lia.
Qed.
Lemma closest_spec x ps p bs : fwf x ps -> bs <> [] -> forall running k last, consec ps running bs -> running <= p ->
  p < running + before (view ps bs) ->
  exists b1 b b2, bs = b1 ++ b :: b2 /\ running + before (view ps b1) <= p <= running + before (view ps b1) + length (text_in ps (b_id b))
   /\ closest x bs k last (Z.of_nat p) = Ok (k + length b1).
Proof.
  intros F. induction bs as [|b bs IH]; [easy|]. intros _ running k last [C1 C2] Hr Hp. cbn [closest].
  rewrite (g_len_any _ _ _ F). cbn [bind]. rewrite C1. cbn [view map] in Hp. rewrite before_cons in Hp. cbn [snd] in Hp. fold (view ps bs) in Hp.
  set (n := length (text_in ps (b_id b))) in *.
  destruct (Z.leb_spec (Z.of_nat p) (Z.of_nat running + Z.of_nat n)).
  - exists [], b, bs. cbn [view map before fold_right length]. fold n. split; [easy|]. split; [lia|]. f_equal. lia.
  - destruct bs as [|b' bs]; [cbn in Hp; lia|].
    destruct (IH ltac:(easy) (running + n + 1) (S k) k C2) as (b1 & c & b2 & E1 & E2 & E3); [lia|lia|].
    exists (b :: b1), c, b2. rewrite E1. split; [easy|].
    assert (Ev : before (view ps (b :: b1)) = n + 1 + before (view ps b1)) by reflexivity. rewrite Ev.
    split; [lia|]. rewrite <- E1, E3. cbn [length]. f_equal. lia.
Qed.

Lemma frame_first_theorem d p l : reach d -> fresh_positions d -> shown (plain_doc d) = Ok l -> p < before l ->
  exists x' l1 i t l2 j,
   insert_frame (plain_doc d) (Z.of_nat p) = Ok (InMain x')
   /\ l = l1 ++ (i, t) :: l2 /\ before l1 <= p <= before l1 + length t
   /\ g_order x' = map CBlock (map fst l1) ++ CBlock i :: CFrame 2%N :: map CBlock (map fst l2)
   /\ shown x' = Ok (l1 ++ (i, t) :: (j, []) :: l2) /\ ~ In j (map fst l) /\ frame_paras x' = [j]
   /\ doc_items (g_doc x') = doc_items d /\ d_blocks (g_doc x') = d_blocks d
   /\ g_chars x' = d_chars d /\ g_nblocks x' = (d_nblocks d + 1)%Z.
Proof.
  intros R Fr. destruct (reach_wf _ R) as [ps W]. apply (fresh_equiv _ _ W) in Fr.
  pose proof (plain_fwf _ _ W) as F. rewrite (shown_fwf _ _ F). intros [= <-] Hp.
  assert (Efl : g_flow (plain_doc d) = get_multi d (map fst ps)) by (rewrite flow_plain, (wf_order _ _ W); easy).
  pose proof (flow_ne _ _ F) as Hne. rewrite Efl in *. pose proof (fresh_consec _ _ W Fr) as C.
  destruct (closest_spec _ _ p _ F Hne 0 0 0 C) as (b1 & b & b2 & E1 & E2 & E3); [lia|exact Hp|].
  assert (Hh : frame_hit (plain_doc d) (get_multi d (d_fblocks d)) (Z.of_nat p) = Ok (Some (length b1))).
  { unfold frame_hit. cbv zeta. rewrite (fresh_sorted _ _ W Fr). destruct (rev (get_multi d (map fst ps))) as [|z r] eqn:Er.
    { exfalso. apply Hne. rewrite <- (rev_involutive (get_multi d (map fst ps))), Er. easy. }
    assert (Ez : get_multi d (map fst ps) = rev r ++ [z]) by (rewrite <- (rev_involutive (get_multi d (map fst ps))), Er; easy).
    pose proof (consec_last _ _ _ C _ _ Ez) as Hz. destruct (get_multi d (map fst ps)) as [|a rest] eqn:Eg; [easy|].
    rewrite Er. rewrite (g_len_any _ _ _ F). cbn [bind].
    assert (E : ((b_pos a <=? Z.of_nat p) && (Z.of_nat p <=? b_pos z + Z.of_nat (length (text_in ps (b_id z)))))%Z = true).
    { destruct C as [Ca _]. rewrite Ca. lia. }
    rewrite E, E3. reflexivity. }
  unfold insert_frame. cbn [g_doc plain_doc] in *. rewrite Hh. cbn [bind].
  set (x := plain_doc d) in *. set (o1 := map CBlock (map b_id (b1 ++ [b]))). set (o2 := map CBlock (map b_id b2)).
  assert (Ids : map b_id (get_multi d (map fst ps)) = map fst ps).
  { apply get_multi_ids. intros i. now apply wf_has. }
  assert (Eo : g_order x = o1 ++ o2).
  { unfold x, o1, o2, plain_doc. cbn [g_order]. rewrite (wf_order _ _ W), <- Ids, E1, <- map_app, <- map_app, <- app_assoc. reflexivity. }
  assert (Lo : length o1 = S (length b1)) by (unfold o1; rewrite !map_length, app_length; cbn; lia).
  rewrite Eo. replace (Nat.min (S (length b1)) (length (o1 ++ o2))) with (length o1) by (rewrite app_length; lia).
  unfold vec_insert. assert (El : length o1 <=? length (o1 ++ o2) = true) by (rewrite app_length; lia). rewrite El. cbn [bind].
  rewrite firstn_exact, skipn_exact by easy. pose proof (add_fwf _ _ (Z.of_nat p) _ _ F Eo) as F'.
  eexists. exists (view ps b1), (b_id b), (text_in ps (b_id b)), (view ps b2), (d_next d).
  split; [reflexivity|]. split; [rewrite E1, view_app; reflexivity|]. split; [lia|].
  split.
  { cbn [add_sub g_order]. unfold o1, o2. rewrite !map_app, <- app_assoc. unfold view. rewrite !(map_map _ fst). reflexivity. }
  assert (S1 : flat_map (child_blocks x) o1 = b1 ++ [b] /\ flat_map (child_blocks x) o2 = b2).
  { assert (K : forall bs, (forall y, In y bs -> In y (get_multi d (map fst ps))) -> flat_map (child_blocks x) (map CBlock (map b_id bs)) = bs).
    { induction bs as [|y bs IH]; intros Hy; [easy|]. cbn [map flat_map child_blocks]. change (g_doc x) with d.
      rewrite (get_multi_get d (map fst ps) y) by (apply Hy; now left). cbn [app]. f_equal. apply IH. intros; apply Hy; now right. }
    split; apply K; rewrite E1; intros y; rewrite !in_app_iff; cbn [In]; tauto. }
  destruct S1 as [S1 S2].
  split.
  { change (d_rs d) with (d_rs (g_doc x)). rewrite (shown_fwf _ _ F'), (flow_add _ _ _ _ _ F Eo), S1, S2. rewrite <- app_assoc, view_app. cbn [app view map new_block b_id].
    now rewrite (text_in_out _ _ (proj2 (next_out _ _ F))). }
  split.
  { intros K. apply (proj1 (next_out _ _ F)). rewrite Efl. unfold view in K. now rewrite map_map in K. }
  split; [reflexivity|]. split; [|easy].
  rewrite (doc_items_wf _ _ W). apply (doc_items_wf _ _ (fw_wf _ _ F')).
Qed.

(** ** Snapshots *)
Lemma frame_snapshot_theorem x : framed x ->
  exists l es, shown x = Ok l /\ snapshot_frames x = Ok es
   /\ map elem_child es = g_order x /\ flat_map elem_paras es = placed_from 0 l.
Proof.
  intros H. destruct (framed_fwf _ H) as [ps F]. pose proof (fw_wf _ _ F) as W.
  exists (view ps (g_flow x)).
  assert (G : forall cs running, (forall c, In c cs -> In c (g_order x)) -> exists es, snapshot_children x cs running = Ok es
     /\ map elem_child es = cs /\ flat_map elem_paras es = placed_from running (view ps (flat_map (child_blocks x) cs))).
  { induction cs as [|c cs IH]; intros running Hc; [exists []; easy|].
    assert (O : forall b, one_snapshot x b running = Ok (mk_psnap (b_id b) running (text_in ps (b_id b)), running + length (text_in ps (b_id b)) + 1)).
    { intros b. unfold one_snapshot. rewrite (proj1 (content_any _ _ (b_id b) W)). cbn [bind]. rewrite (g_len_any _ _ _ F). cbn [bind].
      unfold to_usize. rewrite (proj2 (Z.leb_le 0 _)) by lia. cbn [bind]. now rewrite Nat2Z.id. }
    destruct c as [i|f]; cbn [snapshot_children flat_map child_blocks].
    - assert (Hi : In i (map fst ps)).
      { rewrite <- (fw_blocks _ _ F). apply in_flat_map. exists (CBlock i). split; [apply Hc; now left|now left]. }
      destruct (wf_get _ _ _ W Hi) as (b & Eb & Hb). rewrite Eb, O. cbn [bind].
      destruct (IH (running + length (text_in ps (b_id b)) + 1)) as (es & -> & E1 & E2); [intros; apply Hc; now right|]. cbn [bind].
      eexists. split; [reflexivity|]. cbn [map flat_map elem_child elem_paras ps_id app view placed_from]. rewrite E1, E2, Hb. easy.
    - destruct (fw_frames _ _ F f) as [s Es]; [apply Hc; now left|]. rewrite Es, O. cbn [bind].
      destruct (IH (running + length (text_in ps (b_id (s_block s))) + 1)) as (es & -> & E1 & E2); [intros; apply Hc; now right|]. cbn [bind].
      eexists. split; [reflexivity|]. cbn [map flat_map elem_child elem_paras app view placed_from]. rewrite E1, E2. easy. }
  destruct (G (g_order x) 0) as (es & E1 & E2 & E3); [easy|]. exists es. split; [apply (shown_fwf _ _ F)|]. split; [exact E1|]. split; [exact E2|exact E3].
Qed.

(** ** Plain text *)
Lemma lines_join ts : lines ts = join_lines ts.
Proof.
  destruct ts as [|t ts]; [easy|]. cbn [join_lines]. revert t. induction ts as [|u ts IH]; intros t; cbn [lines flat_map].
  - now rewrite app_nil_r.
  - f_equal. cbn [app]. unfold NL. f_equal. apply IH.
Qed.

Lemma outside_app x a b : outside_frames x (a ++ b) = outside_frames x a ++ outside_frames x b.
Proof. apply filter_app. Qed.
Lemma outside_flow x ps : fwf x ps -> outside_frames x (view ps (g_flow x)) = ps.
Proof.
  intros F. pose proof (fw_wf _ _ F) as W.
  assert (G : forall cs, (forall c, In c cs -> In c (g_order x)) ->
     outside_frames x (view ps (flat_map (child_blocks x) cs)) = map (fun i => (i, text_in ps i)) (order_blocks cs)).
  { induction cs as [|c cs IH]; intros Hc; [easy|]. cbn [flat_map order_blocks]. rewrite view_app.
    rewrite outside_app, IH, map_app by (intros; apply Hc; now right). f_equal.
    destruct c as [i|f]; cbn [child_blocks].
    - assert (Hi : In i (map fst ps)).
      { rewrite <- (fw_blocks _ _ F). apply in_flat_map. exists (CBlock i). split; [apply Hc; now left|now left]. }
      destruct (wf_get _ _ _ W Hi) as (b & Eb & Hb). rewrite Eb. unfold outside_frames. cbn [view map filter fst]. rewrite Hb.
      assert (E : existsb (N.eqb i) (frame_paras x) = false).
      { destruct (existsb (N.eqb i) (frame_paras x)) eqn:E; [|easy]. apply existsb_exists in E. destruct E as (j & Hj & E).
        apply N.eqb_eq in E. subst j. apply in_map_iff in Hj. destruct Hj as (s & Es & Hs). apply (fw_out _ _ F) in Hs. rewrite Es in Hs. tauto. }
      now rewrite E.
    - destruct (fw_frames _ _ F f) as [s Es]; [apply Hc; now left|]. rewrite Es. unfold outside_frames. cbn [view map filter fst].
      assert (E : existsb (N.eqb (b_id (s_block s))) (frame_paras x) = true).
      { apply existsb_exists. exists (b_id (s_block s)). split; [|apply N.eqb_refl]. apply in_map_iff. exists s. split; [easy|]. now apply find_sub_in in Es. }
      now rewrite E. }
  unfold g_flow. rewrite G by easy. rewrite (fw_blocks _ _ F), map_map. pose proof (wf_nodup _ _ W) as ND.
  rewrite <- map_id. apply map_ext_in. intros [i t] Hi. cbn [fst]. f_equal. now apply text_in_in.
Qed.

Lemma spaced_sorted d ps : wf d ps -> spaced d -> sort_blocks (get_multi d (d_fblocks d)) = get_multi d (map fst ps).
Proof.
  intros W Hs. apply weak_strict; [|apply sort_weakly|].
  - unfold spaced in Hs. rewrite (wf_order _ _ W) in Hs. induction (get_multi d (map fst ps)) as [|b bs IH]; [exact I|].
    cbn [map growing] in Hs. destruct Hs as [H1 H2]. cbn [strictly]. split; [|auto]. rewrite Forall_map in H1. exact H1.
  - etransitivity; [apply sort_perm|]. apply get_multi_perm. apply (wf_fblocks _ _ W).
Qed.

Lemma texts_of_any d ps bs : wf d ps -> texts_of (d_rs d) bs = Ok (map (fun b => text_in ps (b_id b)) bs).
Proof.
  intros W. induction bs as [|b bs IH]; [easy|]. cbn [texts_of map]. rewrite (proj1 (content_any _ _ _ W)). cbn [bind]. now rewrite IH.
Qed.

Lemma frame_text_theorem x : framed x -> frame_paras x <> [] -> spaced (g_doc x) ->
  exists l, shown x = Ok l
   /\ g_export x = Ok (lines (map snd (outside_frames x l) ++ map (fun _ => []) (frame_paras x))).
Proof.
  intros H Hn Hs. destruct (framed_fwf _ H) as [ps F]. pose proof (fw_wf _ _ F) as W. exists (view ps (g_flow x)).
  split; [apply (shown_fwf _ _ F)|]. rewrite (outside_flow _ _ F), lines_join. unfold g_export.
  destruct (g_subs x) as [|s ss] eqn:Es; [now unfold frame_paras in Hn; rewrite Es in Hn|]. rewrite <- Es.
  rewrite (texts_of_any _ _ _ W). cbn [bind]. do 2 f_equal. rewrite (spaced_sorted _ _ W Hs), map_app. f_equal.
  - pose proof (wf_nodup _ _ W) as ND. assert (Ids : map b_id (get_multi (g_doc x) (map fst ps)) = map fst ps).
    { apply get_multi_ids. intros i. now apply wf_has. }
    rewrite <- (map_map b_id (text_in ps)), Ids, map_map. apply map_ext_in. intros [i t] Hi. cbn [fst snd]. now apply text_in_in.
  - unfold frame_paras. rewrite !map_map. apply map_ext_in. intros a Ha. apply text_in_out. now apply (fw_out _ _ F).
Qed.

Lemma spaced_insert x p x' : insert_frame x p = Ok (InMain x') -> spaced (g_doc x) -> spaced (g_doc x').
Proof.
  intros E H. destruct (insert_frame_main _ _ _ E) as (o1 & o2 & _ & ->). unfold spaced in *. set (d' := g_doc _).
  assert (G : forall l, get_multi d' l = get_multi (g_doc x) l).
  { induction l as [|i l IH]; [easy|]. cbn [get_multi]. rewrite IH. reflexivity. }
  rewrite G. exact H.
Qed.
Lemma spaced_type x p text x' np : framed x -> g_insert_text x (Z.of_nat p) text = Ok (x', np) -> spaced (g_doc x) -> spaced (g_doc x').
Proof.
  intros H E Hs. destruct (framed_fwf _ H) as [ps F]. pose proof (fw_wf _ _ F) as W.
  destruct (type_full _ _ p text F) as (x2 & np2 & b1 & b & b2 & o & ps' & q & T & _ & _ & _ & _ & _ & _ & _ & _ & _ & _ & G4 & _ & _ & _ & B).
  rewrite T in E. injection E as <- <-. unfold spaced in *. rewrite G4. destruct B as [B|(y & m & B & Hm & Hy)].
  - assert (G : forall l, get_multi (g_doc x2) l = get_multi (g_doc x) l).
    { induction l as [|i l IH]; [easy|]. cbn [get_multi]. unfold get_block. now rewrite B, IH. }
    now rewrite G.
  - assert (G : forall l, get_multi (g_doc x2) l = map (g_shift y m) (get_multi (g_doc x) l)).
    { induction l as [|i l IH]; [easy|]. cbn [get_multi]. unfold get_block. rewrite B, (find_shift (g_shift y m)) by (intros; apply shift_id).
      destruct (find_block (d_blocks (g_doc x)) i); cbn [option_map map]; now rewrite IH. }
    rewrite G. rewrite (wf_order _ _ W) in *.
    assert (K : forall z, In z (get_multi (g_doc x) (map fst ps)) -> b_id z = b_id y -> z = y).
    { intros z Hz Ez. assert (Hin : In (b_id z) (map fst ps)).
      { rewrite <- (get_multi_ids (g_doc x) (map fst ps)); [now apply in_map|]. intros i. now apply wf_has. }
      apply get_multi_get in Hz. rewrite Ez in *. rewrite Hy in Hz by easy. congruence. }
    revert Hs K. generalize (get_multi (g_doc x) (map fst ps)) as l. induction l as [|a l IH]; intros Hs K; [exact I|].
    cbn [map growing] in *. destruct Hs as [H1 H2]. split; [|apply IH; [easy|intros; apply K; [now right|easy]]].
    rewrite Forall_map in *. rewrite Forall_map. rewrite Forall_forall in *. intros c Hc. specialize (H1 c Hc).
    assert (Kc : b_id c = b_id y -> c = y) by (intros; apply K; [now right|easy]).
    unfold g_shift. destruct (N.eqb_spec (b_id a) (b_id y)), (N.eqb_spec (b_id c) (b_id y)); cbn [negb andb].
    + exact H1.
    + destruct (Z.ltb_spec (b_pos y) (b_pos c)); cbn [set_b_pos b_pos]; lia.
    + rewrite (Kc e) in *. destruct (Z.ltb_spec (b_pos y) (b_pos a)); cbn [set_b_pos b_pos]; lia.
    + destruct (Z.ltb_spec (b_pos y) (b_pos a)), (Z.ltb_spec (b_pos y) (b_pos c)); cbn [set_b_pos b_pos]; lia.
Qed.
Lemma fresh_spaced d : reach d -> fresh_positions d -> spaced d.
Proof.
  intros R Fr. destruct (reach_wf _ R) as [ps W]. apply (fresh_equiv _ _ W) in Fr. pose proof (fresh_consec _ _ W Fr) as C.
  unfold spaced. rewrite (wf_order _ _ W). revert C. generalize (get_multi d (map fst ps)) as bs. generalize 0 as n. intros n bs. revert n.
  induction bs as [|b bs IH]; intros n C; [exact I|]. destruct C as [C1 C2]. cbn [map growing]. split; [|eapply IH, C2].
  assert (G : forall bs k, consec ps k bs -> Forall (fun z => (Z.of_nat k <= z)%Z) (map b_pos bs)).
  { clear. induction bs as [|b bs IH]; intros k C; cbn [map]; constructor.
    - destruct C as [-> _]. lia.
    - destruct C as [_ C]. apply IH in C. eapply Forall_impl; [|exact C]. cbn. lia. }
  eapply Forall_impl; [|apply (G _ _ C2)]. cbn. lia.
Qed.
Lemma frame_spaced_theorem :
  (forall d, reach d -> fresh_positions d -> spaced (g_doc (plain_doc d)))
  /\ (forall x p x', framed x -> spaced (g_doc x) -> insert_frame x p = Ok (InMain x') -> spaced (g_doc x'))
  /\ (forall x p text x' np, framed x -> spaced (g_doc x) -> g_insert_text x (Z.of_nat p) text = Ok (x', np) -> spaced (g_doc x')).
Proof.
  split; [apply fresh_spaced|]. split; [intros; eapply spaced_insert; eassumption|intros; eapply spaced_type; eassumption].
Qed.
