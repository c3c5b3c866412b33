(** Proofs about documents with frames. *)
From Verif Require Import Base BaseFacts FormatRunsModel FormatRunsSpec FormatRunsFacts RopeModel RopeSpec RopeFacts
  DocModel DocSpec BlockFacts DocInv DocFacts HistModel QueryModel DocDelete DocReach DocImport DocFresh ListModel ReplaceExact
  FrameModel FrameSpec.
From Coq Require Import Permutation.

(** ** Blocks that are not in the rope *)
Lemma out_segs i (ps : list para) : ~ In i (map fst ps) -> ~ In (MBlock i) (map fst (segs ps)).
Proof. intros H K. now apply in_segs_fst in K. Qed.
Lemma out_range st l m : rep st l -> ~ In m (map fst l) -> range_with_successor (index st) m = Ok None.
Proof.
  intros R H. unfold range_with_successor. rewrite (rep_midx _ _ R). apply seg_pos_none in H. now rewrite H.
Qed.
Lemma out_content d ps i : wf d ps -> ~ In i (map fst ps) -> block_content (d_rs d) i = Ok [].
Proof. intros W H. unfold block_content. now rewrite (out_range _ _ _ (wf_rep _ _ W) (out_segs _ _ H)). Qed.
Lemma out_length d ps i : wf d ps -> ~ In i (map fst ps) -> char_length d i = Ok 0%Z.
Proof. intros W H. unfold char_length, block_char_length. now rewrite (out_range _ _ _ (wf_rep _ _ W) (out_segs _ _ H)). Qed.

Lemma out_insert d ps i text : wf d ps -> ~ In i (map fst ps) ->
  exists d', insert_bytes d i 0 text = Ok d' /\ wf d' ps /\ d_rs d' = d_rs d /\ d_blocks d' = d_blocks d
   /\ d_nblocks d' = d_nblocks d /\ d_next d' = d_next d /\ d_chars d' = d_chars d /\ d_order d' = d_order d
   /\ d_fblocks d' = d_fblocks d /\ (forall k, d_runs d' k = d_runs d k).
Proof.
  intros W H. unfold insert_bytes. cbn [d_rs set_runs set_images].
  assert (E : rope_insert_in_block (d_rs d) i 0 text = Ok (d_rs d)).
  { unfold rope_insert_in_block. destruct (_ =? _); [easy|]. rewrite (rep_range_none _ _ _ (wf_rep _ _ W) (out_segs _ _ H)). easy. }
  rewrite E. cbn [bind]. eexists. split; [reflexivity|].
  assert (Er : forall k, upd (d_runs d) i (shift_runs_for_insert (d_runs d i) 0 (blen text)) k = d_runs d k).
  { intros k. unfold upd. destruct (N.eqb_spec k i) as [->|]; [|easy]. rewrite (wf_runs_out _ _ W) by easy. unfold shift_runs_for_insert. now destruct (_ =? _). }
  split; [|repeat split; exact Er].
  destruct W; constructor; cbn; auto.
  - intros b t Hb. rewrite Er. auto.
  - intros b Hb. rewrite Er. auto.
  - intros b. unfold upd. rewrite !wf_images. unfold shift_images_for_insert. destruct (N.eqb b i); [|easy]. now destruct (_ =? _).
Qed.

(** ** The invariant *)
Definition order_blocks (cs : list child) : list id := flat_map (fun c => match c with CBlock i => [i] | CFrame _ => [] end) cs.

Record fwf (x : gdoc) (ps : list para) : Prop := {
  fw_wf : wf (g_doc x) ps;
  fw_blocks : order_blocks (g_order x) = map fst ps;
  fw_frames : forall f, In (CFrame f) (g_order x) -> exists s, find_sub x f = Some s;
  fw_below : forall s, In s (g_subs x) -> (s_frame s < g_nextf x)%N;
  fw_out : forall s, In s (g_subs x) -> ~ In (b_id (s_block s)) (map fst ps) /\ (b_id (s_block s) < d_next (g_doc x))%N;
  fw_nodup : NoDup (map b_id (g_flow x))
}.

Lemma find_sub_in x f s : find_sub x f = Some s -> In s (g_subs x) /\ s_frame s = f.
Proof. intros H. apply find_some in H. rewrite N.eqb_eq in H. exact H. Qed.

(** The text of a block. *)
Definition text_in (ps : list para) (i : id) : str := match find (fun p => N.eqb (fst p) i) ps with Some p => snd p | None => [] end.
Lemma text_in_in ps i t : NoDup (map fst ps) -> In (i, t) ps -> text_in ps i = t.
Proof.
  unfold text_in. induction ps as [|[j u] ps IH]; [easy|]. cbn [map fst find In]. intros ND [[= -> ->]|H].
  - now rewrite N.eqb_refl.
  - inversion ND; subst. destruct (N.eqb_spec j i) as [->|]; [|auto]. exfalso. apply H2. apply in_map_iff. now exists (i, t).
Qed.
Lemma text_in_out ps i : ~ In i (map fst ps) -> text_in ps i = [].
Proof.
  unfold text_in. induction ps as [|[j u] ps IH]; [easy|]. cbn [map fst find In]. intros H.
  destruct (N.eqb_spec j i); [tauto|]. apply IH. tauto.
Qed.

Lemma content_any d ps i : wf d ps -> block_content (d_rs d) i = Ok (text_in ps i)
  /\ char_length d i = Ok (Z.of_nat (length (text_in ps i))).
Proof.
  intros W. destruct (in_dec N.eq_dec i (map fst ps)) as [H|H].
  - apply in_map_iff in H. destruct H as ([j t] & <- & H). cbn [fst].
    rewrite (text_in_in _ _ _ (wf_nodup _ _ W) H). split; [eapply wf_content_in|eapply wf_length_in]; eassumption.
  - rewrite (text_in_out _ _ H). split; [eapply out_content|eapply out_length]; eassumption.
Qed.

Lemma read_all_wf d ps bs : wf d ps -> read_all (d_rs d) bs = Ok (map (fun b => (b_id b, text_in ps (b_id b))) bs).
Proof.
  intros W. induction bs as [|b bs IH]; [easy|]. cbn [read_all map]. rewrite (proj1 (content_any _ _ _ W)). cbn [bind]. now rewrite IH.
Qed.
Definition view (ps : list para) (bs : list block) : list para := map (fun b => (b_id b, text_in ps (b_id b))) bs.
Lemma shown_fwf x ps : fwf x ps -> shown x = Ok (view ps (g_flow x)).
Proof. intros F. apply read_all_wf, F. Qed.

(** Which blocks the flow has. *)
Lemma flow_in x ps b : fwf x ps -> In b (g_flow x) ->
  (In (b_id b) (map fst ps) /\ get_block (g_doc x) (b_id b) = Some b)
  \/ (~ In (b_id b) (map fst ps) /\ exists s, In s (g_subs x) /\ s_block s = b).
Proof.
  intros F H. apply in_flat_map in H. destruct H as ([i|f] & Hc & Hb); cbn [child_blocks] in Hb.
  - left. destruct (get_block (g_doc x) i) as [b'|] eqn:E; [|easy]. destruct Hb as [<-|[]].
    pose proof (find_block_some _ _ _ E) as [Hi _]. rewrite Hi. split; [|exact E]. rewrite <- (fw_blocks _ _ F).
    apply in_flat_map. exists (CBlock i). split; [easy|now left].
  - right. destruct (find_sub x f) as [s|] eqn:E; [|easy]. destruct Hb as [<-|[]]. apply find_sub_in in E. destruct E as [E _].
    split; [apply (fw_out _ _ F _ E)|eauto].
Qed.
Lemma flow_ne x ps : fwf x ps -> g_flow x <> [].
Proof.
  intros F E. pose proof (wf_ne _ _ (fw_wf _ _ F)) as Hne. destruct ps as [|[i t] ps]; [easy|].
  assert (Hi : In i (order_blocks (g_order x))) by (rewrite (fw_blocks _ _ F); now left).
  apply in_flat_map in Hi. destruct Hi as (c & Hc & Hi). destruct c as [j|f]; [|easy]. destruct Hi as [->|[]].
  destruct (wf_get _ _ i (fw_wf _ _ F)) as (b & Eb & _); [now left|].
  assert (In b (g_flow x)); [|rewrite E in *; easy]. apply in_flat_map. exists (CBlock i). split; [easy|]. cbn. rewrite Eb. now left.
Qed.

Lemma view_app ps a b : view ps (a ++ b) = view ps a ++ view ps b. Proof. apply map_app. Qed.
Lemma before_app a b : before (a ++ b) = before a + before b.
Proof. induction a as [|p a IH]; [easy|]. cbn [app before fold_right]. fold (before (a ++ b)) (before a). lia. Qed.
Lemma before_cons p l : before (p :: l) = length (snd p) + 1 + before l. Proof. reflexivity. Qed.

(** ** The walk *)
Lemma g_find_spec x ps (F : wf (g_doc x) ps) p bs : bs <> [] -> forall running, running <= p ->
  exists b1 b b2 o, bs = b1 ++ b :: b2 /\ o <= length (text_in ps (b_id b))
   /\ running + inside (view ps bs) (p - running) = running + before (view ps b1) + o
   /\ g_find x bs (Z.of_nat running) (Z.of_nat p) = Ok (b, Z.of_nat (running + before (view ps b1)))
   /\ clamp 0 (Z.of_nat (length (text_in ps (b_id b)))) (Z.of_nat p - Z.of_nat (running + before (view ps b1))) = Z.of_nat o.
Proof.
  induction bs as [|b bs IH]; [easy|]. intros _ running Hr. cbn [g_find]. unfold g_len.
  rewrite (proj2 (content_any _ _ _ F)). cbn [bind]. set (n := length (text_in ps (b_id b))).
  destruct (((Z.of_nat running <=? Z.of_nat p) && (Z.of_nat p <=? Z.of_nat running + Z.of_nat n))%Z) eqn:E.
  - exists [], b, bs, (p - running). cbn [app view map]. fold (view ps bs). fold n. unfold inside. rewrite before_cons. cbn [snd before fold_right]. fold n.
    split; [easy|]. split; [lia|]. split; [lia|]. split; [do 3 f_equal; lia|]. unfold clamp. lia.
  - destruct bs as [|b' bs].
    + exists [], b, [], n. cbn [app view map before fold_right]. unfold inside. rewrite before_cons. cbn [snd before fold_right]. fold n.
      split; [easy|]. split; [lia|]. split; [lia|]. split; [do 3 f_equal; lia|]. unfold clamp. lia.
    + destruct (IH ltac:(easy) (running + n + 1)) as (b1 & c & b2 & o & E1 & E2 & E3 & E4 & E5); [lia|].
      exists (b :: b1), c, b2, o. rewrite E1 in *. split; [easy|]. split; [exact E2|].
      assert (Ev : before (view ps (b :: b1)) = n + 1 + before (view ps b1)) by reflexivity. rewrite Ev.
      replace (running + (n + 1 + before (view ps b1))) with (running + n + 1 + before (view ps b1)) by lia.
      split; [|split; [|exact E5]].
      * unfold inside in *. assert (Ev2 : before (view ps (b :: b1 ++ c :: b2)) = n + 1 + before (view ps (b1 ++ c :: b2))) by reflexivity.
        assert (1 <= before (view ps (b1 ++ c :: b2))).
        { rewrite view_app, before_app. cbn [view map]. rewrite before_cons. lia. }
        rewrite Ev2. lia.
      * rewrite <- E4. f_equal. lia.
Qed.
