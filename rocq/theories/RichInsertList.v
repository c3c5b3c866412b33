(** Undo and redo of an inserted list item. *)
From Verif Require Import Base BaseFacts FormatRunsModel RopeModel DocModel DocSpec DocFacts DocInv DocReach DocImport DocFresh DocTheorems
  HistModel UndoModel UndoFacts SessionModel QueryTheorems PropSpec ListModel ListDocModel ListDocSpec ListDocFacts
  RichModel RichSpec RichFacts RichTheorems.

Lemma insert_list_shape L p st L' l np : insert_list L p st = Ok (L', l, np) ->
  l_lists L' = l_lists L ++ [(l_next L, plain_list st)] /\ l_next L' = N.succ (l_next L)
  /\ d_next (l_doc L') = N.succ (d_next (l_doc L)).
Proof.
  unfold insert_list. intros H. next_bind H. next_pair. cbn [new_list] in H. next_bind H. next_bind H. next_bind H. next_bind H.
  injection H as <- _ _. cbn [l_lists l_next l_doc]. rewrite multi_next. auto.
Qed.

Lemma insert_undo_theorem L m p st : idle m -> lreach L -> lists_exist L -> fresh_positions (l_doc L) ->
  exists its s1 s2 s3 f, doc_items (l_doc L) = Ok its /\ r_step (L, m) (RInsertList p st) = Ok (s1, true)
   /\ doc_items (l_doc (fst s1)) = Ok (spec_break (para_end its (clip its (Z.of_nat p))) its)
   /\ r_step s1 RUndo = Ok (s2, true) /\ same_rich (fst s2) L
   /\ r_step s2 RRedo = Ok (s3, true) /\ renamed f (fst s1) (fst s3)
   /\ doc_items (l_doc (fst s3)) = doc_items (l_doc (fst s1))
   /\ d_nblocks (l_doc (fst s3)) = d_nblocks (l_doc (fst s1)) /\ d_chars (l_doc (fst s3)) = d_chars (l_doc (fst s1)).
Proof.
  intros I H X F. destruct (idle_stack_ex _ I) as (us & rs & G). destruct (lists_ok _ H) as [R Hl]. destruct (reach_wf _ R) as [ps W].
  set (l := l_next L) in *. set (l' := N.succ l).
  destruct (insert_list_core L ps (Z.of_nat p) st W Hl F) as (its & L1 & Ei & E1 & D1 & _ & A1 & B1 & _ & _ & _ & O1 & Nb1 & Nc1 & _).
  destruct (insert_list_shape _ _ _ _ _ _ E1) as (Ls1 & Ln1 & Dn1). fold l in E1, A1, Ls1, Ln1. fold l' in Ln1.
  destruct (perform (L, m) (QInsertList (Z.of_nat p) st)) as [[[L1' m1] o]| |] eqn:Ep;
    [|unfold perform in Ep; cbn [execute] in Ep; now rewrite E1 in Ep|unfold perform in Ep; cbn [execute] in Ep; now rewrite E1 in Ep].
  assert (Eo : L1' = L1 /\ exists np, o = Some np) by (unfold perform in Ep; cbn [execute] in Ep; rewrite E1 in Ep; injection Ep as <- _ <-; eauto).
  destruct Eo as [-> [np ->]].
  destruct (perform_push _ _ _ _ _ _ _ _ I G Ep) as (I1 & G1 & _).
  destruct (undo_step L m1 us [] _ L1 G1 I1) as (m2 & U & I2 & G2); [intros x; reflexivity|].
  set (L2 := restore L1 L) in *.
  assert (S2 : same_rich L2 L) by apply same_restore.
  assert (W2 : wf (l_doc L2) ps).
  { destruct W. constructor; try assumption. intros b Hb. cbn. rewrite Dn1. specialize (wf_next b Hb). lia. }
  assert (F2 : fresh_positions (l_doc L2)) by (apply (fresh_equiv _ _ W2); exact (proj1 (fresh_equiv _ _ W) F)).
  assert (Hl2 : forall j, (l_next L2 <= j)%N -> get_list L2 j = None).
  { intros j Hj. change (get_list L2 j) with (get_list L j). apply Hl. unfold L2 in Hj. cbn [restore l_next] in Hj. rewrite Ln1 in Hj. unfold l' in Hj. lia. }
  destruct (insert_list_core L2 ps (Z.of_nat p) st W2 Hl2 F2) as (its2 & L3 & Ei2 & E3 & D3 & _ & A3 & B3 & _ & _ & _ & O3 & Nb3 & Nc3 & _).
  destruct (insert_list_shape _ _ _ _ _ _ E3) as (Ls3 & Ln3 & Dn3).
  assert (its2 = its) as ->.
  { assert (Z : doc_items (l_doc L2) = doc_items (l_doc L)) by (apply read_same; reflexivity). congruence. }
  assert (El : l_next L2 = l') by exact Ln1. rewrite El in *.
  change (l_lists L2) with (l_lists L) in Ls3. change (d_order (l_doc L2)) with (d_order (l_doc L)) in O3, B3.
  set (i1 := d_next (l_doc L)) in *. set (i2 := d_next (l_doc L2)) in *.
  change (d_nblocks (l_doc L2)) with (d_nblocks (l_doc L)) in Nb3. change (d_chars (l_doc L2)) with (d_chars (l_doc L)) in Nc3.
  exists its, (L1, m1), (L2, m2). eexists (L3, _), (fun x => if N.eqb x l then l' else x).
  split; [exact Ei|]. cbn [r_step]. unfold simply at 1. rewrite Ep. cbn [bind fst snd]. split; [reflexivity|]. split; [exact D1|].
  split; [exact U|]. split; [exact S2|].
  unfold m_redo. cbn [sid here]. rewrite G2. unfold redo_entry. cbn [redo_each]. unfold redo_r. cbn [rc_req execute].
  rewrite E3. cbn [bind]. split; [reflexivity|]. split; [|split; [now rewrite D3, D1|split; congruence]].
  assert (Fn : forall j, (l <= j)%N -> find (fun x : id * list_entity => N.eqb (fst x) j) (l_lists L) = None).
  { intros j Hj. specialize (Hl j Hj). unfold get_list in Hl. now destruct (find _ _). }
  assert (Same : forall j, In j (d_order (l_doc L)) -> attr (l_doc L3) j
     = option_map (fun y => (option_map (fun x => if N.eqb x l then l' else x) (fst y), snd y)) (attr (l_doc L1) j)).
  { intros j Hj. rewrite (B1 j Hj), (B3 j Hj). change (attr (l_doc L2) j) with (attr (l_doc L) j).
    destruct (attr (l_doc L) j) as [[[k|] f]|] eqn:Ea; cbn [option_map fst snd]; try easy.
    destruct (N.eqb_spec k l) as [->|]; [|easy]. destruct (X j l f Ea). apply Hl. lia. }
  split; [|split].
  - unfold para_attrs. cbv zeta in O1, O3. rewrite O1, O3, !map_app. cbn [map]. rewrite A1, A3. cbn [option_map fst snd]. rewrite N.eqb_refl.
    f_equal; [|f_equal]; rewrite map_map; apply map_ext_in; intros j Hj; apply Same.
    + rewrite <- (firstn_skipn (S (breaks (clip its (Z.of_nat p)) its))). apply in_app_iff. now left.
    + rewrite <- (firstn_skipn (S (breaks (clip its (Z.of_nat p)) its))). apply in_app_iff. now right.
  - intros k e. unfold get_list. rewrite Ls1, Ls3, !find_app. intros Hk.
    destruct (N.eqb_spec k l) as [->|Hne].
    + rewrite Fn in Hk |- * by (unfold l'; lia). cbn [find fst] in *. rewrite N.eqb_refl in *. exact Hk.
    + destruct (find (fun x => N.eqb (fst x) k) (l_lists L)); [exact Hk|]. cbn [find fst] in Hk.
      destruct (N.eqb_spec l k); [congruence|]. discriminate.
  - assert (N1 : get_list L1 l' = None).
    { unfold get_list. rewrite Ls1, find_app, Fn by (unfold l'; lia).
      cbn [find fst]. destruct (N.eqb_spec l l'); [unfold l' in *; lia|reflexivity]. }
    intros x y Hx Hy. destruct (N.eqb_spec x l), (N.eqb_spec y l); congruence.
Qed.
