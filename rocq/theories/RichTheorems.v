(** Undo and redo of pastes and lists; counterexamples. *)
From Verif Require Import Base BaseFacts FormatRunsModel RopeModel DocModel DocSpec DocFacts DocInv DocReach DocTheorems
  HistModel HistSpec UndoModel UndoFacts SessionModel SearchModel QueryTheorems PropSpec DocRefuted ListModel ListDocModel ListDocSpec ListDocFacts
  FragmentModel FragmentSpec FragmentText FragmentInsert DeletePos FragmentTheorems FragmentRefuted ImageModel ImageTheorems RichModel RichSpec RichFacts.

(** ** Pasting *)

Lemma in_order_next d n : in_order d -> in_order (set_next d n).
Proof.
  unfold in_order. cbn [set_next d_order]. intros H. replace (get_multi (set_next d n) (d_order d)) with (get_multi d (d_order d)); [exact H|].
  induction (d_order d) as [|i is_ IH]; [easy|]. cbn [get_multi]. unfold get_block. cbn [set_next d_blocks]. rewrite <- IH; [easy|].
  cbn [get_multi map] in H. destruct (get_block d i); [|exact H]. cbn [map] in H. now destruct (get_multi d is_); cbn in H.
Qed.

Lemma paste_caret L its fbs p : reach (l_doc L) -> doc_items (l_doc L) = Ok its ->
  fbs <> [] -> Forall text_only fbs -> single_inline fbs \/ in_order (l_doc L) ->
  exists L' np, execute L (QPaste p (Some fbs)) = Ok (L', np) /\ doc_items (l_doc L') = Ok (spec_paste (clip its p) fbs its)
   /\ reach (l_doc L') /\ (d_next (l_doc L) <= d_next (l_doc L'))%N.
Proof.
  intros R E Hne T O. destruct (reach_its _ _ R E) as (ps & W & ->). rewrite clip_items.
  destruct (insert_fragment_full L ps p fbs W Hne T O) as (L' & ps' & np & k & E' & W' & I & _ & _ & _ & _ & _ & N & _).
  exists L', np. cbn [execute]. rewrite E'. split; [easy|]. split; [now rewrite (doc_items_wf _ _ W'), I|]. split; [eapply reach_paste; eauto|easy].
Qed.

Lemma paste_selection L its fbs p a : reach (l_doc L) -> doc_items (l_doc L) = Ok its ->
  fbs <> [] -> Forall text_only fbs -> p <= length its -> a <= length its -> p <> a ->
  let n := Nat.min p a in let rest := spec_delete n (Nat.max p a) its in
  exists L1 L' np, execute L (QDelete (Z.of_nat p) (Z.of_nat a)) = Ok (L1, Z.of_nat n)
   /\ execute L1 (QPaste (Z.of_nat n) (Some fbs)) = Ok (L', np) /\ doc_items (l_doc L') = Ok (spec_paste n fbs rest)
   /\ reach (l_doc L') /\ (d_next (l_doc L) <= d_next (l_doc L'))%N.
Proof.
  intros R E Hne T Hp Ha Hpa n rest. destruct (reach_its _ _ R E) as (ps & W & Eits).
  assert (Hpaz : Z.of_nat p <> Z.of_nat a) by lia.
  destruct (DocTheorems.delete_theorem (l_doc L) (Z.of_nat p) (Z.of_nat a) R) as (its' & d1 & E' & D). rewrite E in E'. injection E' as <-.
  cbv zeta in D. replace (Z.min (Z.of_nat p) (Z.of_nat a)) with (Z.of_nat n) in D by lia.
  replace (Z.max (Z.of_nat p) (Z.of_nat a)) with (Z.of_nat (Nat.max p a)) in D by lia.
  assert (Cn : clip its (Z.of_nat n) = n) by (unfold clip; lia).
  assert (Cm : clip its (Z.of_nat (Nat.max p a)) = Nat.max p a) by (unfold clip; lia).
  rewrite Cn, Cm in D. destruct D as (D1 & D2 & _). fold rest in D2.
  destruct (delete_pos _ _ _ _ W Hpaz) as (d1' & cut' & ps' & D1' & _ & Io & _). rewrite D1 in D1'. injection D1' as <- _ _.
  assert (R1 : reach d1) by (eapply reach_delete; eauto).
  assert (C : clip rest (Z.of_nat n) = n) by (unfold clip, rest, spec_delete; rewrite app_length, firstn_length; lia).
  destruct (paste_caret (with_doc L d1) rest fbs (Z.of_nat n) R1 D2 Hne T (or_intror Io)) as (L' & np & P1 & P2 & P3 & P4).
  exists (with_doc L d1), L', np. cbn [execute]. rewrite D1. split; [easy|]. split; [exact P1|]. rewrite C in P2. split; [easy|]. split; [easy|].
  cbn [with_doc l_doc] in P4. now rewrite (delete_next _ _ _ _ _ _ D1) in P4.
Qed.

Lemma idle_stack_ex m : idle m -> exists us rs, get_stack m 1 = Some (us, rs).
Proof. intros I. destruct (get_stack m 1) as [[us rs]|] eqn:G; [eauto|]. now destruct (idle_stack _ I). Qed.

Lemma paste_undo_theorem L m its fbs t p a : idle m -> reach (l_doc L) -> doc_items (l_doc L) = Ok its ->
  fbs <> [] -> Forall text_only fbs -> p <= length its -> a <= length its ->
  p <> a \/ single_inline fbs \/ in_order (l_doc L) ->
  let after := spec_paste (Nat.min p a) fbs (spec_delete (Nat.min p a) (Nat.max p a) its) in
  exists s1 s2 s3, r_step (L, m) (RPaste p a (mk_dfrag (Some fbs) t)) = Ok (s1, true) /\ doc_items (l_doc (fst s1)) = Ok after
   /\ r_step s1 RUndo = Ok (s2, true) /\ same_rich (fst s2) L
   /\ r_step s2 RRedo = Ok (s3, true) /\ doc_items (l_doc (fst s3)) = Ok after.
Proof.
  intros I R E Hne T Hp Ha O after. destruct (idle_stack_ex _ I) as (us & rs & G).
  cbn [r_step df_data].
  assert (Back : forall L1, reach (l_doc L1) -> (d_next (l_doc L) <= d_next (l_doc L1))%N ->
    reach (l_doc (restore L1 L)) /\ doc_items (l_doc (restore L1 L)) = Ok its
    /\ (in_order (l_doc L) -> in_order (l_doc (restore L1 L)))).
  { intros L1 R1 N1. split; [now apply reach_restore|].
    split; [rewrite <- E; now apply read_same|]. intros H. apply (in_order_next _ (d_next (l_doc L1))), H. }
  destruct (Nat.eq_dec p a) as [<-|Hpa].
  - assert (Ea : after = spec_paste (clip its (Z.of_nat p)) fbs its).
    { unfold after, spec_delete. rewrite Nat.min_id, Nat.max_id, firstn_skipn. f_equal. unfold clip. lia. }
    destruct (paste_caret L its fbs (Z.of_nat p) R E Hne T) as (L1 & np & P1 & P2 & P3 & P4); [tauto|].
    destruct (perform (L, m) (QPaste (Z.of_nat p) (Some fbs))) as [[[L1' m1] o]| |] eqn:Ep;
      [|unfold perform in Ep; now rewrite P1 in Ep|unfold perform in Ep; now rewrite P1 in Ep].
    assert (Eo : L1' = L1 /\ o = Some np) by (unfold perform in Ep; rewrite P1 in Ep; injection Ep; auto). destruct Eo as [-> ->].
    destruct (perform_push _ _ _ _ _ _ _ _ I G Ep) as (I1 & G1 & _).
    destruct (undo_step L m1 us [] _ L1 G1 I1) as (m2 & U & I2 & G2); [intros x; reflexivity|].
    destruct (Back L1 P3 P4) as (B1 & B2 & B3).
    destruct (paste_caret (restore L1 L) its fbs (Z.of_nat p) B1 B2 Hne T) as (L3 & np3 & Q1 & Q2 & _); [tauto|].
    exists (L1, m1), (restore L1 L, m2). eexists. unfold perform_over. rewrite Nat.eqb_refl, Ep. cbn [bind fst snd].
    split; [reflexivity|]. split; [now rewrite Ea|]. split; [exact U|]. split; [apply same_restore|].
    cbn [r_step fst snd]. unfold m_redo. cbn [sid here]. rewrite G2. unfold redo_entry. cbn [redo_each]. unfold redo_r. cbn [rc_req].
    rewrite Q1. cbn [bind]. split; [reflexivity|]. cbn [fst]. now rewrite Ea.
  - destruct (paste_selection L its fbs p a R E Hne T Hp Ha Hpa) as (L1 & L' & np & P1 & P2 & P3 & P4 & P5).
    assert (Tn : to_usize (Z.of_nat (Nat.min p a)) = Ok (Nat.min p a)) by (unfold to_usize; destruct (Z.leb_spec 0 (Z.of_nat (Nat.min p a))); [now rewrite Nat2Z.id|lia]).
    assert (St : exists m1, perform_over (L, m) p a (fun q => QPaste q (Some fbs)) = Ok ((L', m1), true)).
    { unfold perform_over. rewrite (proj2 (Nat.eqb_neq p a) Hpa). cbn [fst snd]. unfold perform at 1. rewrite P1. cbn [bind].
      rewrite Tn. cbn [bind]. unfold perform. rewrite P2. cbn [bind fst snd].
      assert (Hb : m_begin m here = (mk_manager (stacks m) (next_stack m) (Some ([], 1%N)) 1 here, true)).
      { destruct I as [Op Lv Ow _]. unfold m_begin. rewrite Op, Lv. destruct Ow as [-> | ->]; reflexivity. }
      rewrite Hb. cbn [fst]. unfold m_add. cbn [open sid here N.eqb Pos.eqb fst stacks next_stack level UndoModel.owner app].
      unfold m_end. cbn [level pred open UndoModel.owner sid here stacks next_stack]. unfold get_stack in *. cbn [stacks].
      rewrite G. cbn [bind]. eauto. }
    destruct St as [m1 St]. destruct (over_push _ _ _ _ _ _ _ _ _ I G Hpa St) as (L1' & np1 & q & np' & E1 & E2 & E3 & I1 & G1).
    rewrite P1 in E1. injection E1 as <- <-. rewrite Tn in E2. injection E2 as <-.
    destruct (undo_step L m1 us [] _ L' G1 I1) as (m2 & U & I2 & G2); [intros x; reflexivity|].
    destruct (Back L' P4 P5) as (B1 & B2 & B3).
    destruct (paste_selection (restore L' L) its fbs p a B1 B2 Hne T Hp Ha Hpa) as (K1 & K' & knp & Q1 & Q2 & Q3 & _).
    exists (L', m1), (restore L' L, m2). eexists. split; [exact St|]. split; [exact P3|]. split; [exact U|]. split; [apply same_restore|].
    cbn [r_step fst snd]. unfold m_redo. cbn [sid here]. rewrite G2. unfold redo_entry. cbn [redo_each]. unfold redo_r. cbn [rc_req].
    rewrite Q1. cbn [bind]. rewrite Q2. cbn [bind]. split; [reflexivity|]. cbn [fst]. exact Q3.
Qed.

(** ** Making a list *)

Lemma create_undo_theorem L m p a st : idle m -> lreach L -> lists_exist L ->
  exists s1 s2 s3 f, r_step (L, m) (RCreateList p a st) = Ok (s1, true)
   /\ r_step s1 RUndo = Ok (s2, true) /\ same_rich (fst s2) L
   /\ r_step s2 RRedo = Ok (s3, true) /\ renamed f (fst s1) (fst s3)
   /\ doc_items (l_doc (fst s3)) = doc_items (l_doc (fst s1)).
Proof.
  intros I H X. destruct (idle_stack_ex _ I) as (us & rs & G). destruct (lists_ok _ H) as [R Hl].
  set (l := l_next L) in *. set (l' := N.succ l).
  destruct (create_ok L (Z.of_nat p) (Z.of_nat a) st R) as (d1 & ps & E1 & W & R1 & W1 & S1 & S2 & S3 & A1).
  fold l in E1, A1. fold l' in E1.
  set (L1 := mk_ldoc d1 (l_lists L ++ [(l, plain_list st)]) l') in *.
  destruct (perform (L, m) (QCreate (Z.of_nat p) (Z.of_nat a) st)) as [[[L1' m1] o]| |] eqn:Ep;
    [|unfold perform in Ep; cbn [execute] in Ep; now rewrite E1 in Ep|unfold perform in Ep; cbn [execute] in Ep; now rewrite E1 in Ep].
  assert (Eo : L1' = L1 /\ o = Some 0%Z) by (unfold perform in Ep; cbn [execute] in Ep; rewrite E1 in Ep; injection Ep; auto). destruct Eo as [-> ->].
  destruct (perform_push _ _ _ _ _ _ _ _ I G Ep) as (I1 & G1 & _).
  destruct (undo_step L m1 us [] _ L1 G1 I1) as (m2 & U & I2 & G2); [intros x; reflexivity|].
  assert (Nd : d_next d1 = d_next (l_doc L)).
  { unfold create_list in E1. cbn [new_list] in E1. next_bind E1. injection E1 as E1. subst x. eapply assign_next; eassumption. }
  set (L2 := restore L1 L) in *.
  assert (EL2 : L2 = mk_ldoc (l_doc L) (l_lists L) l').
  { unfold L2, restore, restore_snapshot. cbn [L1 l_doc l_next]. rewrite Nd. f_equal. now destruct (l_doc L). }
  destruct (create_ok L2 (Z.of_nat p) (Z.of_nat a) st) as (d3 & ps3 & E3 & W3 & R3 & W3' & T1 & T2 & T3 & A3); [now rewrite EL2|].
  rewrite EL2 in E3, W3, T1, T2, T3, A3. cbn [l_doc l_lists l_next] in E3, W3, T1, T2, T3, A3.
  set (L3 := mk_ldoc d3 (l_lists L ++ [(l', plain_list st)]) (N.succ l')) in *.
  exists (L1, m1), (L2, m2). eexists (L3, _), (fun x => if N.eqb x l then l' else x).
  cbn [r_step]. unfold simply at 1. rewrite Ep. cbn [bind fst snd]. split; [reflexivity|]. split; [exact U|]. split; [apply same_restore|].
  unfold m_redo. cbn [sid here]. rewrite G2. unfold redo_entry. cbn [redo_each]. unfold redo_r. cbn [rc_req execute].
  fold L3 in E3. rewrite EL2, E3. cbn [bind]. split; [reflexivity|]. split.
  - assert (Fn : forall j, (l <= j)%N -> find (fun x : id * list_entity => N.eqb (fst x) j) (l_lists L) = None).
    { intros j Hj. specialize (Hl j Hj). unfold get_list in Hl. now destruct (find _ _). }
    split; [|split].
    + unfold para_attrs. cbn [L1 L3 l_doc]. rewrite T3, S3. rewrite !map_map. apply map_ext_in. intros i Hi.
      destruct (attr_in_order _ _ _ W Hi) as (l0 & f & Ea).
      assert (Hin : exists t, In (i, t) ps).
      { rewrite (wf_order _ _ W) in Hi. apply in_map_iff in Hi. destruct Hi as ([j t] & Ej & Hi). cbn in Ej. subst j. eauto. }
      destruct Hin as [t Hin].
      assert (Hin3 : In (i, t) ps3).
      { rewrite (wf_order _ _ W3) in Hi. apply in_map_iff in Hi. destruct Hi as ([j t3] & Ej & Hi). cbn in Ej. subst j.
        pose proof (wf_content_in _ _ _ _ W Hin) as C1. rewrite (wf_content_in _ _ _ _ W3 Hi) in C1. injection C1 as <-. exact Hi. }
      destruct (get_block (l_doc L) i) as [x|] eqn:Eb; [|unfold attr in Ea; now rewrite Eb in Ea].
      rewrite (A1 i t l0 f x Hin Ea Eb), (A3 i t l0 f x Hin3 Ea Eb). cbn [option_map fst snd].
      destruct (touches _ _ _ _); cbn [option_map]; [now rewrite N.eqb_refl|].
      destruct l0 as [k|]; cbn [option_map]; [|easy]. destruct (N.eqb_spec k l) as [->|]; [|easy].
      destruct (X i l f Ea). apply Hl. lia.
    + intros k e. unfold get_list. cbn [L1 L3 l_lists]. rewrite !find_app. intros Hk.
      destruct (N.eqb_spec k l) as [->|Hne].
      * rewrite Fn in Hk |- * by (unfold l'; lia). cbn [find fst] in *. rewrite N.eqb_refl in *. exact Hk.
      * destruct (find (fun x => N.eqb (fst x) k) (l_lists L)); [exact Hk|]. cbn [find fst] in Hk.
        destruct (N.eqb_spec l k); [congruence|]. discriminate.
    + assert (N1 : get_list L1 l' = None).
      { unfold get_list. cbn [L1 l_lists]. rewrite find_app, Fn by (unfold l'; lia).
        cbn [find fst]. destruct (N.eqb_spec l l'); [unfold l' in *; lia|reflexivity]. }
      intros x y Hx Hy. destruct (N.eqb_spec x l), (N.eqb_spec y l); congruence.
  - cbn [L3 L1 fst l_doc]. unfold doc_items. rewrite T3, S3. etransitivity; [|symmetry]; now apply read_same with (d := l_doc L).
Qed.

(** ** Counterexamples *)

Definition numbered_req : list_req := mk_list_req (Some Decimal) None None None.
Definition all_markers (L : ldoc) : list (res (option str)) := map (block_marker L) (d_order (l_doc L)).

Lemma stuck s c : r_step s c = Ok (s, false) -> forall n, r_run s (repeat c n) = Ok (s, repeat false n).
Proof. intros H. induction n as [|n IH]; [easy|]. cbn [repeat r_run]. rewrite H. cbn [bind]. rewrite IH. easy. Qed.
Lemma still s c : r_step s c = Ok (s, true) -> forall n, r_run s (repeat c n) = Ok (s, repeat true n).
Proof. intros H. induction n as [|n IH]; [easy|]. cbn [repeat r_run]. rewrite H. cbn [bind]. rewrite IH. easy. Qed.

Lemma redo_format_refuted_w : exists L s1 s2, lreach L
  /\ r_run (L, rich_history) [RCreateList 0 0 Disc; RListFormat 1%N numbered_req] = Ok (s1, [true; true])
  /\ r_run s1 [RUndo; RUndo; RRedo; RRedo] = Ok (s2, [true; true; true; false])
  /\ all_markers (fst s2) <> all_markers (fst s1)
  /\ (forall n, r_run s2 (repeat RRedo n) = Ok (s2, repeat false n)).
Proof.
  exists (no_lists two_paras). eexists _, _. split; [apply lreach_start, two_paras_reach|].
  split; [vm_compute; reflexivity|]. split; [vm_compute; reflexivity|].
  split; [vm_compute; intros H; discriminate H|]. apply stuck. vm_compute. reflexivity.
Qed.

Lemma redo_join_refuted_w : exists L i l s1 s2, lreach L
  /\ r_run (L, rich_history) [RCreateList 0 0 Disc; RBreak 4 4; RJoinList i l] = Ok (s1, [true; true; true])
  /\ r_run s1 [RUndo; RUndo; RRedo; RRedo] = Ok (s2, [true; true; true; false])
  /\ all_markers (fst s2) <> all_markers (fst s1)
  /\ (forall n, r_run s2 (repeat RRedo n) = Ok (s2, repeat false n)).
Proof.
  exists (no_lists two_paras), (d_next two_paras), 1%N. eexists _, _. split; [apply lreach_start, two_paras_reach|].
  split; [vm_compute; reflexivity|]. split; [vm_compute; reflexivity|].
  split; [vm_compute; intros H; discriminate H|]. apply stuck. vm_compute. reflexivity.
Qed.

Definition a_picture : str := [112; 46; 112; 110; 103]%N.
Lemma failed_group_refuted_w : exists L s1 s2, lreach L
  /\ r_step (L, rich_history) (RImage 0 1 a_picture 0 5) = Ok (s1, false)
  /\ r_step s1 (RBreak 0 0) = Ok (s2, true)
  /\ export_plain_text (l_doc L) = Ok [97; 98; 10; 99; 100]%N
  /\ export_plain_text (l_doc (fst s2)) = Ok [10; 98; 10; 99; 100]%N
  /\ (forall n, r_run s2 (repeat RUndo n) = Ok (s2, repeat true n)).
Proof.
  exists (no_lists two_paras). eexists _, _. split; [apply lreach_start, two_paras_reach|].
  split; [vm_compute; reflexivity|]. split; [vm_compute; reflexivity|]. split; [vm_compute; reflexivity|]. split; [vm_compute; reflexivity|].
  apply still. vm_compute. reflexivity.
Qed.

(** A call that fails leaves document and history alone. *)
Lemma failed_theorem s c s1 : changes c -> at_caret c -> r_step s c = Ok (s1, false) -> s1 = s.
Proof.
  assert (S : forall r, simply s r = Ok (s1, false) -> s1 = s).
  { intros r. unfold simply, perform. destruct s as [L m]. destruct (execute L r) as [[L' np]| |]; cbn [bind]; [discriminate|now intros [= <-]|easy]. }
  assert (O : forall p f, perform_over s p p f = Ok (s1, false) -> s1 = s).
  { intros p f. unfold perform_over. rewrite Nat.eqb_refl. apply S. }
  intros Hc Ha H. destruct c; cbn [changes at_caret r_step] in *; try easy; try (subst; now apply O in H); now apply S in H.
Qed.
Lemma mixed_theorem s cs s1 oks : idle (snd s) -> Forall changes cs -> r_run s cs = Ok (s1, oks) -> Forall2 (fun c ok => ok = false -> at_caret c) cs oks ->
  let n := count_occ Bool.bool_dec oks true in
  exists s2, r_run s1 (repeat RUndo n) = Ok (s2, repeat true n) /\ same_rich (fst s2) (fst s) /\ idle (snd s2).
Proof.
  intros I F E A. assert (K : exists cs', Forall changes cs' /\ length cs' = count_occ Bool.bool_dec oks true /\ r_run s cs' = Ok (s1, repeat true (length cs'))).
  { clear I. revert s oks F E A. induction cs as [|c cs IH]; intros s oks F E A; cbn [r_run] in E.
    - injection E as <- <-. exists []. easy.
    - destruct (r_step s c) as [[s' ok]| |] eqn:Es; cbn [bind] in E; try easy.
      destruct (r_run s' cs) as [[s'' oks']| |] eqn:Er; cbn [bind] in E; try easy. injection E as <- <-.
      inversion F as [|? ? Hc Fc]; subst. inversion A as [|? ? ? ? Ha Ac]; subst. destruct (IH s' oks' Fc Er Ac) as (cs' & F' & Ln & R').
      destruct ok; cbn [count_occ Bool.bool_dec].
      + exists (c :: cs'). split; [now constructor|]. split; [cbn; now rewrite Ln|]. cbn [r_run]. rewrite Es. cbn [bind]. rewrite R'. reflexivity.
      + apply failed_theorem in Es; [|easy|now apply Ha]. subst s'. exists cs'. easy. }
  destruct K as (cs' & F' & Ln & R'). cbv zeta. rewrite <- Ln. now apply (undo_all_theorem s cs').
Qed.

(** Examples. *)
Definition rich_calls : list rcall :=
  [RCreateList 0 0 Disc; RPaste 1 4 (mk_dfrag (Some [centered [49%N]; plain_fblock [50%N]]) []); RImage 0 1 a_picture 3 4;
   RBreak 3 3; RListFormat 1%N numbered_req].
Definition tame_calls : list rcall :=
  [RBlockFormat center_req 0 1; RImage 2 1 a_picture 3 4; RJoinList (hd 0%N (d_order two_paras)) 1%N;
   RListFormat 1%N numbered_req; RLeaveList (hd 0%N (d_order two_paras))].
Lemma rich_history_idle : idle rich_history.
Proof. constructor; cbn; try easy. now left. Qed.
