(** Inserting an image, in the form the property states it. *)
From Verif Require Import Base BaseFacts FormatRunsModel FormatRunsSpec FormatRunsFacts
  RopeModel RopeSpec RopeFacts DocModel DocSpec BlockFacts DocInv DocFacts DocAttr DocDelete DocBreak DocReplace
  DocImport DocFormat HistModel DocReach DocHist DocQuery DocFresh QueryModel QuerySpec QueryFacts QueryText
  PropSpec DocTheorems QueryTheorems DocRefuted ReplaceExact ImageModel ImageSpec ImageFacts.
From Coq Require Import Permutation.

Lemma splice_here k (x s : str) : splice k k x s = firstn k s ++ x ++ skipn k s.
Proof. reflexivity. Qed.

Lemma plain_firstn n its : plain (firstn n its) = firstn n (plain its).
Proof. unfold plain. symmetry. apply firstn_map. Qed.
Lemma plain_skipn n its : plain (skipn n its) = skipn n (plain its).
Proof. unfold plain. symmetry. apply skipn_map. Qed.
Lemma plain_styled_from off t R : plain (styled_from off t R) = t.
Proof. revert off; induction t as [|c t IH]; intros off; [easy|]. cbn [styled_from plain map item_char]. f_equal. apply IH. Qed.

Lemma plain_ipre R R' pre : plain (ipre R pre) = plain (ipre R' pre).
Proof.
  induction pre as [|[b t] pre IH]; [easy|]. rewrite !ipre_cons, !plain_app. unfold styled. rewrite !plain_styled_from.
  cbn [plain map item_char]. fold (plain (ipre R pre)) (plain (ipre R' pre)). now rewrite IH.
Qed.
Lemma plain_ipost R R' post : plain (ipost R post) = plain (ipost R' post).
Proof.
  induction post as [|[b t] post IH]; [easy|]. rewrite !ipost_cons. cbn [plain map item_char]. f_equal.
  fold (plain (styled t (R b) ++ ipost R post)) (plain (styled t (R' b) ++ ipost R' post)).
  rewrite !plain_app. unfold styled. now rewrite !plain_styled_from, IH.
Qed.

Lemma with_runs_multi d b R l : get_multi (with_runs d b R) l = get_multi d l.
Proof.
  induction l as [|i l IH]; [easy|]. cbn [get_multi]. rewrite IH. reflexivity.
Qed.
Lemma with_runs_export d b R : export_plain_text (with_runs d b R) = export_plain_text d.
Proof.
  unfold export_plain_text. rewrite with_runs_multi. reflexivity.
Qed.
Lemma with_runs_fresh d b R : fresh_positions (with_runs d b R) -> fresh_positions d.
Proof.
  unfold fresh_positions. change (d_order (with_runs d b R)) with (d_order d). generalize 0.
  induction (d_order d) as [|i l IH]; intros n; [easy|]. cbn [fresh_from].
  intros (x & t & H1 & H2 & H3 & H4). exists x, t. repeat split; try easy. now apply IH.
Qed.

Lemma image_theorem d its p name w h : reach d -> doc_items d = Ok its -> (0 < w)%Z -> (0 < h)%Z ->
  exists d' n i para j, nth_error (d_order d) n = Some i /\ nth_error (paragraphs its) n = Some para
   /\ j <= length para /\ clip its p = para_start n its + j
   /\ (let byte := blen (firstn j (plain para)) in
       insert_image d p p name w h = Ok (d', (p + 1)%Z, synth_element_id i byte)
       /\ d_images d' i = [mk_image byte name w h 100 cfmt_default])
   /\ (forall q, q <> i -> d_images d' q = [])
   /\ export_plain_text d' = Ok (splice (clip its p) (clip its p) [FFFC] (plain its))
   /\ block_text d' i = Ok (splice j j [FFFC] (plain para))
   /\ (forall q, In q (d_order d) -> q <> i -> block_text d' q = block_text d q)
   /\ d_order d' = d_order d /\ para_attrs d' = para_attrs d /\ (forall q, d_runs d' q = d_runs d q)
   /\ d_chars d' = (d_chars d + 1)%Z /\ d_nblocks d' = d_nblocks d
   /\ (fresh_positions d -> fresh_positions d').
Proof.
  intros Hr E Hw Hh. destruct (reach_its _ _ Hr E) as (ps & W & ->). rewrite clip_items.
  destruct (wf_loc _ _ p W) as (pre & b & t & post & i & -> & Hi & Hp).
  destruct (insert_image_full _ _ _ _ _ _ _ name w h W Hi Hp Hw Hh) as (d' & E1 & HW & R & I & O & C & B & N & A & F).
  specialize (HW [] ltac:(repeat constructor)).
  assert (Ho : d_order d = map fst pre ++ b :: map fst post) by (rewrite (wf_order _ _ W); now rewrite map_app).
  assert (Hit : nth_error (paragraphs (items_of (d_runs d) (pre ++ (b, t) :: post))) (length pre) = Some (styled t (d_runs d b))).
  { rewrite paragraphs_items by (now destruct pre). rewrite nth_error_map, nth_error_app2, Nat.sub_diag by lia. reflexivity. }
  exists d', (length pre), b, (styled t (d_runs d b)), i. rewrite plain_styled. replace (length (styled t (d_runs d b))) with (length t) by (unfold styled; now rewrite styled_length).
  split.
  { rewrite Ho, nth_error_app2, map_length, Nat.sub_diag by (rewrite map_length; lia). reflexivity. }
  split; [exact Hit|]. split; [exact Hi|]. split; [now rewrite para_start_items|].
  split; [cbv zeta; split; [exact E1|now rewrite I, N.eqb_refl]|].
  split; [intros q Hq; rewrite I; destruct (N.eqb_spec q b); congruence|].
  split.
  { rewrite <- (with_runs_export d' b []), (export_wf _ _ HW). f_equal.
    rewrite <- (plain_items (d_runs d)), Hp, splice_here, <- plain_firstn, <- plain_skipn.
    rewrite (firstn_items _ _ _ _ _ _ Hi), (skipn_items _ _ _ _ _ _ Hi), items_mid, !plain_app. unfold styled.
    rewrite !plain_styled_from. unfold ins_text. now rewrite <- !app_assoc. }
  split.
  { change (block_text d' b) with (block_text (with_runs d' b []) b). unfold block_text.
    destruct (wf_get_mid _ _ _ _ _ HW) as [x ->]. rewrite (wf_content _ _ _ _ _ HW). reflexivity. }
  split.
  { intros q Hq Hne. assert (Hq' : In q (map fst (pre ++ (b, t) :: post))) by (now rewrite (wf_order _ _ W) in Hq).
    rewrite map_app, in_app_iff in Hq'. cbn [map fst In] in Hq'.
    assert (Hu : exists u, In (q, u) (pre ++ post)).
    { destruct Hq' as [H|[H|H]]; [|congruence|]; apply in_map_iff in H; destruct H as ([q' u] & <- & H); exists u; rewrite in_app_iff; tauto. }
    destruct Hu as [u Hu]. rewrite in_app_iff in Hu.
    assert (H1 : In (q, u) (pre ++ (b, t) :: post)) by (rewrite in_app_iff; cbn [In]; tauto).
    assert (H2 : In (q, u) (pre ++ (b, ins_text t i [FFFC]) :: post)) by (rewrite in_app_iff; cbn [In]; tauto).
    change (block_text d' q) with (block_text (with_runs d' b []) q). unfold block_text.
    rewrite (wf_content_in _ _ _ _ W H1), (wf_content_in _ _ _ _ HW H2).
    destruct (wf_get _ _ q W) as (x1 & -> & _); [now apply (in_map fst) in H1|].
    destruct (wf_get _ _ q HW) as (x2 & -> & _); [now apply (in_map fst) in H2|]. reflexivity. }
  split; [exact O|]. split; [now apply para_attrs_same|]. split; [intros q; now rewrite R|].
  split; [exact C|]. split; [exact B|].
  intros Fd. apply (with_runs_fresh d' b []), (fresh_equiv _ _ HW). apply F. now apply (fresh_equiv _ _ W).
Qed.


Lemma rest_styled t R post P : forall off,
  rest_of_line (styled_from off t R ++ ipost P post) = styled_from off t R.
Proof.
  induction t as [|c t IH]; intros off; cbn [styled_from app rest_of_line].
  - destruct post as [|[b u] post]; [easy|]. now rewrite ipost_cons.
  - now rewrite IH.
Qed.


Lemma styled_eff_nth t R : forall off j, j < length t -> Forall plain_format (styled_from off t R) ->
  eff_at R (off + boff t j) = cfmt_default.
Proof.
  induction t as [|c t IH]; intros off j Hj H; [cbn in Hj; lia|]. cbn [styled_from] in H.
  inversion H as [|? ? H1 H2]; subst. destruct j as [|j].
  - rewrite boff_0, Nat.add_0_r. exact H1.
  - rewrite boff_cons, Nat.add_assoc. apply IH; [cbn in Hj; lia|exact H2].
Qed.

Lemma styled_default t R : forall off, (forall x, off <= x -> eff_at R x = cfmt_default) ->
  styled_from off t R = map (fun c => Chr c cfmt_default) t.
Proof.
  induction t as [|c t IH]; intros off H; [easy|]. cbn [styled_from map]. rewrite H by lia. f_equal.
  apply IH. intros x Hx. apply H. lia.
Qed.

Lemma image_formats_theorem d its p name w h : reach d -> doc_items d = Ok its -> (0 < w)%Z -> (0 < h)%Z ->
  Forall plain_format (rest_of_line (skipn (clip its p) its)) ->
  exists d' e, insert_image d p p name w h = Ok (d', (p + 1)%Z, e)
   /\ doc_items d' = Ok (firstn (clip its p) its ++ Chr FFFC cfmt_default :: skipn (clip its p) its).
Proof.
  intros Hr E Hw Hh. destruct (reach_its _ _ Hr E) as (ps & W & ->). rewrite clip_items.
  destruct (wf_loc _ _ p W) as (pre & b & t & post & i & -> & Hi & Hp).
  destruct (insert_image_full _ _ _ _ _ _ _ name w h W Hi Hp Hw Hh) as (d' & E1 & HW & R & I & O & _).
  specialize (HW [] ltac:(repeat constructor)). rewrite Hp, (firstn_items _ _ _ _ _ _ Hi), (skipn_items _ _ _ _ _ _ Hi).
  rewrite rest_styled. intros H.
  assert (Wr : wf_runs t (d_runs d b)).
  { apply (wf_runs_in _ _ W). rewrite in_app_iff. right. now left. }
  assert (D : forall x, boff t i <= x -> eff_at (d_runs d b) x = cfmt_default).
  { apply (default_beyond t _ i Wr Hi). intros j Hj.
    assert (Hb : boff t j = boff t i + boff (skipn i t) (j - i)).
    { rewrite (boff_between t i j) by lia. reflexivity. }
    rewrite Hb. apply styled_eff_nth; [rewrite skipn_length; lia|exact H]. }
  exists d', (synth_element_id b (boff t i)). split; [exact E1|].
  assert (G : doc_items d' = Ok (items_of (d_runs d) (pre ++ (b, ins_text t i [FFFC]) :: post))).
  { unfold doc_items. rewrite O, (wf_order _ _ W). rewrite map_app. cbn [map fst].
    change (b :: map fst post) with (map fst ((b, ins_text t i [FFFC]) :: post)). rewrite <- map_app.
    assert (C : forall q u, In (q, u) (pre ++ (b, ins_text t i [FFFC]) :: post) -> block_content (d_rs d') q = Ok u)
      by (intros q u Hq; exact (wf_content_in _ _ _ _ HW Hq)).
    revert C. generalize (pre ++ (b, ins_text t i [FFFC]) :: post). intros l. induction l as [|[q u] l IH]; intros C; [easy|].
    pose proof (C q u (or_introl eq_refl)) as Cq. specialize (IH (fun x y Hx => C x y (or_intror Hx))).
    destruct l as [|[q2 u2] l].
    - cbn [map fst read_items]. rewrite Cq. cbn [bind]. now rewrite R.
    - change (read_items d' (map fst ((q, u) :: (q2, u2) :: l)))
        with (let! t0 := block_content (d_rs d') q in
              let! more := read_items d' (map fst ((q2, u2) :: l)) in
              Ok (styled t0 (d_runs d' q) ++ Brk :: more)).
      rewrite Cq. cbn [bind]. rewrite IH, R. reflexivity. }
  rewrite G, items_mid. f_equal. unfold ins_text. rewrite <- !app_assoc. f_equal.
  unfold styled. rewrite styled_app. rewrite <- app_assoc. f_equal. cbn [app styled_from plus].
  rewrite <- boff_split, (D (boff t i)) by lia. f_equal. f_equal.
  rewrite (styled_default _ _ _ D). apply styled_default. intros x Hx. apply D. lia.
Qed.

Lemma image_error_theorem d p a name w h : reach d ->
  (insert_image d p a name w h = Err <-> p <> a \/ (w <= 0)%Z \/ (h <= 0)%Z)
  /\ insert_image d p a name w h <> Panic.
Proof.
  intros Hr. unfold insert_image at 1. destruct (reach_items _ Hr) as (ps & W & E).
  destruct (Z.eqb_spec p a) as [->|Hne]; cbn [negb].
  2:{ split; [tauto|]. unfold insert_image. rewrite (proj2 (Z.eqb_neq p a)) by easy. discriminate. }
  destruct (Z.leb_spec w 0); cbn [orb].
  { split; [tauto|]. unfold insert_image. rewrite Z.eqb_refl, (proj2 (Z.leb_le w 0)) by easy. discriminate. }
  destruct (Z.leb_spec h 0); cbn [orb].
  { split; [tauto|]. unfold insert_image. rewrite Z.eqb_refl, (proj2 (Z.leb_le h 0)) by easy. rewrite orb_true_r. discriminate. }
  destruct (wf_loc _ _ a W) as (pre & b & t & post & i & -> & Hi & Hp).
  destruct (insert_image_full _ _ _ _ _ _ _ name w h W Hi Hp H H0) as (d' & E1 & _).
  split; [|now rewrite E1].
  unfold insert_image in E1. rewrite Z.eqb_refl, (proj2 (Z.leb_gt w 0)), (proj2 (Z.leb_gt h 0)) in E1 by easy.
  cbn [negb orb] in E1. rewrite E1. split; [discriminate|lia].
Qed.

(** ** Failures *)

(** "abc" in one paragraph; the same with "bc" bold; the same all bold. *)
Definition abc : doc := import_plain_text new_document [97; 98; 99]%N.
Lemma abc_reach : reach abc. Proof. repeat constructor. Qed.
Definition bolded (d : doc) (p a : Z) : doc :=
  match set_text_format bold_req d p a with Ok (d', _) => d' | _ => d end.
Lemma bolded_reach d p a : reach d -> reach (bolded d p a).
Proof.
  intros H. unfold bolded. destruct (set_text_format bold_req d p a) as [[d' ivs]| |] eqn:E; [|easy..].
  unfold set_text_format in E. eapply reach_format; eauto.
Qed.
Definition pic : str := [112; 105; 99]%N.

Lemma image_formats_refuted_w : exists d its d' q e,
  reach d /\ doc_items d = Ok its /\ insert_image d 1 1 pic 10 20 = Ok (d', q, e)
  /\ doc_items d' <> Ok (firstn 1 its ++ Chr FFFC cfmt_default :: skipn 1 its).
Proof.
  exists (bolded abc 1 2). eexists _, _, _, _. split; [apply bolded_reach, abc_reach|].
  split; [vm_compute; reflexivity|]. split; [vm_compute; reflexivity|]. vm_compute. discriminate.
Qed.

Lemma image_panics_refuted_w : exists d d' q e i,
  reach d /\ insert_image d 0 0 pic 10 20 = Ok (d', q, e) /\ nth_error (d_order d') 0 = Some i
  /\ block_fragments d' i = Panic /\ text_at_position d' 0 1 = Panic.
Proof.
  exists (bolded abc 0 1). eexists _, _, _, _. split; [apply bolded_reach, abc_reach|].
  split; [vm_compute; reflexivity|]. split; [vm_compute; reflexivity|]. split; vm_compute; reflexivity.
Qed.

Lemma image_typing_refuted_w : exists d d' q e d2 q2,
  reach d /\ insert_image d 1 1 pic 10 20 = Ok (d', q, e) /\ q = 2%Z
  /\ export_plain_text d' = Ok [97; FFFC; 98; 99]%N
  /\ insert_text d' q q [88]%N = Ok (d2, q2) /\ export_plain_text d2 = Ok [97; 88; FFFC; 98; 99]%N.
Proof.
  exists abc. eexists _, _, _, _, _. split; [apply abc_reach|]. split; [vm_compute; reflexivity|].
  split; [reflexivity|]. split; [vm_compute; reflexivity|]. split; vm_compute; reflexivity.
Qed.

Lemma image_delete_refuted_w : exists d d' q e d2 q2 cut,
  reach d /\ insert_image d 1 1 pic 10 20 = Ok (d', q, e) /\ q = 2%Z
  /\ delete_text d' 1 2 = Ok (d2, q2, cut) /\ export_plain_text d2 = export_plain_text d'.
Proof.
  exists abc. eexists _, _, _, _, _, _. split; [apply abc_reach|]. split; [vm_compute; reflexivity|].
  split; [reflexivity|]. split; vm_compute; reflexivity.
Qed.

Lemma image_fragments_refuted_w : exists d d' q e i fs t,
  reach d /\ insert_image d 1 1 pic 10 20 = Ok (d', q, e) /\ nth_error (d_order d') 0 = Some i
  /\ block_fragments d' i = Ok fs /\ block_text d' i = Ok t
  /\ length t = 4 /\ fold_right (fun f n => frag_length f + n) 0 fs = 5.
Proof.
  exists abc. eexists _, _, _, _, _, _. split; [apply abc_reach|]. split; [vm_compute; reflexivity|].
  split; [vm_compute; reflexivity|]. split; [vm_compute; reflexivity|]. repeat split; vm_compute; reflexivity.
Qed.

Lemma image_failed_refuted_w : exists d d', reach d
  /\ cursor_insert_image d 0 2 pic 0 20 = Ok (d', None) /\ export_plain_text d' <> export_plain_text d.
Proof.
  exists abc. eexists. split; [apply abc_reach|]. split; [vm_compute; reflexivity|]. vm_compute. discriminate.
Qed.

(** The call made by a cursor. *)
Lemma cursor_image_theorem d its p a name w h : reach d -> doc_items d = Ok its -> 0 < w -> 0 < h ->
  p <= length its -> a <= length its ->
  exists d', cursor_insert_image d p a name w h = Ok (d', Some (Nat.min p a + 1))
   /\ export_plain_text d' = Ok (splice (Nat.min p a) (Nat.max p a) [FFFC] (plain its)).
Proof.
  intros Hr E Hw Hh Hp Ha. unfold cursor_insert_image.
  assert (Hc : forall its0 k, k <= length its0 -> clip its0 (Z.of_nat k) = k) by (intros its0 k Hk; unfold clip; lia).
  destruct (Nat.eqb_spec p a) as [->|Hne].
  - destruct (image_theorem d its (Z.of_nat a) name (Z.of_nat w) (Z.of_nat h) Hr E ltac:(lia) ltac:(lia))
      as (d' & n & i & para & j & _ & _ & _ & _ & [E1 _] & _ & X & _).
    rewrite E1. unfold to_usize. destruct (Z.leb_spec 0 (Z.of_nat a + 1)); [|lia]. cbn [bind].
    exists d'. split; [do 3 f_equal; lia|]. rewrite X, (Hc _ _ Ha), Nat.min_id, Nat.max_id. reflexivity.
  - destruct (delete_theorem d (Z.of_nat p) (Z.of_nat a) Hr) as (its0 & d1 & E0 & H). rewrite E in E0. injection E0 as <-.
    cbv zeta in H. destruct H as (E1 & E2 & _). rewrite E1.
    replace (Z.min (Z.of_nat p) (Z.of_nat a)) with (Z.of_nat (Nat.min p a)) in * by lia.
    replace (Z.max (Z.of_nat p) (Z.of_nat a)) with (Z.of_nat (Nat.max p a)) in * by lia.
    rewrite !Hc in * by lia.
    assert (R1 : reach d1) by (eapply reach_delete; eauto).
    unfold to_usize at 1. destruct (Z.leb_spec 0 (Z.of_nat (Nat.min p a))); [|lia]. cbn [bind]. rewrite Nat2Z.id.
    destruct (image_theorem d1 _ (Z.of_nat (Nat.min p a)) name (Z.of_nat w) (Z.of_nat h) R1 E2 ltac:(lia) ltac:(lia))
      as (d' & n & i & para & j & _ & _ & _ & _ & [E3 _] & _ & X & _).
    rewrite E3. unfold to_usize. destruct (Z.leb_spec 0 (Z.of_nat (Nat.min p a) + 1)); [|lia]. cbn [bind].
    exists d'. split; [do 3 f_equal; lia|]. rewrite X. f_equal.
    set (s := Nat.min p a) in *. set (z := Nat.max p a) in *.
    assert (Ls : length (firstn s its) = s) by (rewrite firstn_length; lia).
    assert (Hs : clip (spec_delete s z its) (Z.of_nat s) = s).
    { unfold clip, spec_delete. rewrite app_length, Ls. lia. }
    rewrite Hs. unfold splice. rewrite <- !plain_firstn, <- !plain_skipn. unfold spec_delete.
    rewrite firstn_app, skipn_app, Ls, Nat.sub_diag, firstn_O, app_nil_r. cbn [skipn].
    rewrite (firstn_all2 (firstn s its)), (skipn_all2 (firstn s its)) by lia. reflexivity.
Qed.
