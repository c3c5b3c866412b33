(** Proofs about the DOCX export. *)
From Coq Require Import Sorting.Permutation Ascii String.
From Verif Require Import Base BaseFacts FormatRunsModel FormatRunsSpec FormatRunsFacts
  RopeModel RopeSpec RopeFacts DocModel DocSpec BlockFacts DocInv DocFacts DocAttr DocDelete DocBreak DocReplace
  DocImport DocFormat HistModel HistSpec DocReach DocHist DocQuery DocFresh QueryModel QuerySpec QueryFacts QueryText
  PropSpec DocTheorems QueryTheorems ListDocModel FragmentModel FragmentText EscapeSpec ExportSpec ExportModel ExportHtml TableModel TableSpec FormatApiModel DocxModel DocxSpec.
Local Open Scope list_scope.
Local Open Scope Z_scope.

(** ** Paragraphs *)
Lemma mono_named f : is_mono f = match font_family f with Some n => named n "monospace" | None => false end.
Proof.
  unfold is_mono, named. destruct (font_family f) as [n|]; [|easy]. unfold str_eqb. now destruct (list_eq_dec _ _ _).
Qed.
Lemma run_items s : is_text s -> flat_map run_shown (docx_run s) = flat_map item_shown (seg_items s).
Proof.
  destruct s as [t f|]; [|easy]. intros _. cbn [docx_run seg_items]. destruct t as [|c t]; [easy|].
  cbn [flat_map]. rewrite app_nil_r. unfold run_shown. cbn [dr_text]. set (l := (c :: t)).
  assert (E : run_look (mk_drun l (is_on (font_bold f)) (is_on (font_italic f)) (is_on (font_underline f)) (is_on (font_strikeout f)) (is_mono f))
              = unlinked (look_of f)).
  { unfold run_look, unlinked, look_of. cbn. now rewrite mono_named. }
  rewrite E. clear E. generalize l. clear. induction l as [|x l IH]; [easy|]. cbn. now rewrite IH.
Qed.

Lemma runs_nonempty ss : Forall (fun r => dr_text r <> []) (flat_map docx_run ss).
Proof.
  induction ss as [|s ss IH]; [constructor|]. cbn [flat_map]. apply Forall_app. split; [|exact IH].
  unfold docx_run. destruct (match s with SegText t f => (t, f) | SegImage i => _ end) as [[|c t] f]; constructor; [easy|constructor].
Qed.
Lemma clamp_fits h : 1 <= h <= 6 -> clamp 1 6 h = h.
Proof. unfold clamp. lia. Qed.

Fixpoint spacings_hold (n : nat) : bool :=
  (let z := Z.of_nat n in let s := spacing z in ((s <=? z * 240 / 1000) && (z * 240 / 1000 <=? s + 1))%Z)
  && match n with O => true | S m => spacings_hold m end.
Lemma spacings_checked : spacings_hold 4000 = true.
Proof. vm_compute. reflexivity. Qed.
Lemma spacings_each n m : spacings_hold n = true -> (m <= n)%nat -> spacings_hold m = true.
Proof.
  induction n as [|n IH]; intros H Hm; [now replace m with O by lia|].
  destruct (Nat.eq_dec m (S n)) as [->|D]; [exact H|]. apply IH; [|lia]. cbn [spacings_hold] in H. now apply andb_true_iff in H.
Qed.
Lemma spacing_fits lh : 0 <= lh <= 4000 -> spacing_right lh (spacing lh).
Proof.
  intros H. pose proof (spacings_each 4000 (Z.to_nat lh) spacings_checked ltac:(lia)) as C.
  assert (C' : (let z := Z.of_nat (Z.to_nat lh) in let s := spacing z in ((s <=? z * 240 / 1000) && (z * 240 / 1000 <=? s + 1))%Z) = true).
  { destruct (Z.to_nat lh); cbn [spacings_hold] in C; apply andb_true_iff in C; apply C. }
  rewrite Z2Nat.id in C' by lia. cbv zeta in C'. apply andb_true_iff in C'. unfold spacing_right. lia.
Qed.

Lemma para_faithful d b a its : block_ok d b a its -> proper_heading a -> exists p, docx_para d b = Ok p /\ faithful p a its.
Proof.
  intros (-> & ss & E & T & <-) H. unfold docx_para, docx_runs. rewrite E. cbn [bind]. eexists. split; [reflexivity|].
  unfold faithful. cbn [dp_heading dp_spacing dp_keep dp_runs snd]. split; [|split; [|split; [|split]]].
  - unfold para_shown. cbn [dp_runs]. clear E H. induction T as [|s ss Hs _ IH]; [easy|]. cbn [flat_map]. rewrite !flat_map_app, IH. now rewrite run_items.
  - unfold proper_heading in H. cbn [snd] in H. destruct (f_heading_level (b_fmt b)) as [h|]; [|easy]. cbn. now rewrite clamp_fits.
  - easy.
  - destruct (f_line_height (b_fmt b)) as [lh|]; [|easy]. intros Hl. exists (spacing lh). split; [easy|]. now apply spacing_fits.
  - apply runs_nonempty.
Qed.
Lemma paras_faithful d bs atts its : blocks_ok d bs atts its -> Forall proper_heading atts -> forall cancelled n, (forall k, cancelled k = false) ->
  exists ps, docx_paras d cancelled n bs = Ok (Some ps) /\ all_faithful ps atts its.
Proof.
  induction 1 as [|b bs a atts p ps K B IH]; intros H cancelled n C; [exists []; split; [easy|constructor]|].
  inversion H as [|? ? H1 H2]; subst. destruct (para_faithful _ _ _ _ K H1) as (x & Ex & Fx).
  destruct (IH H2 cancelled (S n) C) as (xs & Exs & Fxs). exists (x :: xs). cbn [docx_paras]. rewrite C, Ex. cbn [bind]. rewrite Exs.
  split; [easy|]. now constructor.
Qed.

Lemma get_multi_perm d l m : Permutation l m -> Permutation (get_multi d l) (get_multi d m).
Proof.
  induction 1 as [|i l m _ IH|i j l|]; cbn [get_multi].
  - constructor.
  - destruct (get_block d i); [now constructor|exact IH].
  - destruct (get_block d i), (get_block d j); try apply perm_swap; easy.
  - now transitivity (get_multi d l').
Qed.
Lemma ascending_strictly d ps : wf d ps -> ascending_positions d -> strictly (get_multi d (d_order d)).
Proof.
  intros W H. unfold ascending_positions in H.
  assert (K : forall post pre, d_order d = pre ++ post -> strictly (get_multi d post)).
  { induction post as [|i post IH]; intros pre E; cbn [get_multi]; [easy|].
    assert (IH' : strictly (get_multi d post)) by (apply (IH (pre ++ [i])); now rewrite <- app_assoc).
    destruct (get_block d i) as [b|] eqn:Eb; [|exact IH']. split; [|exact IH'].
    rewrite Forall_forall. intros c Hc.
    assert (Hj : get_block d (b_id c) = Some c /\ In (b_id c) post).
    { clear - Hc. induction post as [|j l IHl]; cbn [get_multi] in Hc; [easy|]. destruct (get_block d j) as [y|] eqn:E.
      - destruct Hc as [<-|Hc]; [|destruct (IHl Hc); cbn; auto]. pose proof (find_block_some _ _ _ E) as [Ey _]. rewrite Ey. cbn; auto.
      - destruct (IHl Hc); cbn; auto. }
    destruct Hj as [Hj1 Hj2]. apply In_nth_error in Hj2. destruct Hj2 as [n Hn].
    apply (H (List.length pre) (S (List.length pre) + n)%nat i (b_id c) b c); [lia| | |easy|easy].
    - rewrite E, nth_error_app2, Nat.sub_diag by lia. easy.
    - rewrite E, nth_error_app2 by lia. replace (S (List.length pre) + n - List.length pre)%nat with (S n) by lia. exact Hn. }
  apply (K (d_order d) []). easy.
Qed.
Lemma docx_order d ps : wf d ps -> ascending_positions d -> sort_blocks (get_multi d (d_fblocks d)) = get_multi d (d_order d).
Proof.
  intros W H. apply weak_strict; [eapply ascending_strictly; eauto|apply sort_weakly|].
  transitivity (get_multi d (d_fblocks d)); [apply sort_perm|]. apply get_multi_perm. rewrite (wf_order _ _ W). apply (wf_fblocks _ _ W).
Qed.

Lemma attrs_some d atts atts' : para_attrs d = map Some atts -> para_attrs d = map Some atts' -> atts' = atts.
Proof.
  intros E E'. rewrite E in E'. revert atts E E'. induction atts' as [|x l IH]; intros [|y m] E E'; cbn in E'; try discriminate; [easy|].
  injection E' as -> Em. f_equal. clear - Em. revert m Em. induction l as [|x l IH]; intros [|y m]; cbn; try discriminate; [easy|]. intros [= -> Em]. f_equal. auto.
Qed.

Lemma docx_theorem d its atts : reach d -> doc_items d = Ok its -> para_attrs d = map Some atts -> Forall proper_heading atts ->
  ascending_positions d ->
  exists ps, export_docx true (fun _ => false) d = (Some ps, Ok (Z.of_nat (List.length (paragraphs its)))) /\ all_faithful ps atts (paragraphs its).
Proof.
  intros R Ei Ea Hh Hp. destruct (reach_its _ _ R Ei) as (ps & W & ->). destruct (blocks_ok_doc _ _ W) as (atts' & Ea' & B).
  rewrite (attrs_some _ _ _ Ea Ea') in B. rewrite paragraphs_items by apply (wf_ne _ _ W).
  destruct (paras_faithful _ _ _ _ B Hh (fun _ => false) 1 ltac:(easy)) as (xs & E & F). exists xs. split; [|exact F].
  unfold export_docx. rewrite (docx_order _ _ W Hp), E. do 3 f_equal. clear - F. induction F; [easy|]. cbn [List.length]. lia.
Qed.
Lemma blocks_ok_split d bs atts its : blocks_ok d bs atts its ->
  forall bs', Permutation bs bs' -> exists atts' its', blocks_ok d bs' atts' its' /\ Permutation (combine atts its) (combine atts' its')
    /\ Permutation atts atts'.
Proof.
  intros B bs' P. revert atts its B. induction P as [|b l m P IH|b c l|l m n P1 IH1 P2 IH2]; intros atts its B.
  - exists atts, its. inversion B; subst. split; [constructor|]. easy.
  - inversion B as [|? ? a at0 p ps K B']; subst. destruct (IH _ _ B') as (atts' & its' & B1 & P1 & P2).
    exists (a :: atts'), (p :: its'). split; [now constructor|]. split; [cbn; now constructor|now constructor].
  - inversion B as [|? ? a at0 p ps K B']; subst. inversion B' as [|? ? a2 at2 p2 ps2 K2 B2]; subst.
    exists (a2 :: a :: at2), (p2 :: p :: ps2). split; [constructor; [easy|]; now constructor|]. cbn. split; apply perm_swap.
  - destruct (IH1 _ _ B) as (a1 & i1 & B1 & Q1 & R1). destruct (IH2 _ _ B1) as (a2 & i2 & B2 & Q2 & R2). exists a2, i2.
    split; [easy|]. split; etransitivity; eauto.
Qed.
(** Whatever the stored positions: nothing is lost. *)
Lemma docx_all_theorem d its atts : reach d -> doc_items d = Ok its -> para_attrs d = map Some atts -> Forall proper_heading atts ->
  exists ps atts' its', export_docx true (fun _ => false) d = (Some ps, Ok (Z.of_nat (List.length (paragraphs its))))
   /\ all_faithful ps atts' its' /\ Permutation (combine atts (paragraphs its)) (combine atts' its').
Proof.
  intros R Ei Ea Hh. destruct (reach_its _ _ R Ei) as (ps & W & ->). destruct (blocks_ok_doc _ _ W) as (atts' & Ea' & B).
  rewrite (attrs_some _ _ _ Ea Ea') in B. rewrite paragraphs_items by apply (wf_ne _ _ W).
  assert (P : Permutation (get_multi d (d_order d)) (sort_blocks (get_multi d (d_fblocks d)))).
  { symmetry. transitivity (get_multi d (d_fblocks d)); [apply sort_perm|]. apply get_multi_perm. rewrite (wf_order _ _ W). apply (wf_fblocks _ _ W). }
  destruct (blocks_ok_split _ _ _ _ B _ P) as (a2 & i2 & B2 & P2 & P3).
  assert (H2 : Forall proper_heading a2) by (eapply Permutation_Forall; eauto).
  destruct (paras_faithful _ _ _ _ B2 H2 (fun _ => false) 1 ltac:(easy)) as (xs & E & F). exists xs, a2, i2. split; [|split; [exact F|exact P2]].
  unfold export_docx. rewrite E. do 3 f_equal.
  assert (L1 : List.length xs = List.length i2) by (clear - F; induction F; cbn; lia).
  assert (L2 : List.length a2 = List.length i2) by (clear - F; induction F; cbn; lia).
  assert (L3 : List.length atts = List.length (map (fun x => styled (snd x) (d_runs d (fst x))) ps)) by (clear - B; induction B; cbn; lia).
  apply Permutation_length in P2. rewrite !combine_length in P2. lia.
Qed.
(** A file is written exactly when the call succeeds, and then it is complete. *)
Lemma docx_paras_length d c : forall bs n ps, docx_paras d c n bs = Ok (Some ps) -> List.length ps = List.length bs.
Proof.
  induction bs as [|b bs IH]; intros n ps; cbn [docx_paras]; [intros H; injection H as <-; easy|].
  destruct (c n); [easy|]. destruct (docx_para d b) as [p| |]; cbn [bind]; try easy.
  destruct (docx_paras d c (S n) bs) as [[more|]| |] eqn:E; cbn; try easy. intros H. injection H as <-. cbn. f_equal. eapply IH; eauto.
Qed.
Lemma docx_paras_cancel d c : forall bs n ps, docx_paras d c n bs = Ok (Some ps) -> docx_paras d (fun _ => false) n bs = Ok (Some ps).
Proof.
  induction bs as [|b bs IH]; intros n ps; cbn [docx_paras]; [easy|].
  destruct (c n); [easy|]. destruct (docx_para d b) as [p| |]; cbn [bind]; try easy.
  destruct (docx_paras d c (S n) bs) as [[more|]| |] eqn:E; cbn; try easy. intros H. rewrite (IH _ _ E). exact H.
Qed.
Lemma docx_cancel_theorem writable cancelled d f r : export_docx writable cancelled d = (f, r) ->
  (f = None -> r = Err \/ r = Panic)
  /\ (forall ps, f = Some ps -> writable = true /\ r = Ok (Z.of_nat (List.length ps)) /\ export_docx true (fun _ => false) d = (f, r)).
Proof.
  unfold export_docx. destruct (cancelled 0%nat) eqn:C0; [intros H; injection H as <- <-; split; [now left|easy]|].
  destruct (docx_paras d cancelled 1 _) as [[ps|]| |] eqn:E; try (intros H; injection H as <- <-; split; [auto|easy]).
  destruct writable; intros H; injection H as <- <-; (split; [try easy; now left|]); [|easy].
  intros ps' H. injection H as <-. split; [easy|]. split; [easy|]. rewrite (docx_paras_cancel _ _ _ _ _ E). easy.
Qed.
