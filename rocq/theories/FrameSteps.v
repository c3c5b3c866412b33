(** Inserting a frame and typing keep the invariant. *)
From Verif Require Import Base BaseFacts FormatRunsModel FormatRunsSpec FormatRunsFacts RopeModel RopeSpec RopeFacts
  DocModel DocSpec BlockFacts DocInv DocFacts HistModel QueryModel DocDelete DocReach DocImport DocFresh ListModel ReplaceExact
  FrameModel FrameSpec FrameFacts.
From Coq Require Import Permutation.

(** ** A document without frames *)
Lemma order_blocks_plain l : order_blocks (map CBlock l) = l.
Proof. unfold order_blocks. induction l as [|i l IH]; [easy|]. cbn. now rewrite IH. Qed.
Lemma flow_plain d : g_flow (plain_doc d) = get_multi d (d_order d).
Proof.
  unfold g_flow. change (g_order (plain_doc d)) with (map CBlock (d_order d)). generalize (d_order d) at 1 2 as l.
  induction l as [|i l IH]; [easy|]. cbn [map flat_map child_blocks get_multi]. change (g_doc (plain_doc d)) with d.
  destruct (get_block d i); cbn [app]; now rewrite IH.
Qed.
Lemma plain_fwf d ps : wf d ps -> fwf (plain_doc d) ps.
Proof.
  intros W. constructor; cbn [plain_doc g_doc g_order g_subs]; try easy.
  - now rewrite order_blocks_plain, (wf_order _ _ W).
  - intros f H. apply in_map_iff in H. now destruct H as (? & ? & _).
  - rewrite flow_plain. rewrite get_multi_ids; [rewrite (wf_order _ _ W); apply (wf_nodup _ _ W)|].
    intros i Hi. rewrite (wf_order _ _ W) in Hi. eapply wf_has; eassumption.
Qed.

(** ** A new frame *)
Lemma find_sub_app x s f s' : find_sub x f = Some s' ->
  find (fun s => N.eqb (s_frame s) f) (g_subs x ++ [s]) = Some s'.
Proof. unfold find_sub. intros H. induction (g_subs x) as [|a l IH]; [easy|]. cbn [app find] in *. destruct (N.eqb (s_frame a) f); auto. Qed.
Lemma find_sub_new x s ps : fwf x ps -> s_frame s = g_nextf x ->
  find (fun y => N.eqb (s_frame y) (g_nextf x)) (g_subs x ++ [s]) = Some s.
Proof.
  intros F E. pose proof (fw_below _ _ F) as B. induction (g_subs x) as [|a l IH]; cbn [app find].
  - now rewrite E, N.eqb_refl.
  - assert (s_frame a < g_nextf x)%N by (apply B; now left). destruct (N.eqb_spec (s_frame a) (g_nextf x)); [lia|].
    apply IH. intros; apply B; now right.
Qed.

Definition new_block (x : gdoc) (p : Z) : block := mk_block (d_next (g_doc x)) p None bfmt_default.
(** The flow after the new entry is put at some place of the order. *)
Lemma flow_add x ps p o1 o2 : fwf x ps -> g_order x = o1 ++ o2 ->
  let x' := add_sub x true p (o1 ++ CFrame (g_nextf x) :: o2) (d_rs (g_doc x)) in
  g_flow x' = flat_map (child_blocks x) o1 ++ new_block x p :: flat_map (child_blocks x) o2.
Proof.
  intros F E x'.
  assert (K : forall cs, (forall c, In c cs -> In c (g_order x)) -> flat_map (child_blocks x') cs = flat_map (child_blocks x) cs).
  { induction cs as [|c cs IH]; intros H; [easy|]. cbn [flat_map]. rewrite IH by (intros; apply H; now right). f_equal.
    destruct c as [i|f]; [easy|]. cbn [child_blocks]. destruct (fw_frames _ _ F f) as [s Es]; [apply H; now left|].
    rewrite Es. unfold find_sub, x', add_sub. cbn [g_subs]. now rewrite (find_sub_app _ _ _ _ Es). }
  unfold g_flow. replace (g_order x') with (o1 ++ CFrame (g_nextf x) :: o2) by easy. rewrite flat_map_app. cbn [flat_map].
  rewrite !K by (intros c Hc; rewrite E, in_app_iff; auto). f_equal.
  assert (N1 : find_sub x' (g_nextf x) = Some (mk_sub (g_nextf x) true (new_block x p))).
  { unfold find_sub, x', add_sub. cbn [g_subs]. now apply (find_sub_new _ _ _ F). }
  unfold child_blocks at 1. now rewrite N1.
Qed.

Lemma next_out x ps : fwf x ps -> ~ In (d_next (g_doc x)) (map b_id (g_flow x)) /\ ~ In (d_next (g_doc x)) (map fst ps).
Proof.
  intros F. assert (H : ~ In (d_next (g_doc x)) (map fst ps)).
  { intros H. apply (wf_next _ _ (fw_wf _ _ F)) in H. lia. }
  split; [|exact H]. intros K. apply in_map_iff in K. destruct K as (b & Eb & K). destruct (flow_in _ _ _ F K) as [[L _]|[_ (s & L & Hs)]].
  - rewrite Eb in L. tauto.
  - apply (fw_out _ _ F) in L. rewrite Hs in L. lia.
Qed.

Lemma add_fwf x ps p o1 o2 : fwf x ps -> g_order x = o1 ++ o2 ->
  fwf (add_sub x true p (o1 ++ CFrame (g_nextf x) :: o2) (d_rs (g_doc x))) ps.
Proof.
  intros F E. pose proof (fw_wf _ _ F) as W. destruct (next_out _ _ F) as [N1 N2]. constructor.
  - unfold add_sub. destruct W; constructor; cbn; auto. intros b Hb. apply wf_next in Hb. lia.
  - rewrite <- (fw_blocks _ _ F). cbn [add_sub g_order]. unfold order_blocks. now rewrite E, !flat_map_app.
  - intros f Hf. unfold find_sub. cbn [add_sub g_subs g_order] in *. rewrite in_app_iff in Hf. cbn [In] in Hf.
    destruct (N.eq_dec f (g_nextf x)) as [->|Hn]; [eexists; now apply (find_sub_new _ _ _ F)|].
    destruct (fw_frames _ _ F f) as [s Es]; [rewrite E, in_app_iff; destruct Hf as [|[[=]|]]; subst; tauto|].
    exists s. now apply find_sub_app.
  - intros s Hs. cbn [add_sub g_subs g_nextf] in *. apply in_app_iff in Hs. destruct Hs as [Hs|[<-|[]]].
    + apply (fw_below _ _ F) in Hs. lia.
    + cbn. lia.
  - intros s Hs. cbn [add_sub g_subs g_doc d_next] in *. apply in_app_iff in Hs. destruct Hs as [Hs|[<-|[]]].
    + apply (fw_out _ _ F) in Hs. split; [tauto|lia].
    + cbn. split; [exact N2|lia].
  - rewrite (flow_add _ _ p o1 o2 F E). rewrite map_app. cbn [map new_block b_id].
    pose proof (fw_nodup _ _ F) as ND. unfold g_flow in ND, N1. rewrite E, flat_map_app, map_app in ND, N1.
    now apply NoDup_Add with (l := map b_id (flat_map (child_blocks x) o1) ++ map b_id (flat_map (child_blocks x) o2)) (a := d_next (g_doc x));
      [apply Add_app|].
Qed.

(** ** The frame the position is in *)
Lemma g_len_any x ps b : fwf x ps -> g_len x b = Ok (Z.of_nat (length (text_in ps (b_id b)))).
Proof. intros F. apply (content_any _ _ _ (fw_wf _ _ F)). Qed.
Lemma closest_ok x ps p bs : fwf x ps -> forall k last, exists n, closest x bs k last p = Ok n.
Proof.
  intros F. induction bs as [|b bs IH]; intros k last; cbn [closest]; [eauto|]. rewrite (g_len_any _ _ _ F). cbn [bind].
  destruct (_ <=? _)%Z; eauto.
Qed.
Lemma frame_hit_ok x ps bs p : fwf x ps -> exists h, frame_hit x bs p = Ok h.
Proof.
  intros F. unfold frame_hit. destruct (sort_blocks bs) as [|b l]; [eauto|]. destruct (rev (b :: l)) as [|z r]; [eauto|].
  rewrite (g_len_any _ _ _ F). cbn [bind]. destruct (_ && _)%bool; [|eauto].
  destruct (closest_ok _ _ p (b :: l) F 0 0) as [n ->]. cbn [bind]. eauto.
Qed.
Lemma subs_hit_ok x ps p : fwf x ps -> forall ss, exists h, subs_hit x ss p = Ok h.
Proof.
  intros F. induction ss as [|s ss IH]; cbn [subs_hit]; [eauto|]. destruct (frame_hit_ok _ _ [s_block s] p F) as [[k|] ->]; cbn [bind]; eauto.
Qed.
Lemma insert_frame_ok x ps p : fwf x ps -> exists r, insert_frame x p = Ok r.
Proof.
  intros F. unfold insert_frame. destruct (frame_hit_ok _ _ (get_multi (g_doc x) (d_fblocks (g_doc x))) p F) as [[k|] ->]; cbn [bind].
  - unfold vec_insert. assert (E : Nat.min (S k) (length (g_order x)) <=? length (g_order x) = true) by lia. rewrite E. cbn [bind]. eauto.
  - destruct (subs_hit_ok _ _ p F (g_subs x)) as [[f|] ->]; cbn [bind]; eauto.
Qed.
Lemma insert_frame_main x p x' : insert_frame x p = Ok (InMain x') ->
  exists o1 o2, g_order x = o1 ++ o2 /\ x' = add_sub x true p (o1 ++ CFrame (g_nextf x) :: o2) (d_rs (g_doc x)).
Proof.
  unfold insert_frame. destruct (frame_hit _ _ _) as [[k|]| |]; cbn [bind]; [| |easy|easy].
  - unfold vec_insert. destruct (_ <=? _); [|easy]. cbn [bind]. intros [= <-]. do 2 eexists. split; [|reflexivity]. now rewrite firstn_skipn.
  - destruct (subs_hit _ _ _) as [[f|]| |]; cbn [bind]; easy.
Qed.

(** ** Typing *)
Lemma shift_id b m y : b_id (g_shift b m y) = b_id y.
Proof. unfold g_shift. now destruct (_ && _)%bool. Qed.
Lemma map_shift_ids b m l : map b_id (map (g_shift b m) l) = map b_id l.
Proof. rewrite map_map. apply map_ext. intros; apply shift_id. Qed.

Lemma flow_shift x x' b m : d_blocks (g_doc x') = map (g_shift b m) (d_blocks (g_doc x)) ->
  g_order x' = g_order x -> g_subs x' = map (on_block (g_shift b m)) (g_subs x) ->
  g_flow x' = map (g_shift b m) (g_flow x).
Proof.
  intros E1 E2 E3. unfold g_flow. rewrite E2. clear E2. induction (g_order x) as [|c cs IH]; [easy|]. cbn [flat_map]. rewrite IH, map_app. f_equal.
  destruct c as [i|f]; cbn [child_blocks].
  - unfold get_block. rewrite E1, (find_shift (g_shift b m)) by (intros; apply shift_id). now destruct (find_block (d_blocks (g_doc x)) i).
  - unfold find_sub. rewrite E3. clear. induction (g_subs x) as [|s l IH]; [easy|]. cbn [map find on_block s_frame].
    destruct (N.eqb (s_frame s) f); [easy|]. exact IH.
Qed.

Lemma view_shift ps b m l : view ps (map (g_shift b m) l) = view ps l.
Proof. unfold view. rewrite map_map. apply map_ext. intros y. now rewrite shift_id. Qed.

Lemma text_in_mid pre i t post j : NoDup (map fst (pre ++ (i, t) :: post)) -> forall t',
  text_in (pre ++ (i, t') :: post) j = if N.eqb j i then t' else text_in (pre ++ (i, t) :: post) j.
Proof.
  intros ND t'. unfold text_in. induction pre as [|[k u] pre IH]; cbn [app find fst] in *.
  - rewrite (N.eqb_sym j i). now destruct (N.eqb_spec i j).
  - cbn [map fst] in ND. inversion ND as [|? ? H1 H2]; subst. destruct (N.eqb_spec k j) as [->|Hk]; [|now apply IH].
    destruct (N.eqb_spec j i) as [->|]; [|easy]. exfalso. apply H1. rewrite map_app, in_app_iff. right. now left.
Qed.
Lemma view_edit pre i t post b1 b b2 t' : NoDup (map fst (pre ++ (i, t) :: post)) -> b_id b = i ->
  NoDup (map b_id (b1 ++ b :: b2)) ->
  view (pre ++ (i, t') :: post) (b1 ++ b :: b2)
  = view (pre ++ (i, t) :: post) b1 ++ (i, t') :: view (pre ++ (i, t) :: post) b2.
Proof.
  intros ND Hb N2. rewrite view_app. cbn [view map]. rewrite Hb. rewrite (text_in_mid pre i t post i ND t'), N.eqb_refl.
  rewrite map_app in N2. cbn [map] in N2. rewrite Hb in N2. apply NoDup_remove_2 in N2. rewrite in_app_iff in N2.
  f_equal; [|f_equal]; apply map_ext_in; intros y Hy; rewrite (text_in_mid pre i t post (b_id y) ND t');
    (destruct (N.eqb_spec (b_id y) i) as [E|E]; [|easy]); exfalso; apply N2; rewrite <- E; [left|right]; now apply in_map.
Qed.

(** Typing, everything about it. *)
Lemma type_full x ps p text : fwf x ps ->
  exists x' np b1 b b2 o ps' q,
   g_insert_text x (Z.of_nat p) text = Ok (x', np)
   /\ g_flow x = b1 ++ b :: b2 /\ o <= length (text_in ps (b_id b))
   /\ inside (view ps (g_flow x)) p = before (view ps b1) + o
   /\ np = Z.of_nat (before (view ps b1) + o + length text)
   /\ fwf x' ps'
   /\ view ps' (g_flow x') = view ps b1 ++ (b_id b, if in_dec N.eq_dec (b_id b) (map fst ps) then ins_text (text_in ps (b_id b)) o text else []) :: view ps b2
   /\ items_of (d_runs (g_doc x')) ps' = (if in_dec N.eq_dec (b_id b) (map fst ps) then spec_insert q text (items_of (d_runs (g_doc x)) ps) else items_of (d_runs (g_doc x)) ps)
   /\ g_order x' = g_order x /\ map s_frame (g_subs x') = map s_frame (g_subs x) /\ frame_paras x' = frame_paras x
   /\ d_order (g_doc x') = d_order (g_doc x) /\ d_fblocks (g_doc x') = d_fblocks (g_doc x)
   /\ g_chars x' = (g_chars x + Z.of_nat (length text))%Z /\ g_nblocks x' = g_nblocks x
   /\ (d_blocks (g_doc x') = d_blocks (g_doc x) \/ exists y m, d_blocks (g_doc x') = map (g_shift y m) (d_blocks (g_doc x)) /\ (0 <= m)%Z
        /\ (In (b_id y) (map fst ps) -> get_block (g_doc x) (b_id y) = Some y)).
Proof.
  intros F. pose proof (fw_wf _ _ F) as W. pose proof (wf_nodup _ _ W) as NP. pose proof (fw_nodup _ _ F) as NF.
  unfold g_insert_text. destruct (g_subs x) as [|s0 ss] eqn:Es.
  - (* no frames *)
    destruct (g_find_spec x ps W p (g_flow x) (flow_ne _ _ F) 0) as (b1 & b & b2 & o & E1 & E2 & E3 & _ & _); [lia|].
    rewrite Nat.sub_0_r in E3. cbn [Nat.add] in E3.
    assert (Ev : view ps (g_flow x) = ps).
    { assert (Ei : map b_id (g_flow x) = map fst ps).
      { rewrite <- (fw_blocks _ _ F). pose proof (fw_frames _ _ F) as K. unfold find_sub in K. rewrite Es in K.
        assert (Hh : forall i, In i (order_blocks (g_order x)) -> exists y, get_block (g_doc x) i = Some y /\ b_id y = i).
        { intros i Hi. rewrite (fw_blocks _ _ F) in Hi. destruct (wf_get _ _ _ W Hi) as (y & Ey & Hy). eauto. }
        unfold g_flow. revert K Hh. generalize (g_order x) as cs. induction cs as [|c cs IH]; intros K Hh; [easy|].
        cbn [flat_map order_blocks]. rewrite map_app, IH; [|intros; apply K; now right|intros; apply Hh; cbn [order_blocks flat_map]; apply in_app_iff; now right].
        destruct c as [i|f].
        - cbn [child_blocks]. destruct (Hh i) as (y & Ey & Hy); [now left|]. rewrite Ey. cbn. now rewrite Hy.
        - destruct (K f) as [s K']; [now left|]. discriminate. }
      clear - Ei NP. revert Ei NP. unfold view.
      assert (G : forall l qs, map b_id l = map fst qs -> (forall q, In q qs -> In q ps) -> NoDup (map fst ps) -> map (fun b => (b_id b, text_in ps (b_id b))) l = qs).
      { induction l as [|y l IH]; intros [|[i t] qs] E H ND; try easy. cbn [map fst] in *. injection E as -> E. f_equal.
        - f_equal. apply text_in_in; [easy|]. apply H. now left.
        - apply IH; auto. intros; apply H; now right. }
      intros Ei NP. apply G; auto. }
    rewrite Ev in E3.
    assert (Hb : ps = view ps b1 ++ (b_id b, text_in ps (b_id b)) :: view ps b2).
    { rewrite <- Ev at 1. rewrite E1, view_app. reflexivity. }
    set (pre := view ps b1) in *. set (post := view ps b2) in *. set (t := text_in ps (b_id b)) in *.
    assert (Hin : In (b_id b) (map fst ps)) by (rewrite Hb, map_app, in_app_iff; right; now left).
    assert (Hc : clipz (ctotal ps) (Z.of_nat p) = cpre pre + o).
    { assert (Eb : forall l : list para, cpre l = before l).
      { induction l as [|[i u] l IH]; [easy|]. rewrite cpre_cons, before_cons, IH. cbn [snd]. lia. }
      assert (Et : ctotal ps = before ps - 1).
      { rewrite Hb. rewrite ctotal_mid, before_app, before_cons, !Eb. cbn [snd]. lia. }
      rewrite Eb, <- E3, Et. unfold clipz, inside. lia. }
    rewrite Hb in W, Hc.
    destruct (insert_simple_full _ pre (b_id b) t post o (Z.of_nat p) text W E2 Hc) as (d' & y & Gy & T & W' & I' & B1 & B2 & B3 & B4 & B5 & B6 & B7).
    rewrite T. cbn [bind]. set (x' := mk_gdoc d' (g_order x) [] (g_nextf x)).
    exists x'. eexists. exists b1, b, b2, o, (pre ++ (b_id b, ins_text t o text) :: post), (cpre pre + o).
    assert (Efl : g_flow x' = g_flow x).
    { unfold g_flow, x'. cbn [g_order]. apply flat_map_ext. intros [i|f]; cbn [child_blocks g_doc].
      - unfold get_block. now rewrite B1.
      - unfold find_sub. cbn [g_subs]. now rewrite Es. }
    split; [reflexivity|]. split; [exact E1|]. split; [exact E2|]. split; [now rewrite Ev|].
    split; [assert (Eb : forall l : list para, cpre l = before l) by (induction l as [|[i u] l IH]; [easy|]; rewrite cpre_cons, before_cons, IH; cbn [snd]; lia); now rewrite Eb|].
    split.
    { constructor; cbn [g_doc g_order g_subs x']; auto.
      - rewrite (fw_blocks _ _ F), Hb, !map_app. reflexivity.
      - intros f Hf. destruct (fw_frames _ _ F f Hf) as [s K]. unfold find_sub in K. now rewrite Es in K.
      - easy.
      - easy.
      - change (NoDup (map b_id (g_flow x'))). now rewrite Efl. }
    split.
    { rewrite Efl, E1. rewrite Hb in NP. rewrite (view_edit pre (b_id b) t post b1 b b2 _ NP); [|easy|now rewrite <- E1].
      rewrite <- Hb. fold pre post. destruct (in_dec N.eq_dec (b_id b) (map fst ps)); [easy|tauto]. }
    split; [destruct (in_dec N.eq_dec (b_id b) (map fst ps)); [|tauto]; cbn [g_doc x']; rewrite I'; now rewrite <- Hb|].
    split; [easy|]. unfold frame_paras. rewrite !Es. cbn [g_subs x' map]. do 2 (split; [easy|]).
    split; [exact B5|]. split; [exact B6|]. split; [exact B2|]. split; [exact B3|]. left. exact B1.
  - (* the walk *)
    destruct (g_find_spec x ps W p (g_flow x) (flow_ne _ _ F) 0) as (b1 & b & b2 & o & E1 & E2 & E3 & E4 & E5); [lia|].
    rewrite Nat.sub_0_r in E3. cbn [Nat.add] in E3, E4, E5. change (Z.of_nat 0) with 0%Z in E4. rewrite E4. cbn [bind].
    rewrite (g_len_any _ _ _ F). cbn [bind]. rewrite E5, Nat2Z.id. set (t := text_in ps (b_id b)) in *.
    rewrite (proj1 (content_any _ _ (b_id b) W)). cbn [bind]. fold t. rewrite (wf_images _ _ W), lob_nil, slice_0_boff. cbn [bind].
    assert (Hgb : In b (g_flow x)) by (rewrite E1, in_app_iff; right; now left).
    assert (exists d2 ps' q, insert_bytes (g_doc x) (b_id b) (boff t o) text = Ok d2 /\ wf d2 ps'
      /\ map fst ps' = map fst ps
      /\ (view ps' (g_flow x) = view ps b1 ++ (b_id b, if in_dec N.eq_dec (b_id b) (map fst ps) then ins_text t o text else []) :: view ps b2)
      /\ items_of (d_runs d2) ps' = (if in_dec N.eq_dec (b_id b) (map fst ps) then spec_insert q text (items_of (d_runs (g_doc x)) ps) else items_of (d_runs (g_doc x)) ps)
      /\ d_blocks d2 = d_blocks (g_doc x) /\ d_nblocks d2 = d_nblocks (g_doc x) /\ d_next d2 = d_next (g_doc x)
      /\ d_order d2 = d_order (g_doc x) /\ d_fblocks d2 = d_fblocks (g_doc x)) as (d2 & ps' & q & D1 & D2 & D3 & D4 & D5 & D6 & D7 & D8 & D9 & D10).
    { destruct (in_dec N.eq_dec (b_id b) (map fst ps)) as [Hin|Hout].
      - apply in_map_iff in Hin. destruct Hin as ([i u] & Hi & Hin). cbn [fst] in Hi. subst i.
        assert (Hu : t = u) by (apply text_in_in; easy). rewrite <- Hu in Hin.
        apply in_split in Hin. destruct Hin as (pre & post & Hps). rewrite Hps in W, NP.
        destruct (insert_bytes_wf _ _ _ _ _ _ text W E2) as (d2 & A1 & A2 & A3 & A4 & _ & A6 & A7 & A8 & A9 & _).
        exists d2, (pre ++ (b_id b, ins_text t o text) :: post), (cpre pre + o).
        split; [exact A1|]. split; [exact A2|]. split; [rewrite Hps, !map_app; reflexivity|].
        split; [rewrite E1; rewrite (view_edit pre (b_id b) t post b1 b b2 _ NP); [now rewrite <- Hps|easy|now rewrite <- E1]|].
        split; [rewrite A3; now rewrite Hps|]. repeat split; assumption.
      - assert (Ht : t = []) by (apply text_in_out; easy). rewrite Ht in *. cbn [length] in E2. assert (o = 0) as -> by lia.
        destruct (out_insert _ _ _ text W Hout) as (d2 & A1 & A2 & A3 & A4 & A5 & A6 & A7 & A8 & A9 & A10).
        exists d2, ps, 0. split; [exact A1|]. split; [exact A2|]. split; [easy|].
        split; [rewrite E1, view_app; cbn [view map]; do 2 f_equal; now rewrite <- Ht|].
        split; [|repeat split; assumption]. apply items_ext. intros; apply A10. }
    rewrite D1. cbn [bind]. set (m := Z.of_nat (length text)).
    match goal with |- context [Ok (?g, _)] => set (x' := g) end.
    exists x'. eexists. exists b1, b, b2, o, ps', q.
    assert (Efl : g_flow x' = map (g_shift b m) (g_flow x)).
    { apply flow_shift; [cbn; now rewrite D6|easy|cbn [g_subs x']; now rewrite Es]. }
    split; [reflexivity|]. split; [exact E1|]. split; [exact E2|]. split; [exact E3|].
    split; [unfold m; lia|]. split.
    { constructor.
      - eapply wf_meta; [exact D2|]. constructor; try easy. cbn. apply map_shift_ids.
      - cbn [g_order x']. now rewrite D3, (fw_blocks _ _ F).
      - intros f Hf. destruct (fw_frames _ _ F f Hf) as [s K]. unfold find_sub in *. rewrite Es in K. cbn [g_subs x'].
        clear - K. induction (s0 :: ss) as [|a l IH]; [easy|]. cbn [map find on_block s_frame] in *. destruct (N.eqb (s_frame a) f); eauto.
      - intros s Hs. cbn [g_subs g_nextf x'] in *. apply in_map_iff in Hs. destruct Hs as (s' & <- & Hs). cbn [on_block s_frame]. apply (fw_below _ _ F). now rewrite Es.
      - intros s Hs. cbn [g_subs g_doc x'] in *. apply in_map_iff in Hs. destruct Hs as (s' & <- & Hs). cbn [on_block s_block]. rewrite shift_id, D3. cbn. rewrite D8.
        apply (fw_out _ _ F). now rewrite Es.
      - rewrite Efl, map_shift_ids. exact NF. }
    split; [rewrite Efl, view_shift; exact D4|]. split; [exact D5|]. split; [easy|].
    split; [cbn [g_subs x']; rewrite map_map; reflexivity|].
    split; [unfold frame_paras; cbn [g_subs x']; rewrite map_map, Es; apply map_ext; intros a; cbn [on_block s_block]; apply shift_id|].
    split; [exact D9|]. split; [exact D10|]. split; [easy|]. split; [exact D7|].
    right. exists b, m. split; [cbn; now rewrite D6|]. split; [unfold m; lia|].
    intros Hin. destruct (flow_in _ _ _ F Hgb) as [[_ K]|[K _]]; [exact K|tauto].
Qed.

Lemma framed_fwf x : framed x -> exists ps, fwf x ps.
Proof.
  induction 1 as [d R|x p x' _ [ps F] E|x p text x' np _ [ps F] E].
  - destruct (reach_wf _ R) as [ps W]. exists ps. now apply plain_fwf.
  - destruct (insert_frame_main _ _ _ E) as (o1 & o2 & Eo & ->). exists ps. now apply add_fwf.
  - destruct (type_full _ _ p text F) as (x2 & np2 & b1 & b & b2 & o & ps' & q & T & _ & _ & _ & _ & F' & _). rewrite T in E. injection E as <- <-. eauto.
Qed.
