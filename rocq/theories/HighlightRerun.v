(** Proofs about highlighting again after an edit. *)
From Verif Require Import Base BaseFacts FormatRunsModel FormatRunsSpec RopeModel DocModel DocSpec BlockFacts DocInv DocFacts
  DocAttr DocDelete DocFormat DocQuery HistModel HistSpec DocReach DocHist DocIds QueryModel QueryText HighlightModel HighlightSpec.

Section Highlighter.
Context {U : Type} (h : highlighter U).

(** ** One paragraph *)

Lemma highlight_one_ok t b prev u :
  exists u', highlight_one h t b prev u = mk_hdata (asked_spans (h t b prev u)) (asked_state (h t b prev u)) u'.
Proof.
  unfold highlight_one. induction (h t b prev u) as [|c cs IH] using rev_ind; [now exists u|].
  destruct IH as [u' IH]. rewrite fold_left_app, IH. unfold asked_spans, asked_state.
  rewrite flat_map_app, rev_app_distr. cbn [rev app flat_map fold_left do_call hd_spans hd_state hd_user].
  destruct c as [s [|n] f|z|v]; cbn; rewrite ?app_nil_r; eauto.
Qed.

Lemma texts_same d is_ : with_texts d is_ = texts_of d is_.
Proof. induction is_ as [|i is_ IH]; [easy|]. cbn. now rewrite IH. Qed.
Lemma texts_wf d ps : wf d ps -> forall l, (forall x, In x l -> In x ps) -> texts_of d (map fst l) = Ok l.
Proof.
  intros W. induction l as [|[b t] l IH]; intros H; [easy|]. cbn [map fst texts_of].
  rewrite (wf_content_in _ _ _ _ W (H _ (or_introl eq_refl))). cbn [bind].
  rewrite IH by (intros; apply H; now right). reflexivity.
Qed.
Lemma doc_texts_wf d ps : wf d ps -> doc_texts d = Ok ps.
Proof. intros W. unfold doc_texts. rewrite (wf_order _ _ W). now apply (texts_wf _ _ W). Qed.
Lemma ordered_wf d ps : wf d ps -> ordered_block_ids d = Ok ps.
Proof.
  intros W. unfold ordered_block_ids. destruct (blocks_sorted_wf _ _ W) as (bs & -> & E). cbn [bind].
  rewrite E, texts_same. now apply (texts_wf _ _ W).
Qed.

(** ** Chains *)

Lemma top_ext m m' l : (forall b, In b (map fst l) -> m' b = m b) ->
  forall p, from_the_top h m p l -> from_the_top h m' p l.
Proof.
  induction l as [|[b t] l IH]; intros H p; [easy|]. cbn [from_the_top]. intros [(u & E) R]. split.
  - exists u. rewrite H by now left. exact E.
  - apply IH; [|easy]. intros c Hc. apply H. now right.
Qed.

Fixpoint end_state (p : Z) (l : list para) : Z :=
  match l with [] => p | (b, t) :: rest => end_state (asked_state (h t b p None)) rest end.
Lemma top_app m p a b : from_the_top h m p (a ++ b) <-> from_the_top h m p a /\ from_the_top h m (end_state p a) b.
Proof.
  revert p; induction a as [|[c t] a IH]; intros p; cbn [app from_the_top end_state]; [tauto|]. rewrite IH. tauto.
Qed.

Fixpoint last_id (q : option id) (l : list para) : option id :=
  match l with [] => q | (b, _) :: rest => last_id (Some b) rest end.
Definition prev_state (m : hmap U) (q : option id) : Z := match q with None => (-1)%Z | Some b => state_in m b end.
Lemma last_state m l : forall q p, from_the_top h m p l -> prev_state m q = p -> prev_state m (last_id q l) = end_state p l.
Proof.
  induction l as [|[b t] l IH]; intros q p H Hq; [exact Hq|]. cbn [last_id end_state]. destruct H as [(u & E) R].
  apply IH; [exact R|]. cbn. unfold state_in. now rewrite E.
Qed.
Lemma last_id_in q l b : last_id q l = Some b -> q = Some b \/ In b (map fst l).
Proof.
  revert q; induction l as [|[c t] l IH]; intros q; cbn; [now left|]. intros H. destruct (IH _ H) as [[= ->]|]; auto.
Qed.

Lemma hput_same (m : hmap U) b (x : hdata U) : hput m b x b = Some x.
Proof. unfold hput. now rewrite N.eqb_refl. Qed.
Lemma hput_other (m : hmap U) b (x : hdata U) i : i <> b -> hput m b x i = m i.
Proof. intros H. unfold hput. now destruct (N.eqb_spec i b). Qed.

Lemma all_go_ok l : forall m p, NoDup (map fst l) ->
  from_the_top h (all_go h m p l) p l /\ (forall i, ~ In i (map fst l) -> all_go h m p l i = m i).
Proof.
  induction l as [|[b t] l IH]; intros m p ND; cbn [all_go map fst from_the_top]; [now split|].
  inversion ND as [|? ? H1 H2]; subst. destruct (highlight_one_ok t b p None) as [u E].
  destruct (IH (hput m b (highlight_one h t b p None)) (hd_state (highlight_one h t b p None)) H2) as [A B].
  split; [split|].
  - exists u. rewrite B by easy. now rewrite hput_same, E.
  - rewrite E in *. exact A.
  - intros i Hi. rewrite B by (intros X; apply Hi; now right). apply hput_other. intros ->. apply Hi. now left.
Qed.

Lemma from_go_outside l : forall (m : hmap U) q (first : bool) i, ~ In i (map fst l) -> from_go h m q first l i = m i.
Proof.
  induction l as [|[b t] l IH]; intros m q first i H; cbn [from_go]; [easy|].
  destruct (_ && _); rewrite ?IH by (intros X; apply H; now right); apply hput_other; intros ->; apply H; now left.
Qed.

Lemma from_go_ok : steady h -> forall (fresh old : list para) (m : hmap U) q (first : bool) p0 p,
  NoDup (map fst (fresh ++ old)) ->
  (forall b, q = Some b -> ~ In b (map fst (fresh ++ old))) ->
  prev_state m q = p ->
  from_the_top h m p0 old ->
  (forall b t, In (b, t) (if first then tl fresh else fresh) -> m b = None /\ marks h) ->
  from_the_top h (from_go h m q first (fresh ++ old)) p (fresh ++ old).
Proof.
  intros St. induction fresh as [|[b t] fresh IH]; intros old.
  - cbn [app]. induction old as [|[b t] old IH]; intros m q first p0 p ND Hq Hp Hold Hf; [easy|].
    cbn [map fst] in ND. inversion ND as [|? ? N1 N2]; subst. destruct Hold as [(u0 & E0) Hold].
    cbn [from_go from_the_top]. rewrite E0. cbn [hd_user]. fold (prev_state m q).
    destruct (highlight_one_ok t b (prev_state m q) u0) as [u1 E1]. rewrite E1. cbn [hd_state].
    destruct (St t b (prev_state m q) u0) as [S1 S2]. rewrite S1, S2 in *.
    set (x := mk_hdata _ _ u1). set (m' := hput m b x).
    assert (Ext : forall c, In c (map fst old) -> m' c = m c) by (intros c Hc; apply hput_other; congruence).
    pose proof (top_ext m m' old Ext _ Hold) as Hold'.
    assert (Go : from_the_top h (from_go h m' (Some b) false old) (asked_state (h t b (prev_state m q) None)) old).
    { apply (IH m' (Some b) false (asked_state (h t b p0 None))); [exact N2| | |exact Hold'|easy].
      - intros c [= <-]. exact N1.
      - cbn. unfold state_in, m'. now rewrite hput_same. }
    destruct (negb first && _) eqn:Ec; (split; [exists u1|]).
    + unfold m'. now rewrite hput_same.
    + apply andb_prop in Ec. destruct Ec as [_ Ec]. apply Z.eqb_eq in Ec. unfold state_in in Ec. rewrite E0 in Ec. cbn in Ec.
      rewrite Ec. exact Hold'.
    + rewrite from_go_outside by easy. unfold m'. now rewrite hput_same.
    + exact Go.
  - intros m q first p0 p ND Hq Hp Hold Hf. cbn [app map fst] in ND. inversion ND as [|? ? N1 N2]; subst.
    cbn [app from_go from_the_top]. fold (prev_state m q).
    set (u0 := match m b with Some x => hd_user x | None => None end).
    destruct (highlight_one_ok t b (prev_state m q) u0) as [u1 E1]. rewrite E1. cbn [hd_state].
    destruct (St t b (prev_state m q) u0) as [S1 S2]. rewrite S1, S2 in *.
    set (x := mk_hdata _ _ u1). set (m' := hput m b x).
    assert (Ext : forall c, In c (map fst (fresh ++ old)) -> m' c = m c) by (intros c Hc; apply hput_other; congruence).
    assert (Go : from_the_top h (from_go h m' (Some b) false (fresh ++ old)) (asked_state (h t b (prev_state m q) None)) (fresh ++ old)).
    { eapply IH; eauto.
      - intros c [= <-]. exact N1.
      - cbn. unfold state_in, m'. now rewrite hput_same.
      - eapply top_ext; [|exact Hold]. intros c Hc. apply Ext. rewrite map_app. apply in_or_app. now right.
      - intros c v Hc. rewrite Ext by (rewrite map_app; apply in_or_app; left; apply in_map_iff; now exists (c, v)).
        destruct first; apply (Hf c v); [exact Hc|now right]. }
    assert (Ec : negb first && (asked_state (h t b (prev_state m q) None) =? state_in m b)%Z = false).
    { destruct first; [easy|]. destruct (Hf b t (or_introl eq_refl)) as [Hn Hm]. unfold state_in. rewrite Hn.
      apply andb_false_iff. right. apply Z.eqb_neq, Hm. }
    rewrite Ec. split; [exists u1|exact Go].
    rewrite from_go_outside by easy. unfold m'. now rewrite hput_same.
Qed.

Lemma nodup_sides {A} (a b : list A) : NoDup (a ++ b) -> NoDup b /\ forall x, In x a -> In x b -> False.
Proof.
  induction a as [|x a IH]; cbn; [now split|]. intros H. inversion H as [|? ? H1 H2]; subst. destruct (IH H2) as [A1 A2].
  split; [easy|]. intros y [<-|Hy] Hb; [apply H1, in_or_app; now right|eauto].
Qed.

(** ** Finding the paragraph *)

Lemma from_block_mid pre b t rest q : ~ In b (map fst pre) ->
  from_block b q (pre ++ (b, t) :: rest) = Some (last_id q pre, (b, t) :: rest).
Proof.
  revert q; induction pre as [|[c u] pre IH]; intros q H; cbn [app from_block last_id].
  - now rewrite N.eqb_refl.
  - destruct (N.eqb_spec c b) as [->|Hc]; [destruct H; now left|]. apply IH. intros X. apply H. now right.
Qed.
Lemma from_block_none b l : forall q, ~ In b (map fst l) -> from_block b q l = None.
Proof.
  induction l as [|[c u] l IH]; intros q H; [easy|]. cbn. destruct (N.eqb_spec c b) as [->|]; [destruct H; now left|].
  apply IH. intros X. apply H. now right.
Qed.

Lemma target_later d ps P : wf d ps -> forall l rest,
  (forall c v, In (c, v) l -> exists p1 p2, ps = p1 ++ (c, v) :: p2 /\ P < cpre p1) ->
  target_in d P (l ++ rest) = target_in d P rest.
Proof.
  intros W. induction l as [|[c v] l IH]; intros rest H; [easy|]. cbn [app target_in].
  destruct (H c v (or_introl eq_refl)) as (p1 & p2 & E & Hp). rewrite E in W.
  destruct (wf_get_mid _ _ _ _ _ W) as [x Ex]. rewrite Ex.
  pose proof (find_block_some _ _ _ Ex) as [Hid _].
  rewrite (refreshed_wf _ _ _ _ _ x W Hid). cbn [bind set_b_pos b_pos].
  rewrite Nat2Z.id, (proj2 (Nat.leb_gt _ _)) by lia. apply IH. intros; apply H; now right.
Qed.
Lemma target_mid d pre b t rest P : wf d (pre ++ (b, t) :: rest) -> cpre pre <= P ->
  (P <= cpre pre + length t \/ rest = []) -> target_in d P (rev (pre ++ (b, t) :: rest)) = Ok (Some b).
Proof.
  intros W H1 H2. rewrite rev_app_distr. cbn [rev]. rewrite <- !app_assoc.
  rewrite (target_later _ _ P W).
  - cbn [app target_in]. destruct (wf_get_mid _ _ _ _ _ W) as [x Ex]. rewrite Ex.
    pose proof (find_block_some _ _ _ Ex) as [Hid _].
    rewrite (refreshed_wf _ _ _ _ _ x W Hid). cbn [bind set_b_pos b_pos].
    rewrite Nat2Z.id, (proj2 (Nat.leb_le _ _)) by lia. reflexivity.
  - intros c v Hc. apply in_rev in Hc. apply in_split in Hc. destruct Hc as (r1 & r2 & ->).
    exists (pre ++ (b, t) :: r1), r2. split; [now rewrite <- app_assoc|]. rewrite cpre_app, cpre_cons.
    destruct H2 as [H2|H2]; [lia|destruct r1; discriminate].
Qed.

Lemma affected_ok d m pre b t rest P : wf d (pre ++ (b, t) :: rest) -> cpre pre <= P ->
  (P <= cpre pre + length t \/ rest = []) ->
  rehighlight_affected h d m P = Ok (from_go h m (last_id None pre) true ((b, t) :: rest)).
Proof.
  intros W H1 H2. unfold rehighlight_affected, rehighlight_from_block. rewrite (ordered_wf _ _ W). cbn [bind].
  rewrite (target_mid _ _ _ _ _ _ W H1 H2). cbn [bind].
  rewrite from_block_mid by (apply wf_nodup, nodup_mid in W; tauto).
  destruct pre as [|[c u] pre]; reflexivity.
Qed.

(** ** Histories *)

Definition inv (st : doc * hmap U) : Prop :=
  exists ps, wf (fst st) ps /\ from_the_top h (snd st) (-1)%Z ps
    /\ forall i, snd st i <> None -> (i < d_next (fst st))%N.

Lemma rerun_ok m pre b t rest : steady h -> forall fresh old p0, rest = fresh ++ old ->
  NoDup (map fst (pre ++ (b, t) :: rest)) -> from_the_top h m (-1)%Z pre -> from_the_top h m p0 old ->
  (forall c v, In (c, v) fresh -> m c = None /\ marks h) ->
  from_the_top h (from_go h m (last_id None pre) true ((b, t) :: rest)) (-1)%Z (pre ++ (b, t) :: rest)
  /\ (forall i, from_go h m (last_id None pre) true ((b, t) :: rest) i <> None -> m i <> None \/ In i (map fst ((b, t) :: rest)))
  .
Proof.
  intros St fresh old p0 -> ND Hpre Hold Hf. split.
  - apply top_app. rewrite map_app in ND. split.
    + eapply top_ext; [|exact Hpre]. intros c Hc. apply from_go_outside.
      intros X. now apply (proj2 (nodup_sides _ _ ND) c).
    + change ((b, t) :: fresh ++ old) with (((b, t) :: fresh) ++ old).
      eapply from_go_ok; eauto.
      * exact (proj1 (nodup_sides _ _ ND)).
      * intros c Hc X. apply last_id_in in Hc. destruct Hc as [|Hc]; [easy|].
        now apply (proj2 (nodup_sides _ _ ND) c).
      * now apply last_state.
  - intros i Hi. destruct (in_dec N.eq_dec i (map fst ((b, t) :: fresh ++ old))) as [|X]; [now right|].
    left. now rewrite from_go_outside in Hi.
Qed.

Lemma prev_app (pre : list para) b t q : last_id q (pre ++ [(b, t)]) = Some b.
Proof. revert q; induction pre as [|[c u] pre IH]; intros q; [easy|]. cbn. apply IH. Qed.

Lemma inv_step d m s : steady h -> (marks h \/ no_split s) -> hstep_ok s -> inv (d, m) ->
  exists st, run_hstep h (d, m) s = Ok st /\ inv st.
Proof.
  intros St Mk Hok (ps & W & T & Nx). cbn [fst snd] in *. destruct s as [e|f p a|q p a|i l|d'|i]; cbn [run_hstep hstep_ok] in *.
  - destruct (edit_paras _ _ _ W Hok) as (d' & q & pre & b & t & olds & post & t' & news & E & -> & W' & N' & Hn & Hp & He).
    assert (K : exists m', rehighlight_affected h d' m (edit_pos e) = Ok m' /\ inv (d', m')).
    { apply top_app in T. destruct T as [Tpre [(u & Tb) T]]. apply top_app in T. destruct T as [_ Tpost].
      assert (Hf : forall c v, In (c, v) news -> m c = None /\ marks h).
      { intros c v Hc. destruct Hn as [[_ ->]|(Hs & t2 & ->)]; [easy|]. destruct Hc as [[= <- <-]|[]]. split.
        - destruct (m (d_next d)) eqn:Em; [|easy]. exfalso. assert (X : m (d_next d) <> None) by congruence. apply Nx in X. lia.
        - destruct Mk as [|Mk]; [easy|]. exfalso. now destruct e. }
      assert (Inn : forall i, In i (map fst (pre ++ (b, t') :: news ++ post)) -> (i < d_next d')%N).
      { intros i Hi. exact (wf_next _ _ W' _ Hi). }
      pose proof (wf_nodup _ _ W') as ND.
      assert (Fin : forall m' : hmap U, (forall i, m' i <> None -> m i <> None \/ In i (map fst (pre ++ (b, t') :: news ++ post))) ->
                forall i, m' i <> None -> (i < d_next d')%N).
      { intros m' H i Hi. destruct (H i Hi) as [X|X]; [apply Nx in X; lia|now apply Inn]. }
      assert (Go : edit_pos e <= cpre pre + length t' \/ news ++ post = [] ->
                exists m', rehighlight_affected h d' m (edit_pos e) = Ok m' /\ inv (d', m')).
      { intros Hc. rewrite (affected_ok _ m _ _ _ _ _ W' Hp Hc). eexists. split; [reflexivity|].
        destruct (rerun_ok m pre b t' (news ++ post) St news post _ eq_refl ND Tpre Tpost Hf) as [A B].
        exists (pre ++ (b, t') :: news ++ post). split; [exact W'|]. split; [exact A|]. apply Fin. intros i Hi.
        destruct (B i Hi) as [|X]; [now left|]. right. rewrite map_app. apply in_or_app. now right. }
      destruct He as [He|(-> & -> & [->|(-> & ->)])]; [now apply Go; left|now apply Go; right|].
      destruct (Nat.le_gt_cases (edit_pos e) (cpre pre + length t)) as [Hle|Hgt]; [apply Go; now left|].
      assert (W2 : wf d' ((pre ++ [(b, t)]) ++ (d_next d, []) :: [])) by now rewrite <- app_assoc.
      assert (Tp : from_the_top h m (-1)%Z (pre ++ [(b, t)])).
      { apply top_app. split; [exact Tpre|]. cbn. eauto. }
      rewrite (affected_ok d' m (pre ++ [(b, t)]) (d_next d) [] [] (edit_pos e) W2);
        [|rewrite cpre_app, cpre_cons; cbn; lia|now right].
      eexists. split; [reflexivity|].
      destruct (rerun_ok m (pre ++ [(b, t)]) (d_next d) [] [] St [] [] (-1)%Z eq_refl (wf_nodup _ _ W2) Tp I ltac:(easy)) as [A B].
      exists ((pre ++ [(b, t)]) ++ [(d_next d, [])]). split; [exact W2|]. split; [exact A|]. apply Fin. intros i Hi.
      destruct (B i Hi) as [|X]; [now left|]. right. rewrite map_app. apply in_or_app. right. right. exact X. }
    unfold hedit. rewrite E. cbn [bind]. destruct K as (m' & K & I').
    destruct e as [p a text|p a text x|p a|p a]; cbn [edit_pos edit_range fst] in K; rewrite ?K; cbn [bind]; eauto.
    destruct (Nat.eqb_spec p a) as [<-|]; [|cbn [bind]; eauto].
    cbn [run_edit] in E. unfold cursor_remove_selected in E. rewrite Nat.eqb_refl in E. cbn [bind] in E. injection E as <- _.
    eexists. split; [reflexivity|]. exists (pre ++ (b, t) :: olds ++ post). now split.
  - destruct (format_text_full f _ _ p a W) as (d' & ivs & E & W' & S0 & _). rewrite E. cbn [bind].
    eexists. split; [reflexivity|]. exists ps. cbn [fst snd]. split; [exact W'|]. split; [exact T|]. intros i Hi. apply Nx in Hi. destruct S0. congruence.
  - destruct (set_block_format_full q _ _ p a W) as (d' & E & W' & _ & _ & _ & _ & N' & _). rewrite E. cbn [bind].
    eexists. split; [reflexivity|]. exists ps. cbn [fst snd]. split; [exact W'|]. split; [exact T|]. intros i Hi. apply Nx in Hi. congruence.
  - eexists. split; [reflexivity|]. exists ps. cbn [fst snd]. split; [exact (wf_meta _ _ _ W (meta_set_list _ _ _))|]. now split.
  - destruct (reach_wf _ Hok) as [qs W']. unfold rehighlight_all. rewrite (ordered_wf _ _ W'). cbn [bind].
    eexists. split; [reflexivity|]. destruct (all_go_ok qs (fun _ => None) (-1)%Z (wf_nodup _ _ W')) as [A B].
    exists qs. cbn [fst snd]. split; [exact W'|]. split; [exact A|]. intros i Hi.
    destruct (in_dec N.eq_dec i (map fst qs)) as [X|X]; [|now rewrite B in Hi].
    exact (wf_next _ _ W' _ X).
  - unfold rehighlight_from_block. rewrite (ordered_wf _ _ W). cbn [bind]. eexists. split; [reflexivity|].
    destruct (in_dec N.eq_dec i (map fst ps)) as [X|X]; [|rewrite from_block_none by easy; exists ps; now split].
    apply in_map_iff in X. destruct X as ([j v] & <- & X). apply in_split in X. destruct X as (pre & post & ->). cbn [fst].
    pose proof (wf_nodup _ _ W) as ND. rewrite from_block_mid by (apply nodup_mid in ND; tauto).
    apply top_app in T. destruct T as [Tpre [(u & Tb) T]].
    destruct (rerun_ok m pre j v post St [] post _ eq_refl ND Tpre T ltac:(easy)) as [A B].
    exists (pre ++ (j, v) :: post). cbn [fst snd]. split; [exact W|]. split; [exact A|]. intros i Hi.
    destruct (B i Hi) as [Y|Y]; [now apply Nx|]. assert (Y' : In i (map fst (pre ++ (j, v) :: post))) by (rewrite map_app; apply in_or_app; now right).
    exact (wf_next _ _ W _ Y').
Qed.

Lemma inv_steps ss : steady h -> forall st, (marks h \/ Forall no_split ss) -> Forall hstep_ok ss -> inv st ->
  exists st', run_hsteps h st ss = Ok st' /\ inv st'.
Proof.
  intros St. induction ss as [|s ss IH]; intros [d m] Mk Hok I0; [now exists (d, m)|]. cbn [run_hsteps].
  inversion Hok as [|? ? H1 H2]; subst.
  destruct (inv_step d m s St ltac:(destruct Mk as [|Mk]; [now left|right; now inversion Mk]) H1 I0) as ([d1 m1] & -> & I1).
  cbn [bind]. apply IH; auto. destruct Mk as [|Mk]; [now left|right; now inversion Mk].
Qed.

Lemma pass_inv d : reach d -> exists m, rehighlight_all h d = Ok m /\ inv (d, m).
Proof.
  intros R. destruct (reach_wf _ R) as [qs W']. unfold rehighlight_all. rewrite (ordered_wf _ _ W'). cbn [bind].
  eexists. split; [reflexivity|]. destruct (all_go_ok qs (fun _ => None) (-1)%Z (wf_nodup _ _ W')) as [A B].
  exists qs. cbn [fst snd]. split; [exact W'|]. split; [exact A|]. intros i Hi.
  destruct (in_dec N.eq_dec i (map fst qs)) as [X|X]; [|now rewrite B in Hi].
  exact (wf_next _ _ W' _ X).
Qed.
Lemma inv_highlighted d m : inv (d, m) -> highlighted h d m.
Proof. intros (ps & W & T & _). exists ps. split; [now apply doc_texts_wf|exact T]. Qed.

Theorem pass_theorem d : reach d -> exists m, rehighlight_all h d = Ok m /\ highlighted h d m.
Proof. intros R. destruct (pass_inv d R) as (m & E & I0). exists m. split; [exact E|now apply inv_highlighted]. Qed.
Theorem rerun_theorem d ss : reach d -> steady h -> (marks h \/ Forall no_split ss) -> Forall hstep_ok ss ->
  exists m0 d' m', rehighlight_all h d = Ok m0 /\ run_hsteps h (d, m0) ss = Ok (d', m') /\ highlighted h d' m'.
Proof.
  intros R St Mk Hok. destruct (pass_inv d R) as (m & E & I0).
  destruct (inv_steps ss St _ Mk Hok I0) as ([d' m'] & E' & I1). exists m, d', m'. split; [exact E|]. split; [exact E'|now apply inv_highlighted].
Qed.
End Highlighter.
