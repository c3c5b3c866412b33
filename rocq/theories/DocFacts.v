(** The editing operations on a well-formed document. *)
From Verif Require Import Base BaseFacts FormatRunsModel FormatRunsSpec FormatRunsFacts
  RopeModel RopeSpec RopeFacts DocModel DocSpec BlockFacts DocInv.
From Coq Require Import Permutation.

Lemma firstn_items R pre b t post i :
  i <= length t ->
  firstn (cpre pre + i) (items_of R (pre ++ (b, t) :: post)) = ipre R pre ++ styled (firstn i t) (R b).
Proof.
  intros Hi. rewrite items_mid, <- (ipre_length R pre), firstn_app_2.
  rewrite firstn_app. unfold styled. rewrite styled_length.
  replace (i - length t) with 0 by lia. rewrite firstn_O, app_nil_r.
  rewrite <- (firstn_skipn i t) at 1. rewrite styled_app.
  rewrite firstn_app, styled_length, firstn_length.
  replace (i - Nat.min i (length t)) with 0 by lia. rewrite firstn_O, app_nil_r.
  rewrite firstn_all2; [easy|]. rewrite styled_length, firstn_length. lia.
Qed.

Lemma skipn_items R pre b t post i :
  i <= length t ->
  skipn (cpre pre + i) (items_of R (pre ++ (b, t) :: post))
  = styled_from (boff t i) (skipn i t) (R b) ++ ipost R post.
Proof.
  intros Hi. rewrite items_mid, <- (ipre_length R pre).
  rewrite skipn_app. rewrite skipn_all2 by lia. cbn [app].
  replace (length (ipre R pre) + i - length (ipre R pre)) with i by lia.
  rewrite skipn_app. unfold styled. rewrite styled_length.
  replace (i - length t) with 0 by lia. cbn [skipn]. f_equal.
  rewrite <- (firstn_skipn i t) at 1. rewrite styled_app.
  rewrite skipn_app, styled_length, firstn_length.
  replace (i - Nat.min i (length t)) with 0 by lia. cbn [skipn].
  rewrite skipn_all2; [easy|]. rewrite styled_length, firstn_length. lia.
Qed.

Lemma last_fmt_app a b : b <> [] -> last_fmt (a ++ b) = last_fmt b.
Proof.
  intros H. unfold last_fmt. rewrite rev_app_distr.
  destruct (rev b) as [|x l] eqn:E; [|easy].
  apply (f_equal (@rev item)) in E. rewrite rev_involutive in E. now subst.
Qed.

Lemma last_fmt_ipre R pre : last_fmt (ipre R pre) = cfmt_default.
Proof.
  destruct (rev pre) as [|[b t] l] eqn:E.
  - apply (f_equal (@rev para)) in E. rewrite rev_involutive in E. now subst.
  - apply (f_equal (@rev para)) in E. rewrite rev_involutive in E. cbn [rev] in E. subst.
    rewrite ipre_app, ipre_cons. rewrite last_fmt_app by (now destruct (styled t (R b))).
    rewrite last_fmt_app by easy. easy.
Qed.

Lemma last_fmt_styled R pre t runs : last_fmt (ipre R pre ++ styled t runs) = last_fmt (styled t runs).
Proof.
  destruct t as [|c t]; [|now apply last_fmt_app].
  cbn [styled styled_from]. rewrite app_nil_r. apply last_fmt_ipre.
Qed.

Lemma blocks_put_same bs i b : find_block bs i = Some b -> put_block bs b = bs.
Proof.
  induction bs as [|x bs IH]; cbn [find_block put_block]; [easy|].
  destruct (N.eqb_spec (b_id x) i) as [E|E].
  - intros [= ->]. rewrite N.eqb_refl. destruct b; reflexivity.
  - intros H. pose proof (find_block_some _ _ _ H) as [<- _].
    destruct (N.eqb_spec (b_id x) (b_id b)) as [E'|E']; [easy|]. now rewrite IH.
Qed.

Lemma set_blocks_same d : set_blocks d (d_blocks d) = d.
Proof. now destruct d. Qed.

Lemma update_same d i b : get_block d i = Some b -> update_block d b = d.
Proof.
  intros H. unfold update_block. rewrite (blocks_put_same _ _ _ H). apply set_blocks_same.
Qed.

(** The text of a paragraph at a cut. *)
Lemma wf_runs_split d pre b t post i :
  wf d (pre ++ (b, t) :: post) -> wf_runs (firstn i t ++ skipn i t) (d_runs d b).
Proof.
  intros W. rewrite firstn_skipn. apply (wf_runs_in _ _ W). rewrite in_app_iff. right. now left.
Qed.

(** ** Typing *)

Definition ins_text (t : str) (i : nat) (x : str) : str := firstn i t ++ x ++ skipn i t.

(** [insert_bytes] at a character boundary. *)
Lemma insert_bytes_wf d pre b t post i text :
  wf d (pre ++ (b, t) :: post) -> i <= length t ->
  exists d', insert_bytes d b (boff t i) text = Ok d'
   /\ wf d' (pre ++ (b, ins_text t i text) :: post)
   /\ items_of (d_runs d') (pre ++ (b, ins_text t i text) :: post)
      = spec_insert (cpre pre + i) text (items_of (d_runs d) (pre ++ (b, t) :: post))
   /\ d_blocks d' = d_blocks d /\ d_chars d' = d_chars d /\ d_nblocks d' = d_nblocks d
   /\ d_next d' = d_next d /\ d_order d' = d_order d /\ d_fblocks d' = d_fblocks d
   /\ (forall k, d_runs d' k = upd (d_runs d) b (shift_runs_for_insert (d_runs d b) (boff t i) (blen text)) k).
Proof.
  intros W Hi. pose proof (wf_runs_split _ _ _ _ _ i W) as Wr.
  pose proof (wf_rep _ _ W) as R. rewrite segs_mid in R.
  assert (R' : rep (d_rs d) (segs pre ++ (MBlock b, firstn i t ++ skipn i t) :: segs post))
    by (now rewrite firstn_skipn).
  destruct (rep_insert_in_block _ _ _ (firstn i t) (skipn i t) text _ R') as (st' & E & R2).
  unfold insert_bytes. cbn [d_rs set_runs set_images]. rewrite boff_split, E. cbn [bind].
  eexists. split; [reflexivity|].
  set (d' := set_rs _ _).
  destruct (wf_edit d pre b t post (ins_text t i text)
     (shift_runs_for_insert (d_runs d b) (blen (firstn i t)) (blen text)) d' W) as [W' I'].
  - cbn. rewrite segs_mid. exact R2.
  - apply insert_runs_wf, Wr.
  - reflexivity.
  - reflexivity.
  - intros k. cbn. unfold upd. rewrite (wf_images _ _ W), shift_images_insert_nil.
    destruct (N.eqb k b); [easy|apply (wf_images _ _ W)].
  - reflexivity.
  - reflexivity.
  - reflexivity.
  - split; [exact W'|]. split; [|repeat split]. rewrite I'. unfold ins_text. rewrite (insert_runs_styled _ _ _ _ Wr).
    unfold spec_insert. rewrite (firstn_items (d_runs d) pre b t post i Hi), (skipn_items (d_runs d) pre b t post i Hi), last_fmt_styled.
    rewrite <- !app_assoc. reflexivity.
Qed.

Lemma locate_insert_wf d pre b t post i p :
  wf d (pre ++ (b, t) :: post) -> i <= length t ->
  clipz (ctotal (pre ++ (b, t) :: post)) p = cpre pre + i ->
  exists x, get_block d b = Some x /\ b_id x = b /\
  locate_insert d p = Ok (x, Z.of_nat (cpre pre), Z.of_nat i).
Proof.
  intros W Hi Hp.
  assert (Hb : In b (map fst (pre ++ (b, t) :: post))) by (rewrite map_app, in_app_iff; right; now left).
  destruct (wf_get _ _ _ W Hb) as (x & Hx & Hxi). exists x. repeat split; auto.
  unfold locate_insert. rewrite (find_any _ _ _ _ _ _ _ W Hi Hp). cbn [bind].
  rewrite Hx. cbn [ok_or bind].
  rewrite (wf_length_in _ _ b t W) by (rewrite in_app_iff; right; now left). cbn [bind].
  do 3 f_equal. unfold clamp. lia.
Qed.

Lemma wf_loc d ps p : wf d ps ->
  exists pre b t post i, ps = pre ++ (b, t) :: post /\ i <= length t
     /\ clipz (ctotal ps) p = cpre pre + i.
Proof.
  intros W. apply locate; [apply (wf_ne _ _ W)|apply clipz_le].
Qed.

(** Complete description of typing at a position. *)
Lemma insert_simple_full d pre b t post i p text :
  wf d (pre ++ (b, t) :: post) -> i <= length t ->
  clipz (ctotal (pre ++ (b, t) :: post)) p = cpre pre + i ->
  exists d' x, get_block d b = Some x /\
   insert_text_simple d p text
   = Ok (d', Z.of_nat (cpre pre + i + length text),
         mk_su b x (d_runs d b) [] (d_chars d) (boff t i) (blen text))
   /\ wf d' (pre ++ (b, ins_text t i text) :: post)
   /\ items_of (d_runs d') (pre ++ (b, ins_text t i text) :: post)
      = spec_insert (cpre pre + i) text (items_of (d_runs d) (pre ++ (b, t) :: post))
   /\ d_blocks d' = d_blocks d /\ d_chars d' = (d_chars d + Z.of_nat (length text))%Z
   /\ d_nblocks d' = d_nblocks d
   /\ d_next d' = d_next d /\ d_order d' = d_order d /\ d_fblocks d' = d_fblocks d
   /\ (forall k, d_runs d' k = upd (d_runs d) b (shift_runs_for_insert (d_runs d b) (boff t i) (blen text)) k).
Proof.
  intros W Hi Hp. destruct (locate_insert_wf _ _ _ _ _ _ _ W Hi Hp) as (x & Hx & Hxi & E).
  destruct (insert_bytes_wf _ _ _ _ _ _ text W Hi) as (d2 & E2 & W2 & I2 & B1 & B2 & B3 & B4 & B5 & B6 & B7).
  unfold insert_text_simple. rewrite E. cbn [bind]. rewrite Hxi, (wf_content _ _ _ _ _ W). cbn [bind].
  rewrite (wf_images _ _ W), Nat2Z.id, lob_nil, slice_0_boff. cbn [bind].
  rewrite (update_same _ _ _ Hx), E2. cbn [bind].
  rewrite (flow_matches _ _ W2). cbn [negb].
  eexists _, x. split; [exact Hx|]. split; [do 3 f_equal; lia|].
  split; [eapply wf_meta; [exact W2|apply meta_chars]|repeat split].
  - exact I2.
  - exact B1.
  - exact B3.
  - exact B4.
  - exact B5.
  - exact B6.
  - exact B7.
Qed.

(** ** Sets of stored fields that undo compares *)

Record doc_eq (a b : doc) : Prop := {
  de_rope : rope (d_rs a) = rope (d_rs b);
  de_entries : entries (index (d_rs a)) = entries (index (d_rs b));
  de_total : total (index (d_rs a)) = total (index (d_rs b));
  de_midx : forall m, midx (index (d_rs a)) m = midx (index (d_rs b)) m;
  de_anchors : anchor_count (index (d_rs a)) = anchor_count (index (d_rs b));
  de_blocks : d_blocks a = d_blocks b;
  de_runs : forall i, d_runs a i = d_runs b i;
  de_images : forall i, d_images a i = d_images b i;
  de_fblocks : d_fblocks a = d_fblocks b;
  de_order : d_order a = d_order b;
  de_chars : d_chars a = d_chars b;
  de_nblocks : d_nblocks a = d_nblocks b
}.

Lemma doc_eq_refl a : doc_eq a a. Proof. now constructor. Qed.
Lemma doc_eq_sym a b : doc_eq a b -> doc_eq b a. Proof. intros []; constructor; congruence. Qed.
Lemma doc_eq_trans a b c : doc_eq a b -> doc_eq b c -> doc_eq a c.
Proof. intros [] []; constructor; congruence. Qed.

Lemma rep_unique s s' l : rep s l -> rep s' l ->
  rope s = rope s' /\ entries (index s) = entries (index s') /\ total (index s) = total (index s')
  /\ (forall m, midx (index s) m = midx (index s') m) /\ anchor_count (index s) = anchor_count (index s').
Proof. intros [] []. repeat split; congruence. Qed.

Lemma wf_doc_eq d d' ps :
  wf d ps -> wf d' ps -> d_blocks d = d_blocks d' -> (forall i, d_runs d i = d_runs d' i) ->
  d_fblocks d = d_fblocks d' -> d_chars d = d_chars d' -> d_nblocks d = d_nblocks d' -> doc_eq d d'.
Proof.
  intros W W' Hb Hr Hf Hc Hn.
  destruct (rep_unique _ _ _ (wf_rep _ _ W) (wf_rep _ _ W')) as (A1 & A2 & A3 & A4 & A5).
  constructor; auto.
  - intros i. rewrite (wf_images _ _ W), (wf_images _ _ W'). easy.
  - rewrite (wf_order _ _ W), (wf_order _ _ W'). easy.
Qed.

(** Undo of typing restores every observable field. *)
Lemma undo_simple_full d d' p text np u :
  (exists ps, wf d ps) -> insert_text_simple d p text = Ok (d', np, u) ->
  exists d'', undo_simple d' u = Ok d'' /\ doc_eq d'' d /\ d_next d'' = d_next d'.
Proof.
  intros [ps W] E. destruct (wf_loc _ _ p W) as (pre & b & t & post & i & -> & Hi & Hp).
  destruct (insert_simple_full _ _ _ _ _ _ _ text W Hi Hp)
    as (d1 & x & Hx & E1 & W1 & _ & B1 & B2 & B3 & B4 & B5 & B6 & B7).
  rewrite E1 in E. injection E as <- <- <-.
  pose proof (find_block_some _ _ _ Hx) as [Hxi _].
  unfold undo_simple. cbn [su_id su_block su_runs su_images su_chars su_off su_len].
  unfold get_block in Hx. rewrite <- B1 in Hx. fold (get_block d1 b) in Hx.
  rewrite (update_same _ _ _ Hx). cbn [d_rs set_runs set_images].
  pose proof (wf_rep _ _ W1) as R1. rewrite segs_mid in R1.
  destruct (rep_delete_in_block _ _ _ (firstn i t) text (skipn i t) _ R1) as (st' & E2 & R2).
  rewrite firstn_skipn in R2. rewrite boff_split, E2.
  assert (G : exists rs, (if 0 <? blen text then Ok st' else Ok (d_rs d1)) = Ok rs
              /\ rep rs (segs (pre ++ (b, t) :: post))).
  { rewrite segs_mid. destruct (0 <? blen text) eqn:E0; eexists; (split; [reflexivity|]); [easy|].
    assert (Hx0 : text = []) by (apply blen_nil_inv; lia). subst.
    unfold ins_text in R1. cbn [app] in R1. now rewrite firstn_skipn in R1. }
  destruct G as (rs & -> & Rr). cbn [bind].
  eexists. split; [reflexivity|].
  set (d'' := set_chars _ _).
  assert (Hruns : forall k, d_runs d'' k = d_runs d k).
  { intros k. cbn. unfold upd. rewrite B7. unfold upd. destruct (N.eqb_spec k b) as [->|]; easy. }
  assert (Him : forall k, d_images d'' k = []).
  { intros k. cbn. unfold upd. destruct (N.eqb k b); [easy|]. apply (wf_images _ _ W1). }
  assert (W'' : wf d'' (pre ++ (b, t) :: post)).
  { destruct (wf_edit d1 pre b (ins_text t i text) post t (d_runs d b) d'' W1) as [W'' _]; try easy.
    apply (wf_runs_in _ _ W). rewrite in_app_iff. right. now left. }
  split; [|reflexivity].
  eapply wf_doc_eq; [exact W''|exact W|exact B1|exact Hruns|exact B6|reflexivity|exact B3].
Qed.
