(** One command: its effect on contents, its undo, its redo, its merging. *)
From Verif Require Import Base BaseFacts FormatRunsModel FormatRunsSpec FormatRunsFacts
  RopeModel RopeSpec RopeFacts DocModel DocSpec BlockFacts DocInv DocFacts DocAttr DocDelete DocBreak DocReplace
  DocImport DocFormat HistModel HistSpec DocReach DocHist PropSpec DocTheorems UndoModel UndoFacts SessionModel SessionSpec.
From Coq Require Import Permutation.

(** ** Documents equal field by field *)

Lemma rep_eq s s' l : rep s l -> rope s' = rope s -> entries (index s') = entries (index s) ->
  total (index s') = total (index s) -> (forall m, midx (index s') m = midx (index s) m) ->
  anchor_count (index s') = anchor_count (index s) -> rep s' l.
Proof. intros [] E1 E2 E3 E4 E5. constructor; try congruence. Qed.
Lemma wf_eq d x ps : wf d ps -> doc_eq x d -> (d_next d <= d_next x)%N -> wf x ps.
Proof.
  intros [] [] Hn. constructor; try congruence.
  - eapply rep_eq; eauto.
  - intros b t H. rewrite de_runs. eauto.
  - intros b H. rewrite de_runs. eauto.
  - intros b H. specialize (wf_next b H). lia.
Qed.
Lemma para_attrs_eq d x : doc_eq x d -> para_attrs x = para_attrs d.
Proof. intros []. apply para_attrs_same; [now apply same_attr_blocks|easy]. Qed.
Lemma items_eq d x ps : doc_eq x d -> items_of (d_runs x) ps = items_of (d_runs d) ps.
Proof. intros []. apply items_ext; auto. Qed.

(** Well formed, with the content it shows. *)
Definition good (d : doc) (k : content) : Prop :=
  exists ps, wf d ps /\ k = mk_content (items_of (d_runs d) ps) (para_attrs d) (d_chars d) (d_nblocks d).
Lemma good_shows d k : good d k -> shows d k.
Proof. intros (ps & W & ->). repeat split. apply (doc_items_wf _ _ W). Qed.
Lemma good_eq d x k : good d k -> doc_eq x d -> (d_next d <= d_next x)%N -> good x k.
Proof.
  intros (ps & W & ->) E Hn. exists ps. split; [eapply wf_eq; eauto|].
  rewrite (items_eq _ _ _ E), (para_attrs_eq _ _ E), (de_chars _ _ E), (de_nblocks _ _ E). easy.
Qed.
Lemma good_unique d k k' : good d k -> good d k' -> k = k'.
Proof.
  intros (ps & W & ->) (ps' & W' & ->). f_equal.
  pose proof (doc_items_wf _ _ W) as E. rewrite (doc_items_wf _ _ W') in E. now injection E as ->.
Qed.

(** ** What an edit does to the content *)

Definition ready (e : edit) (k : content) : Prop := edit_ok e /\ snd (edit_range e) <= length (k_items k).
(** Done by one command: no selection over several paragraphs. *)
Definition direct (e : edit) (its : list item) : Prop :=
  match e with
  | EInsert p a _ | EInsertFmt p a _ _ => breaks (lo its p a) its = breaks (hi its p a) its
  | EBreak p a => p = a
  | ERemove p a => p <> a
  end.

Lemma content_after d ps d' ps' e : wf d ps -> wf d' ps' ->
  let its := items_of (d_runs d) ps in
  items_of (d_runs d') ps' = spec_edit e its ->
  para_attrs d' = edit_attrs e its (para_attrs d) ->
  (d_chars d' - Z.of_nat (csum ps') = d_chars d - Z.of_nat (csum ps))%Z ->
  (d_nblocks d' - Z.of_nat (length ps') = d_nblocks d - Z.of_nat (length ps))%Z ->
  good d' (after e (mk_content its (para_attrs d) (d_chars d) (d_nblocks d))).
Proof.
  intros W W' its I A C1 C2. exists ps'. split; [exact W'|]. unfold after. cbn [k_items k_attrs k_chars k_paras].
  rewrite <- I, <- A. unfold its. destruct (count_items (d_runs d) ps (wf_ne _ _ W)) as [-> ->].
  destruct (count_items (d_runs d') ps' (wf_ne _ _ W')) as [-> ->]. f_equal; lia.
Qed.

Lemma firstn_skipn_same {A} n (l : list A) : firstn n l ++ skipn n l = l.
Proof. apply firstn_skipn. Qed.
Lemma lo_min its p a : Nat.max p a <= length its -> lo its p a = Nat.min p a /\ hi its p a = Nat.max p a.
Proof. unfold lo, hi. lia. Qed.
Lemma min_max_lo its p a : lo its (Nat.min p a) (Nat.max p a) = lo its p a /\ hi its (Nat.min p a) (Nat.max p a) = hi its p a.
Proof. unfold lo, hi. lia. Qed.

(** ** Text inserted in one paragraph, with its undo data *)

(** [d] is [d0] with [text] inserted at [i] in paragraph [b]; the inserted text
    ends at position [q]. Formats may have changed in that paragraph. *)
Definition inserted (u : simple_undo) (q : nat) (d0 d : doc) : Prop :=
  exists pre b t post i text x,
    wf d0 (pre ++ (b, t) :: post) /\ wf d (pre ++ (b, ins_text t i text) :: post) /\ i <= length t
    /\ get_block d0 b = Some x /\ u = mk_su b x (d_runs d0 b) [] (d_chars d0) (boff t i) (blen text)
    /\ d_blocks d = d_blocks d0 /\ d_nblocks d = d_nblocks d0 /\ d_fblocks d = d_fblocks d0
    /\ (forall k, k <> b -> d_runs d k = d_runs d0 k)
    /\ q = cpre pre + i + length text.

Lemma inserted_undo u q d0 d : inserted u q d0 d ->
  exists d', undo_simple d u = Ok d' /\ doc_eq d' d0 /\ d_next d' = d_next d.
Proof.
  intros (pre & b & t & post & i & text & x & W & W1 & Hi & Hx & -> & B1 & B3 & B6 & B7 & _).
  unfold undo_simple. cbn [su_id su_block su_runs su_images su_chars su_off su_len].
  unfold get_block in Hx. rewrite <- B1 in Hx. fold (get_block d b) in Hx.
  rewrite (update_same _ _ _ Hx). cbn [d_rs set_runs set_images].
  pose proof (wf_rep _ _ W1) as R1. rewrite segs_mid in R1.
  destruct (rep_delete_in_block _ _ _ (firstn i t) text (skipn i t) _ R1) as (st' & E2 & R2).
  rewrite firstn_skipn in R2. rewrite boff_split, E2.
  assert (G : exists rs, (if 0 <? blen text then Ok st' else Ok (d_rs d)) = Ok rs
              /\ rep rs (segs (pre ++ (b, t) :: post))).
  { rewrite segs_mid. destruct (0 <? blen text) eqn:E0; eexists; (split; [reflexivity|]); [easy|].
    assert (Hx0 : text = []) by (apply blen_nil_inv; lia). subst.
    unfold ins_text in R1. cbn [app] in R1. now rewrite firstn_skipn in R1. }
  destruct G as (rs & -> & Rr). cbn [bind].
  eexists. split; [reflexivity|].
  set (d'' := set_chars _ _).
  assert (Hruns : forall k, d_runs d'' k = d_runs d0 k).
  { intros k. cbn. unfold upd. destruct (N.eqb_spec k b) as [->|]; auto. }
  assert (Him : forall k, d_images d'' k = []).
  { intros k. cbn. unfold upd. destruct (N.eqb k b); [easy|]. apply (wf_images _ _ W1). }
  assert (Hup : forall k, d_runs d'' k = upd (d_runs d) b (d_runs d0 b) k) by (intros k; reflexivity).
  assert (W'' : wf d'' (pre ++ (b, t) :: post)).
  { destruct (wf_edit d pre b (ins_text t i text) post t (d_runs d0 b) d'' W1) as [W'' _]; try easy.
    apply (wf_runs_in _ _ W). rewrite in_app_iff. right. now left. }
  split; [|reflexivity].
  eapply wf_doc_eq; [exact W''|exact W|exact B1|exact Hruns|exact B6|reflexivity|exact B3].
Qed.

Lemma inserted_eq u q d0 d x : inserted u q d0 d -> doc_eq x d -> (d_next d <= d_next x)%N -> inserted u q d0 x.
Proof.
  intros (pre & b & t & post & i & text & y & W & W1 & Hi & Hx & Hu & B1 & B3 & B6 & B7 & Hq) E Hn.
  exists pre, b, t, post, i, text, y. split; [exact W|]. split; [eapply wf_eq; eauto|]. destruct E.
  repeat split; try congruence; auto. intros k Hk. rewrite de_runs. auto.
Qed.
(** The document it started from, too, may be replaced by an equal one. *)
Lemma inserted_eq0 u q d0 d x : inserted u q d0 d -> doc_eq x d0 -> (d_next d0 <= d_next x)%N -> inserted u q x d.
Proof.
  intros (pre & b & t & post & i & text & y & W & W1 & Hi & Hx & Hu & B1 & B3 & B6 & B7 & Hq) E Hn.
  exists pre, b, t, post, i, text, y. split; [eapply wf_eq; eauto|]. destruct E.
  split; [easy|]. split; [easy|]. split; [unfold get_block in *; congruence|].
  rewrite de_runs, de_chars. split; [easy|]. repeat split; try congruence. intros k Hk. rewrite B7; auto.
Qed.

Lemma op_inserted d ps p text : wf d ps ->
  exists d' u, insert_text_simple d (Z.of_nat p) text = Ok (d', Z.of_nat (Nat.min p (ctotal ps) + length text), u)
   /\ inserted u (Nat.min p (ctotal ps) + length text) d d'.
Proof.
  intros W. destruct (wf_loc _ _ (Z.of_nat p) W) as (pre & b & t & post & i & -> & Hi & Hp).
  destruct (insert_simple_full _ _ _ _ _ _ _ text W Hi Hp)
    as (d' & x & Hx & E & W' & _ & B1 & B2 & B3 & B4 & B5 & B6 & B7).
  assert (Hq : cpre pre + i = Nat.min p (ctotal (pre ++ (b, t) :: post))) by (rewrite <- Hp; unfold clipz; lia).
  rewrite <- Hq. eexists d', _. split; [exact E|].
  exists pre, b, t, post, i, text, x. repeat (split; [easy|]). split; [|easy].
  intros k Hk. rewrite B7. unfold upd. now apply N.eqb_neq in Hk as ->.
Qed.
Lemma op_inserted_fmt d ps p text f : wf d ps -> text <> [] ->
  exists d' u q, insert_formatted_simple d (Z.of_nat p) text f = Ok (d', Z.of_nat (p + length text), u)
   /\ inserted u q d d'.
Proof.
  intros W Hne. destruct (wf_loc _ _ (Z.of_nat p) W) as (pre & b & t & post & i & -> & Hi & Hp).
  destruct (insert_formatted_simple_full _ _ _ _ _ _ _ text f W (Zle_0_nat p) Hi Hne Hp)
    as (d' & x & Hx & E & W' & _ & _ & B1 & B2 & B3 & B4 & B5 & B6 & B7).
  eexists d', _, _. split; [rewrite Nat2Z.inj_add; exact E|].
  exists pre, b, t, post, i, text, x. repeat (split; [easy|]). split; [|easy].
  intros k Hk. rewrite B7. unfold upd. now apply N.eqb_neq in Hk as ->.
Qed.

Lemma ins_ins t i s s' : i <= length t -> ins_text (ins_text t i s) (i + length s) s' = ins_text t i (s ++ s').
Proof.
  intros Hi. unfold ins_text. rewrite (app_assoc (firstn i t) s (skipn i t)).
  assert (L : length (firstn i t ++ s) = i + length s) by (rewrite app_length, firstn_length; lia).
  rewrite firstn_exact by easy. rewrite skipn_exact by easy. now rewrite <- !app_assoc.
Qed.
(** Typing where the first insertion ended: the two undo as one. *)
Lemma inserted_twice u q d0 d text d' u' np :
  inserted u q d0 d -> insert_text_simple d (Z.of_nat q) text = Ok (d', np, u') ->
  exists uu, widen (USimple u) (USimple u') = USimple uu /\ inserted uu (q + length text) d0 d'.
Proof.
  intros (pre & b & t & post & i & s & y & W & W1 & Hi & Hx & Hu & B1 & B3 & B6 & B7 & Hq) E.
  assert (Hl : i + length s <= length (ins_text t i s)) by (unfold ins_text; rewrite !app_length, firstn_length; lia).
  assert (Hc : clipz (ctotal (pre ++ (b, ins_text t i s) :: post)) (Z.of_nat q) = cpre pre + (i + length s)).
  { rewrite ctotal_mid. unfold clipz. lia. }
  destruct (insert_simple_full _ _ _ _ _ _ _ text W1 Hl Hc)
    as (d1 & x & Hx1 & E1 & W' & _ & C1 & C2 & C3 & C4 & C5 & C6 & C7).
  rewrite E1 in E. injection E as <- <- <-. subst u. cbn [widen su_id su_block su_runs su_images su_chars su_off su_len].
  eexists. split; [reflexivity|]. rewrite (ins_ins _ _ _ _ Hi) in W'. rewrite <- blen_app.
  exists pre, b, t, post, i, (s ++ text), y. repeat (split; [first [easy|congruence]|]). split.
  - intros k Hk. rewrite C7. unfold upd. rewrite (proj2 (N.eqb_neq _ _) Hk). auto.
  - rewrite app_length. lia.
Qed.

(** ** Executing the request of a command *)

Definition undoes (u : ins_undo) (q : nat) (d0 d : doc) : Prop :=
  match u with USimple u => inserted u q d0 d | USnap s => doc_eq s d0 end.

Lemma attrs_point {A} its p (l : list A) : firstn (S (breaks (lo its p p) its)) l ++ skipn (S (breaks (hi its p p) its)) l = l.
Proof. rewrite lo_same, hi_same. apply firstn_skipn. Qed.
Lemma attrs_direct {A} its p a (l : list A) : breaks (lo its p a) its = breaks (hi its p a) its ->
  firstn (S (breaks (lo its p a) its)) l ++ skipn (S (breaks (hi its p a) its)) l = l.
Proof. intros ->. apply firstn_skipn. Qed.

(** A selection inside one paragraph, or over several. *)
Lemma within d ps p a : wf d ps ->
  let its := items_of (d_runs d) ps in
  breaks (lo its p a) its = breaks (hi its p a) its ->
  exists pre b t post i j, ps = pre ++ (b, t) :: post /\ i <= j /\ j <= length t
    /\ clipz (ctotal ps) (Z.min (Z.of_nat p) (Z.of_nat a)) = cpre pre + i
    /\ clipz (ctotal ps) (Z.max (Z.of_nat p) (Z.of_nat a)) = cpre pre + j.
Proof.
  intros W its Hd. rewrite <- !(clip_items (d_runs d)). fold its. rewrite clip_lo, clip_hi.
  destruct (locate2 ps (lo its p a) (hi its p a) (wf_ne _ _ W))
    as [(pre & b & t & post & i & j & Eps & Hij & Hj & Es & Ee)
    |(pre & b & t & mid & c & u & post & i & j & Eps & Hi & Hj & Es & Ee)].
  - unfold lo, hi. lia.
  - unfold hi, its. rewrite items_length. lia.
  - exists pre, b, t, post, i, j. repeat (split; [easy|]). easy.
  - exfalso. rewrite Es, Ee in Hd. unfold its in Hd. rewrite Eps in Hd. rewrite breaks_items in Hd by easy. revert Hd.
    replace (pre ++ (b, t) :: mid ++ (c, u) :: post) with ((pre ++ (b, t) :: mid) ++ (c, u) :: post) by (now rewrite <- app_assoc).
    rewrite breaks_items by easy. rewrite app_length. cbn. lia.
Qed.
Lemma across d ps p a : wf d ps ->
  let its := items_of (d_runs d) ps in
  breaks (lo its p a) its <> breaks (hi its p a) its ->
  (forall text, insert_text_selection d (Z.of_nat p) (Z.of_nat a) text = Err)
  /\ (forall text f, insert_formatted_selection d (Z.of_nat p) (Z.of_nat a) text f = Err).
Proof.
  intros W its Hd.
  destruct (locate2 ps (lo its p a) (hi its p a) (wf_ne _ _ W))
    as [(pre & b & t & post & i & j & Eps & Hij & Hj & Es & Ee)
    |(pre & b & t & mid & c & u & post & i & j & Eps & Hi & Hj & Es & Ee)].
  - unfold lo, hi. lia.
  - unfold hi, its. rewrite items_length. lia.
  - exfalso. apply Hd. rewrite Es, Ee. unfold its. rewrite Eps. rewrite !breaks_items by lia. easy.
  - rewrite <- clip_lo in Es. rewrite <- clip_hi in Ee. unfold its in Es, Ee. rewrite clip_items in Es, Ee. subst ps.
    assert (Hz : (0 <= Z.min (Z.of_nat p) (Z.of_nat a))%Z) by lia.
    split; intros; [eapply selection_cross|eapply formatted_selection_cross]; eassumption.
Qed.

Lemma exec_insert_good d k p a text : good d k -> ready (EInsert p a text) k -> direct (EInsert p a text) (k_items k) ->
  let e := EInsert p a text in
  let q := edit_cursor e (k_items k) in
  exists d' u, exec_insert (Z.of_nat p) (Z.of_nat a) text d = Ok (d', Z.of_nat q, u)
   /\ good d' (after e k) /\ undoes u q d d' /\ (d_next d <= d_next d')%N
   /\ (p = a -> exists u', u = USimple u').
Proof.
  intros (ps & W & ->) [_ Hr] Hd e q. cbn [k_items edit_range snd direct] in Hr, Hd. set (its := items_of (d_runs d) ps) in *.
  unfold exec_insert, q. cbn [k_items e edit_cursor].
  assert (At : edit_attrs e its (para_attrs d) = para_attrs d).
  { unfold edit_attrs, e. cbn [edit_range]. destruct (min_max_lo its p a) as [-> ->]. now apply attrs_direct. }
  destruct (Nat.eq_dec p a) as [<-|Hpa].
  - rewrite Z.eqb_refl. rewrite lo_same.
    destruct (op_inserted _ _ p text W) as (d' & u & E & U).
    destruct (op_insert _ _ (Z.of_nat p) text W) as (d1 & u1 & ps' & E1 & W' & I & A & C1 & C2 & C3).
    rewrite E1 in E. assert (Hl : ctotal ps = length its) by (symmetry; apply items_length). rewrite Hl in E, U.
    injection E as -> _ ->. rewrite E1. cbn [bind]. fold its. rewrite clip_nat. eexists d', _. split; [reflexivity|].
    split; [|split; [exact U|split; [lia|eauto]]].
    fold its in I. rewrite clip_nat in I.
    apply (content_after _ _ _ _ e W W'); fold its; try easy.
    + unfold e. cbn [spec_edit]. rewrite lo_same, hi_same, spec_delete_none. easy.
    + now rewrite At.
  - rewrite (proj2 (Z.eqb_neq _ _)) by lia.
    destruct (op_replace _ _ (Z.of_nat p) (Z.of_nat a) text W) as [E0|(d' & ps' & E & W' & I & A & C1 & C2 & C3 & _)].
    + exfalso. destruct (within _ _ p a W Hd) as (pre & b & t & post & i & j & -> & Hij & Hj & Es & Ee).
      destruct (selection_same d pre b t post i j (Z.of_nat p) (Z.of_nat a) text W Hij Hj Es Ee) as (d' & E & _). congruence.
    + fold its in E, I. rewrite clip_lo in E, I. rewrite clip_hi in I. rewrite E. cbn [bind].
      eexists d', _. split; [reflexivity|]. split; [|split; [apply doc_eq_refl|split; [lia|easy]]].
      apply (content_after _ _ _ _ e W W'); fold its; try easy. now rewrite At.
Qed.

Lemma exec_fmt_good d k p a text x : good d k -> ready (EInsertFmt p a text x) k -> direct (EInsertFmt p a text x) (k_items k) ->
  let e := EInsertFmt p a text x in
  let q := edit_cursor e (k_items k) in
  exists d' u q', exec_insert_fmt (Z.of_nat p) (Z.of_nat a) text x d = Ok (d', Z.of_nat q, u)
   /\ good d' (after e k) /\ undoes u q' d d' /\ (d_next d <= d_next d')%N.
Proof.
  intros (ps & W & ->) [Hne Hr] Hd e q. cbn [k_items edit_ok edit_range snd direct] in Hne, Hr, Hd. set (its := items_of (d_runs d) ps) in *.
  unfold exec_insert_fmt, q. cbn [k_items e edit_cursor].
  assert (At : edit_attrs e its (para_attrs d) = para_attrs d).
  { unfold edit_attrs, e. cbn [edit_range]. destruct (min_max_lo its p a) as [-> ->]. now apply attrs_direct. }
  destruct (Nat.eq_dec p a) as [<-|Hpa].
  - rewrite Z.eqb_refl. rewrite Nat.min_id.
    destruct (op_inserted_fmt _ _ p text (ins_to_cfmt x) W Hne) as (d' & u & q' & E & U).
    destruct (op_insert_fmt _ _ (Z.of_nat p) text (ins_to_cfmt x) W (Zle_0_nat p) Hne) as (d1 & u1 & ps' & E1 & W' & I & A & C1 & C2 & C3).
    assert (d1 = d') as -> by congruence. rewrite E. cbn [bind]. eexists d', _, q'. split; [reflexivity|].
    split; [|split; [exact U|lia]].
    fold its in I. rewrite clip_nat in I.
    apply (content_after _ _ _ _ e W W'); fold its; try easy.
    + unfold e. cbn [spec_edit]. rewrite lo_same, hi_same, spec_delete_none. easy.
    + now rewrite At.
  - rewrite (proj2 (Z.eqb_neq _ _)) by lia.
    destruct (op_replace_fmt _ _ (Z.of_nat p) (Z.of_nat a) text (ins_to_cfmt x) W ltac:(lia) Hne) as [E0|(d' & ps' & E & W' & I & A & C1 & C2 & C3)].
    + exfalso. destruct (within _ _ p a W Hd) as (pre & b & t & post & i & j & -> & Hij & Hj & Es & Ee).
      destruct (formatted_selection_same d pre b t post i j (Z.of_nat p) (Z.of_nat a) text (ins_to_cfmt x) W ltac:(lia) Hij Hj Hne Es Ee) as (d' & E & _). congruence.
    + fold its in I. rewrite clip_lo, clip_hi in I. rewrite <- Nat2Z.inj_min, <- Nat2Z.inj_add in E. rewrite E. cbn [bind].
      eexists d', _, 0. split; [reflexivity|]. split; [|split; [apply doc_eq_refl|lia]].
      apply (content_after _ _ _ _ e W W'); fold its; try easy. now rewrite At.
Qed.
Lemma exec_delete_good d k p a : good d k -> ready (ERemove p a) k -> p <> a ->
  exists d' cut, delete_text d (Z.of_nat p) (Z.of_nat a) = Ok (d', Z.of_nat (Nat.min p a), cut)
   /\ good d' (after (ERemove p a) k) /\ (d_next d <= d_next d')%N.
Proof.
  intros (ps & W & ->) [_ Hr] Hpa. cbn [k_items edit_range snd] in *. set (its := items_of (d_runs d) ps) in *.
  destruct (op_delete _ _ (Z.of_nat p) (Z.of_nat a) W) as (d' & ps' & E & W' & I & A & C1 & C2 & C3).
  fold its in E, I, A, C1. rewrite clip_lo, clip_hi in *. rewrite <- Nat2Z.inj_min in E.
  eexists d', _. split; [exact E|]. split; [|lia].
  apply (content_after _ _ _ _ (ERemove p a) W W'); fold its; try easy.
  - unfold edit_attrs. cbn [edit_range]. destruct (min_max_lo its p a) as [-> ->]. apply A. lia.
  - apply C1; lia.
Qed.
Lemma exec_break_good d k p : good d k -> p <= length (k_items k) ->
  exists d' i, insert_block d (Z.of_nat p) = Ok (d', Z.of_nat (p + 1), i)
   /\ good d' (after (EBreak p p) k) /\ (d_next d <= d_next d')%N.
Proof.
  intros (ps & W & ->) Hr. cbn [k_items] in *. set (its := items_of (d_runs d) ps) in *.
  destruct (op_break _ _ (Z.of_nat p) W) as (d' & ps' & E & W' & I & A & C1 & C2 & C3).
  fold its in E, I, A. rewrite clip_nat, Nat.min_l in * by easy.
  eexists d', _. split; [exact E|]. split; [|lia].
  apply (content_after _ _ _ _ (EBreak p p) W W'); fold its; try easy.
  - cbn [spec_edit]. rewrite lo_same, hi_same, spec_delete_none, Nat.min_l by easy. easy.
  - unfold edit_attrs. cbn [edit_range]. rewrite Nat.min_id, Nat.max_id, attrs_point, lo_same, Nat.min_l by easy.
    exact A.
Qed.
