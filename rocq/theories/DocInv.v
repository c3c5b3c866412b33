(** The invariant of flat documents, and reading a document through it. *)
From Verif Require Import Base BaseFacts FormatRunsModel FormatRunsSpec FormatRunsFacts
  RopeModel RopeSpec RopeFacts DocModel DocSpec BlockFacts.
From Coq Require Import Permutation.

(** Paragraphs: id and text, in display order. *)
Notation para := (id * str)%type.
Definition segs (ps : list para) : list seg := map (fun p => (MBlock (fst p), snd p)) ps.

Record wf (d : doc) (ps : list para) : Prop := {
  wf_ne : ps <> [];
  wf_rep : rep (d_rs d) (segs ps);
  wf_order : d_order d = map fst ps;
  wf_fblocks : Permutation (d_fblocks d) (map fst ps);
  wf_ids : Permutation (map b_id (d_blocks d)) (map fst ps);
  wf_runs_in : forall b t, In (b, t) ps -> wf_runs t (d_runs d b);
  wf_runs_out : forall b, ~ In b (map fst ps) -> d_runs d b = [];
  wf_images : forall b, d_images d b = [];
  wf_next : forall b, In b (map fst ps) -> (b < d_next d)%N
}.

(** ** Segments *)

Lemma segs_app a b : segs (a ++ b) = segs a ++ segs b.
Proof. apply map_app. Qed.
Lemma segs_cons b t l : segs ((b, t) :: l) = (MBlock b, t) :: segs l.
Proof. reflexivity. Qed.
Lemma segs_mid pre b t post : segs (pre ++ (b, t) :: post) = segs pre ++ (MBlock b, t) :: segs post.
Proof. now rewrite segs_app. Qed.
Lemma segs_length l : length (segs l) = length l.
Proof. apply map_length. Qed.
Lemma segs_anchors l : count_anchors (segs l) = 0.
Proof. induction l as [|[b t] l IH]; [easy|]. rewrite segs_cons, count_anchors_cons. now rewrite IH. Qed.
Lemma segs_snd l : map snd (segs l) = map snd l.
Proof. unfold segs. rewrite map_map. now apply map_ext. Qed.
Lemma segs_fst l : map fst (segs l) = map MBlock (map fst l).
Proof. unfold segs. rewrite !map_map. now apply map_ext. Qed.

Lemma in_segs_fst b l : In (MBlock b) (map fst (segs l)) <-> In b (map fst l).
Proof.
  rewrite segs_fst, in_map_iff. split; [|intros H; now exists b].
  now intros (x & [= ->] & H).
Qed.

Lemma wf_nodup d ps : wf d ps -> NoDup (map fst ps).
Proof.
  intros W. pose proof (rep_nodup _ _ (wf_rep _ _ W)) as N. rewrite segs_fst in N.
  now apply NoDup_map_inv in N.
Qed.

Lemma nodup_mid (pre post : list para) b t :
  NoDup (map fst (pre ++ (b, t) :: post)) -> ~ In b (map fst pre) /\ ~ In b (map fst post).
Proof.
  rewrite map_app. cbn [map fst]. intros H. apply NoDup_remove_2 in H.
  rewrite in_app_iff in H. auto.
Qed.

(** Characters of the paragraphs before, with one separator each. *)
Definition cpre (l : list para) : nat := length (jpre (segs l)).

Lemma cpre_nil : cpre [] = 0.
Proof. reflexivity. Qed.
Lemma cpre_app a b : cpre (a ++ b) = cpre a + cpre b.
Proof. unfold cpre. now rewrite segs_app, jpre_app, app_length. Qed.
Lemma cpre_cons b t l : cpre ((b, t) :: l) = length t + 1 + cpre l.
Proof. unfold cpre. rewrite segs_cons, jpre_cons, app_length. cbn [length]. lia. Qed.
Lemma cpre_one b t : cpre [(b, t)] = length t + 1.
Proof. rewrite cpre_cons, cpre_nil. lia. Qed.

Definition ctotal (l : list para) : nat := length (join (map snd l)).
Lemma ctotal_mid pre b t post : ctotal (pre ++ (b, t) :: post) = cpre pre + length t + cpre post.
Proof.
  unfold ctotal. rewrite <- segs_snd, segs_mid, join_mid, !app_length.
  enough (length (jpost (segs post)) = cpre post) by (unfold cpre in *; lia).
  induction post as [|[c u] post IH]; [easy|].
  rewrite segs_cons, jpost_cons, cpre_cons. cbn [length]. rewrite app_length. lia.
Qed.
Lemma ctotal_cons b t l : ctotal ((b, t) :: l) = length t + cpre l.
Proof. apply (ctotal_mid []). Qed.

(** Every position of the joined text is in exactly one paragraph. *)
Lemma locate ps n :
  ps <> [] -> n <= ctotal ps ->
  exists pre b t post i, ps = pre ++ (b, t) :: post /\ i <= length t /\ n = cpre pre + i.
Proof.
  revert n; induction ps as [|[b t] ps IH]; intros n Hne Hn; [easy|].
  rewrite ctotal_cons in Hn.
  destruct (le_lt_dec n (length t)).
  - exists [], b, t, ps, n. rewrite cpre_nil. repeat split; easy.
  - destruct ps as [|[c u] ps].
    { rewrite cpre_nil in Hn. lia. }
    destruct (IH (n - length t - 1)) as (pre & b' & t' & post & i & E & Hi & En); [easy| |].
    { rewrite cpre_cons in Hn. rewrite ctotal_cons. lia. }
    exists ((b, t) :: pre), b', t', post, i. rewrite cpre_cons. cbn [app]. rewrite <- E.
    repeat split; [easy|lia].
Qed.

(** Two ordered positions are in one paragraph or in two, in order. *)
Lemma locate2 ps n m :
  ps <> [] -> n <= m -> m <= ctotal ps ->
  (exists pre b t post i j, ps = pre ++ (b, t) :: post /\ i <= j /\ j <= length t
     /\ n = cpre pre + i /\ m = cpre pre + j)
  \/ (exists pre b t mid c u post i j,
        ps = pre ++ (b, t) :: mid ++ (c, u) :: post /\ i <= length t /\ j <= length u
        /\ n = cpre pre + i /\ m = cpre (pre ++ (b, t) :: mid) + j).
Proof.
  intros Hne Hnm Hm. destruct (locate ps n Hne ltac:(lia)) as (pre & b & t & post & i & -> & Hi & ->).
  rewrite ctotal_mid in Hm.
  destruct (le_lt_dec m (cpre pre + length t)).
  - left. exists pre, b, t, post, i, (m - cpre pre). repeat split; lia.
  - right. destruct post as [|p post].
    { rewrite cpre_nil in Hm. lia. }
    destruct (locate (p :: post) (m - cpre pre - length t - 1)) as (mid & c & u & post' & j & E & Hj & Em);
      [easy| |].
    { destruct p as [c u]. rewrite ctotal_cons. rewrite cpre_cons in Hm. lia. }
    exists pre, b, t, mid, c, u, post', i, j. rewrite E, cpre_app, cpre_cons.
    repeat split; try easy. lia.
Qed.

(** ** Reading items *)

Fixpoint items_of (R : id -> list run) (ps : list para) : list item :=
  match ps with
  | [] => []
  | [(b, t)] => styled t (R b)
  | (b, t) :: rest => styled t (R b) ++ Brk :: items_of R rest
  end.
Definition ipre (R : id -> list run) (l : list para) : list item :=
  concat (map (fun p => styled (snd p) (R (fst p)) ++ [Brk]) l).
Definition ipost (R : id -> list run) (l : list para) : list item :=
  concat (map (fun p => Brk :: styled (snd p) (R (fst p))) l).

Lemma ipre_cons R b t l : ipre R ((b, t) :: l) = styled t (R b) ++ Brk :: ipre R l.
Proof. unfold ipre. cbn. now rewrite <- app_assoc. Qed.
Lemma ipost_cons R b t l : ipost R ((b, t) :: l) = Brk :: styled t (R b) ++ ipost R l.
Proof. reflexivity. Qed.
Lemma ipre_app R a b : ipre R (a ++ b) = ipre R a ++ ipre R b.
Proof. unfold ipre. now rewrite map_app, concat_app. Qed.
Lemma ipost_app R a b : ipost R (a ++ b) = ipost R a ++ ipost R b.
Proof. unfold ipost. now rewrite map_app, concat_app. Qed.

Lemma items_cons R b t l : items_of R ((b, t) :: l) = styled t (R b) ++ ipost R l.
Proof.
  revert b t; induction l as [|[c u] l IH]; intros b t.
  - cbn. now rewrite app_nil_r.
  - change (items_of R ((b, t) :: (c, u) :: l)) with (styled t (R b) ++ Brk :: items_of R ((c, u) :: l)).
    rewrite IH, ipost_cons. easy.
Qed.

Lemma items_mid R pre b t post :
  items_of R (pre ++ (b, t) :: post) = ipre R pre ++ styled t (R b) ++ ipost R post.
Proof.
  induction pre as [|[c u] pre IH].
  - apply items_cons.
  - cbn [app]. rewrite ipre_cons.
    destruct (pre ++ (b, t) :: post) as [|q l] eqn:E; [destruct pre; discriminate|].
    change (items_of R ((c, u) :: q :: l)) with (styled u (R c) ++ Brk :: items_of R (q :: l)).
    rewrite IH, <- app_assoc. easy.
Qed.

Lemma ipre_length R l : length (ipre R l) = cpre l.
Proof.
  induction l as [|[b t] l IH]; [easy|].
  rewrite ipre_cons, cpre_cons, app_length. cbn [length]. unfold styled. rewrite styled_length, IH. lia.
Qed.
Lemma ipost_length R l : length (ipost R l) = cpre l.
Proof.
  induction l as [|[b t] l IH]; [easy|].
  rewrite ipost_cons, cpre_cons. cbn [length]. rewrite app_length. unfold styled. rewrite styled_length, IH. lia.
Qed.

Lemma ipre_ext R R' l : (forall b, In b (map fst l) -> R' b = R b) -> ipre R' l = ipre R l.
Proof.
  induction l as [|[b t] l IH]; intros H; [easy|].
  rewrite !ipre_cons, IH by (intros; apply H; now right). now rewrite (H b) by (now left).
Qed.
Lemma ipost_ext R R' l : (forall b, In b (map fst l) -> R' b = R b) -> ipost R' l = ipost R l.
Proof.
  induction l as [|[b t] l IH]; intros H; [easy|].
  rewrite !ipost_cons, IH by (intros; apply H; now right). now rewrite (H b) by (now left).
Qed.
Lemma items_ext R R' l : (forall b, In b (map fst l) -> R' b = R b) -> items_of R' l = items_of R l.
Proof.
  destruct l as [|[b t] l]; intros H; [easy|].
  rewrite !items_cons, (ipost_ext R R') by (intros; apply H; now right). now rewrite (H b) by (now left).
Qed.

Lemma items_length R ps : length (items_of R ps) = ctotal ps.
Proof.
  destruct ps as [|[b t] l]; [easy|].
  rewrite items_cons, ctotal_cons, app_length, ipost_length. unfold styled. now rewrite styled_length.
Qed.

Lemma plain_app a b : plain (a ++ b) = plain a ++ plain b.
Proof. apply map_app. Qed.

Lemma plain_items R ps : plain (items_of R ps) = join (map snd ps).
Proof.
  destruct ps as [|[b t] l]; [easy|].
  rewrite items_cons, plain_app. unfold styled. rewrite plain_styled.
  pose proof (join_cons_post t (segs l)) as J. rewrite segs_snd in J.
  cbn [map snd]. rewrite J. f_equal.
  clear J. induction l as [|[c u] l IH]; [easy|].
  rewrite ipost_cons, segs_cons, jpost_cons.
  change (plain (Brk :: styled u (R c) ++ ipost R l)) with (NL :: plain (styled u (R c) ++ ipost R l)).
  rewrite plain_app. unfold styled. rewrite plain_styled. now rewrite IH.
Qed.

Lemma wf_content d pre b t post :
  wf d (pre ++ (b, t) :: post) -> block_content (d_rs d) b = Ok t.
Proof. intros W. pose proof (wf_rep _ _ W) as R. rewrite segs_mid in R. eapply rep_content, R. Qed.

Lemma wf_content_in d ps b t : wf d ps -> In (b, t) ps -> block_content (d_rs d) b = Ok t.
Proof. intros W H. apply in_split in H. destruct H as (pre & post & ->). eapply wf_content, W. Qed.

Lemma wf_length_in d ps b t : wf d ps -> In (b, t) ps -> char_length d b = Ok (Z.of_nat (length t)).
Proof.
  intros W H. apply in_split in H. destruct H as (pre & post & ->).
  pose proof (wf_rep _ _ W) as R. rewrite segs_mid in R.
  unfold char_length. now rewrite (rep_char_length _ _ _ _ _ R).
Qed.

Lemma read_items_wf d ps l :
  wf d ps -> incl l ps -> read_items d (map fst l) = Ok (items_of (d_runs d) l).
Proof.
  intros W. induction l as [|[b t] l IH]; intros H; [easy|].
  pose proof (wf_content_in _ _ _ _ W (H _ (or_introl eq_refl))) as C.
  assert (H' : incl l ps) by (intros x Hx; apply H; now right).
  specialize (IH H'). destruct l as [|[c u] l].
  - cbn [map fst read_items]. now rewrite C.
  - change (read_items d (map fst ((b, t) :: (c, u) :: l)))
      with (let! t0 := block_content (d_rs d) b in
            let! more := read_items d (map fst ((c, u) :: l)) in
            Ok (styled t0 (d_runs d b) ++ Brk :: more)).
    rewrite C. cbn [bind]. rewrite IH. reflexivity.
Qed.

Lemma doc_items_wf d ps : wf d ps -> doc_items d = Ok (items_of (d_runs d) ps).
Proof.
  intros W. unfold doc_items. rewrite (wf_order _ _ W). eapply read_items_wf; [exact W|].
  intros x H; exact H.
Qed.

(** ** Blocks *)

Lemma find_block_in bs i : In i (map b_id bs) -> exists b, find_block bs i = Some b /\ b_id b = i /\ In b bs.
Proof.
  induction bs as [|b bs IH]; cbn [map In find_block]; [easy|].
  destruct (N.eqb_spec (b_id b) i) as [E|E].
  - intros _. exists b. auto.
  - intros [H|H]; [easy|]. destruct (IH H) as (x & H1 & H2 & H3). exists x. auto.
Qed.

Lemma find_block_none bs i : ~ In i (map b_id bs) -> find_block bs i = None.
Proof.
  induction bs as [|b bs IH]; cbn [map In find_block]; [easy|].
  intros H. destruct (N.eqb_spec (b_id b) i) as [E|E]; [tauto|]. apply IH. tauto.
Qed.

Lemma find_block_some bs i b : find_block bs i = Some b -> b_id b = i /\ In b bs.
Proof.
  induction bs as [|x bs IH]; cbn [find_block]; [easy|].
  destruct (N.eqb_spec (b_id x) i) as [E|E].
  - intros [= ->]. cbn; auto.
  - intros H. apply IH in H. cbn; tauto.
Qed.

Lemma wf_has d ps i : wf d ps -> In i (map fst ps) -> In i (map b_id (d_blocks d)).
Proof. intros W H. eapply Permutation_in; [symmetry; apply (wf_ids _ _ W)|easy]. Qed.

Lemma wf_get d ps i : wf d ps -> In i (map fst ps) -> exists b, get_block d i = Some b /\ b_id b = i.
Proof.
  intros W H. destruct (find_block_in (d_blocks d) i) as (b & H1 & H2 & _); [eapply wf_has; eassumption|].
  now exists b.
Qed.

Lemma wf_nblocks d ps : wf d ps -> length (d_blocks d) = length ps.
Proof.
  intros W. rewrite <- (map_length b_id), (Permutation_length (wf_ids _ _ W)). apply map_length.
Qed.

Lemma get_multi_ids d is_ :
  (forall i, In i is_ -> In i (map b_id (d_blocks d))) -> map b_id (get_multi d is_) = is_.
Proof.
  induction is_ as [|i is_ IH]; intros H; cbn [get_multi]; [easy|].
  destruct (find_block_in (d_blocks d) i) as (b & E & Hb & _); [apply H; now left|].
  unfold get_block. rewrite E. cbn [map]. rewrite Hb, IH; [easy|]. intros; apply H; now right.
Qed.

Lemma get_multi_in d is_ b : In b (get_multi d is_) -> In b (d_blocks d) /\ In (b_id b) is_.
Proof.
  induction is_ as [|i is_ IH]; cbn [get_multi]; [easy|].
  unfold get_block. destruct (find_block (d_blocks d) i) as [x|] eqn:E.
  - apply find_block_some in E. destruct E as [E1 E2]. intros [<-|H].
    + split; [easy|]. left. easy.
    + apply IH in H. cbn; tauto.
  - intros H. apply IH in H. cbn; tauto.
Qed.

Lemma wf_collect d ps : wf d ps -> collect_block_ids d = map fst ps.
Proof.
  intros W. unfold collect_block_ids. rewrite (wf_order _ _ W).
  pose proof (wf_ne _ _ W). now destruct ps.
Qed.

Lemma wf_multi d ps : wf d ps -> map b_id (get_multi d (collect_block_ids d)) = map fst ps.
Proof.
  intros W. rewrite (wf_collect _ _ W). apply get_multi_ids. intros i. now apply wf_has.
Qed.

Lemma wf_multi_f d ps : wf d ps -> map b_id (get_multi d (d_fblocks d)) = d_fblocks d.
Proof.
  intros W. apply get_multi_ids. intros i H. eapply wf_has; [exact W|].
  eapply Permutation_in; [apply (wf_fblocks _ _ W)|easy].
Qed.

Lemma insert_sorted_perm b l : Permutation (insert_sorted b l) (b :: l).
Proof.
  induction l as [|x l IH]; cbn [insert_sorted]; [easy|].
  destruct (_ <=? _)%Z; [easy|]. rewrite IH. constructor.
Qed.
Lemma sort_perm l : Permutation (sort_blocks l) l.
Proof.
  induction l as [|b l IH]; [easy|]. cbn [sort_blocks fold_right].
  fold (sort_blocks l). rewrite insert_sorted_perm. now constructor.
Qed.

Fixpoint sorted_pos (l : list block) : Prop :=
  match l with
  | a :: ((b :: _) as rest) => (b_pos a <= b_pos b)%Z /\ sorted_pos rest
  | _ => True
  end.
Lemma sort_id l : sorted_pos l -> sort_blocks l = l.
Proof.
  induction l as [|a l IH]; intros H; [easy|]. cbn [sort_blocks fold_right]. fold (sort_blocks l).
  destruct l as [|b l]; [easy|]. cbn [sorted_pos] in H. destruct H as [H1 H2].
  rewrite (IH H2). cbn [insert_sorted]. destruct (_ <=? _)%Z eqn:E; [easy|lia].
Qed.

Lemma index_of_mid pre b post :
  ~ In (b_id b) (map b_id pre) -> index_of_block (b_id b) (pre ++ b :: post) = Some (length pre).
Proof.
  induction pre as [|x pre IH]; cbn [app index_of_block map In length]; intros H.
  - now rewrite N.eqb_refl.
  - destruct (N.eqb_spec (b_id x) (b_id b)) as [E|E]; [tauto|]. rewrite IH by tauto. easy.
Qed.

Lemma index_of_in i bs :
  In i (map b_id bs) -> exists k b, index_of_block i bs = Some k /\ nth_error bs k = Some b /\ b_id b = i.
Proof.
  induction bs as [|x bs IH]; cbn [index_of_block map In]; [easy|].
  destruct (N.eqb_spec (b_id x) i) as [E|E].
  - intros _. exists 0, x. auto.
  - intros [H|H]; [easy|]. destruct (IH H) as (k & b & -> & H1 & H2). exists (S k), b. auto.
Qed.

Lemma index_of_inj i j bs k :
  index_of_block i bs = Some k -> index_of_block j bs = Some k -> i = j.
Proof.
  revert k; induction bs as [|x bs IH]; intros k; cbn [index_of_block]; [easy|].
  destruct (N.eqb_spec (b_id x) i) as [E|E], (N.eqb_spec (b_id x) j) as [E'|E']; intros H1 H2.
  - congruence.
  - injection H1 as <-. destruct (index_of_block j bs); discriminate.
  - injection H2 as <-. destruct (index_of_block i bs); discriminate.
  - destruct (index_of_block i bs) eqn:F1, (index_of_block j bs) eqn:F2; try discriminate.
    cbn in *. injection H1 as <-. injection H2 as E3. subst. eapply IH; eauto.
Qed.

(** ** Changes that touch only stored block fields and counts *)

Record meta (d d' : doc) : Prop := {
  meta_rs : d_rs d' = d_rs d;
  meta_ids : map b_id (d_blocks d') = map b_id (d_blocks d);
  meta_runs : d_runs d' = d_runs d;
  meta_images : d_images d' = d_images d;
  meta_fblocks : d_fblocks d' = d_fblocks d;
  meta_order : d_order d' = d_order d;
  meta_next : d_next d' = d_next d
}.

Lemma meta_refl d : meta d d.
Proof. now constructor. Qed.
Lemma meta_trans a b c : meta a b -> meta b c -> meta a c.
Proof. intros [] []; constructor; congruence. Qed.
Lemma meta_sym a b : meta a b -> meta b a.
Proof. intros []; now constructor. Qed.

Lemma put_ids bs b : In (b_id b) (map b_id bs) -> map b_id (put_block bs b) = map b_id bs.
Proof.
  induction bs as [|x bs IH]; cbn [map In put_block]; [easy|].
  destruct (N.eqb_spec (b_id x) (b_id b)) as [E|E]; intros H.
  - cbn. now rewrite E.
  - cbn [map]. rewrite IH by tauto. easy.
Qed.

Lemma meta_update d b : In (b_id b) (map b_id (d_blocks d)) -> meta d (update_block d b).
Proof. intros H. constructor; try easy. now apply put_ids. Qed.

Lemma meta_update_multi d bs :
  (forall i, In i (map b_id bs) -> In i (map b_id (d_blocks d))) -> meta d (update_multi d bs).
Proof.
  revert d; induction bs as [|b bs IH]; intros d H; [apply meta_refl|].
  assert (M : meta d (update_block d b)) by (apply meta_update, H; now left).
  eapply meta_trans; [exact M|]. apply IH. rewrite (meta_ids _ _ M).
  intros i Hi. apply H. now right.
Qed.

Lemma meta_chars d x : meta d (set_chars d x). Proof. now constructor. Qed.
Lemma meta_nblocks d x : meta d (set_nblocks d x). Proof. now constructor. Qed.

Lemma wf_meta d d' ps : wf d ps -> meta d d' -> wf d' ps.
Proof.
  intros [] []; constructor; auto; try congruence.
  all: intros; rewrite ?meta_runs0, ?meta_images0, ?meta_next0; auto.
Qed.

Lemma meta_items d d' ps : meta d d' -> items_of (d_runs d') ps = items_of (d_runs d) ps.
Proof. intros M. now rewrite (meta_runs _ _ M). Qed.

(** One paragraph replaced. *)
Lemma wf_edit d pre b t post t' R' d' :
  wf d (pre ++ (b, t) :: post) ->
  rep (d_rs d') (segs (pre ++ (b, t') :: post)) ->
  wf_runs t' R' ->
  map b_id (d_blocks d') = map b_id (d_blocks d) ->
  (forall i, d_runs d' i = upd (d_runs d) b R' i) ->
  (forall i, d_images d' i = []) ->
  d_fblocks d' = d_fblocks d -> d_order d' = d_order d -> d_next d' = d_next d ->
  wf d' (pre ++ (b, t') :: post)
  /\ items_of (d_runs d') (pre ++ (b, t') :: post)
     = ipre (d_runs d) pre ++ styled t' R' ++ ipost (d_runs d) post.
Proof.
  intros W Hrep Hr Hids Hruns Him Hf Ho Hn.
  assert (Ef : map fst (pre ++ (b, t') :: post) = map fst (pre ++ (b, t) :: post))
    by (now rewrite !map_app).
  pose proof (wf_nodup _ _ W) as ND. apply nodup_mid in ND. destruct ND as [N1 N2].
  split.
  - destruct W. constructor; auto; try congruence.
    + now destruct pre.
    + intros c u Hin. rewrite Hruns. unfold upd.
      apply in_app_iff in Hin. destruct Hin as [Hin|[[= <- <-]|Hin]].
      * destruct (N.eqb_spec c b) as [->|]; [now apply (in_map fst) in Hin|].
        apply wf_runs_in0, in_app_iff. now left.
      * now rewrite N.eqb_refl.
      * destruct (N.eqb_spec c b) as [->|]; [now apply (in_map fst) in Hin|].
        apply wf_runs_in0, in_app_iff. right. now right.
    + intros c Hc. rewrite Hruns. unfold upd. rewrite Ef in Hc.
      destruct (N.eqb_spec c b) as [->|]; [|auto].
      exfalso. apply Hc. rewrite map_app, in_app_iff. right. now left.
    + intros c Hc. rewrite Hn. apply wf_next0. congruence.
  - rewrite items_mid. rewrite Hruns. unfold upd at 1. rewrite N.eqb_refl. f_equal; [|f_equal].
    + apply ipre_ext. intros c Hc. rewrite Hruns. unfold upd.
      destruct (N.eqb_spec c b) as [->|]; easy.
    + apply ipost_ext. intros c Hc. rewrite Hruns. unfold upd.
      destruct (N.eqb_spec c b) as [->|]; easy.
Qed.

(** ** Locating *)

Definition clipz (n : nat) (p : Z) : nat := Z.to_nat (Z.max 0 (Z.min p (Z.of_nat n))).

Lemma clip_items R ps p : clip (items_of R ps) p = clipz (ctotal ps) p.
Proof. unfold clip, clipz. now rewrite items_length. Qed.

Lemma clipz_le n p : clipz n p <= n.
Proof. unfold clipz. lia. Qed.
Lemma clipz_mono n p q : (p <= q)%Z -> clipz n p <= clipz n q.
Proof. unfold clipz. lia. Qed.
Lemma clipz_id n k : k <= n -> clipz n (Z.of_nat k) = k.
Proof. unfold clipz. lia. Qed.

Lemma rope_length st ps : rep st (segs ps) -> length (rope st) = ctotal ps.
Proof. intros R. now rewrite (rep_rope _ _ R), segs_snd. Qed.

Lemma find_any d pre b t post i p :
  wf d (pre ++ (b, t) :: post) -> i <= length t ->
  clipz (ctotal (pre ++ (b, t) :: post)) p = cpre pre + i ->
  find_block_at_char_position (d_rs d) (length (d_blocks d)) p = Ok (Some (b, i, cpre pre)).
Proof.
  intros W Hi Hp. pose proof (wf_rep _ _ W) as R.
  pose proof (rope_length _ _ R) as L.
  rewrite segs_mid in R.
  assert (HA : count_anchors (segs pre ++ (MBlock b, t) :: segs post) = 0).
  { rewrite <- segs_mid. apply segs_anchors. }
  rewrite (wf_nblocks _ _ W), <- segs_length, segs_mid.
  transitivity (Ok (Some (b, i, length (jpre (segs pre))))); [|easy].
  rewrite <- (rep_find_block _ _ _ _ _ i _ R HA eq_refl Hi).
  unfold find_block_at_char_position. rewrite L.
  destruct (negb _); [easy|].
  replace (Z.to_nat (Z.max 0 (Z.min (Z.of_nat (length (jpre (segs pre)) + i)) (Z.of_nat (ctotal (pre ++ (b, t) :: post))))))
    with (Z.to_nat (Z.max 0 (Z.min p (Z.of_nat (ctotal (pre ++ (b, t) :: post)))))); [easy|].
  unfold clipz, cpre in Hp. rewrite Hp.
  pose proof (clipz_le (ctotal (pre ++ (b, t) :: post)) p) as C. unfold clipz in C. rewrite Hp in C. lia.
Qed.

Lemma flow_matches d ps : wf d ps -> positions_match_flow (d_rs d) (length (d_blocks d)) = true.
Proof.
  intros W. pose proof (wf_rep _ _ W) as R. unfold positions_match_flow.
  rewrite (rep_anchors _ _ R), segs_anchors, (rep_entries _ _ R), starts_length, segs_length,
    (wf_nblocks _ _ W). now rewrite !Nat.eqb_refl.
Qed.

(** Looking the paragraph up in any list holding the same blocks. *)
Lemma find_in_list d pre b t post i p bs :
  wf d (pre ++ (b, t) :: post) -> i <= length t ->
  clipz (ctotal (pre ++ (b, t) :: post)) p = cpre pre + i ->
  In b (map b_id bs) ->
  exists k x, index_of_block b bs = Some k /\ nth_error bs k = Some x /\ b_id x = b /\
  find_block_at_position d bs p = Ok (set_b_pos x (Z.of_nat (cpre pre)), k, Z.of_nat i).
Proof.
  intros W Hi Hp Hin. destruct (index_of_in _ _ Hin) as (k & x & H1 & H2 & H3).
  exists k, x. repeat split; auto. unfold find_block_at_position.
  rewrite (find_any _ _ _ _ _ _ _ W Hi Hp). cbn [bind]. now rewrite H1, H2.
Qed.

(** ** Without images *)

Lemma lob_nil text off : logical_offset_to_byte text [] off = boff text off.
Proof.
  assert (G : forall b l, l <= off -> lob_go text [] b l off = b + boff text (off - l)).
  { induction text as [|c text IH]; intros b l Hl; cbn [lob_go].
    - unfold boff. rewrite firstn_nil. cbn. lia.
    - cbn [skip_images]. destruct (l =? off) eqn:E.
      + apply Nat.eqb_eq in E. subst. rewrite Nat.sub_diag, boff_0. lia.
      + rewrite IH by lia. replace (off - l) with (S (off - S l)) by lia. rewrite boff_cons. lia. }
  unfold logical_offset_to_byte. destruct (off =? 0) eqn:E.
  - apply Nat.eqb_eq in E. subst. now rewrite boff_0.
  - rewrite G by lia. now rewrite Nat.sub_0_r.
Qed.

Lemma boff_split (t : str) i : boff t i = blen (firstn i t).
Proof. reflexivity. Qed.

Lemma slice_0_boff (t : str) i : byte_slice t 0 (boff t i) = Ok (firstn i t).
Proof.
  pose proof (byte_slice_app [] (firstn i t) (skipn i t)) as H. cbn [app blen plus] in H.
  now rewrite firstn_skipn in H.
Qed.
Lemma slice_boff_end (t : str) i : byte_slice t (boff t i) (blen t) = Ok (skipn i t).
Proof.
  pose proof (byte_slice_app (firstn i t) (skipn i t) []) as H.
  rewrite app_nil_r, firstn_skipn in H. rewrite boff_split.
  replace (blen t) with (blen (firstn i t) + blen (skipn i t)); [easy|].
  now rewrite <- blen_app, firstn_skipn.
Qed.

Lemma shift_images_insert_nil o n : shift_images_for_insert [] o n = [].
Proof. unfold shift_images_for_insert. now destruct (n =? 0). Qed.
Lemma shift_images_delete_nil a b : shift_images_for_delete [] a b = ([], 0).
Proof. unfold shift_images_for_delete. now destruct (b <=? a). Qed.
