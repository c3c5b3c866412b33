(** Replacing matches in a document. *)
From Verif Require Import Base BaseFacts FormatRunsModel FormatRunsSpec FormatRunsFacts
  RopeModel RopeSpec RopeFacts DocModel DocSpec BlockFacts DocInv DocFacts DocAttr DocDelete DocReplace
  DocImport DocFormat DocQuery SearchModel.
From Coq Require Import Permutation.

Lemma put_same bs x : find_block bs (b_id x) = Some x -> put_block bs x = bs.
Proof.
  induction bs as [|y bs IH]; cbn [find_block put_block]; [easy|].
  destruct (N.eqb (b_id y) (b_id x)).
  - intros [= ->]. destruct x. reflexivity.
  - intros H. now rewrite IH.
Qed.

Lemma app_inv_length {A} (a b c e : list A) : length a = length c -> a ++ b = c ++ e -> a = c /\ b = e.
Proof.
  revert c; induction a as [|x a IH]; intros [|y c] L H; try discriminate; [easy|].
  cbn in L, H. injection L as L. injection H as -> H. destruct (IH _ L H). now subst.
Qed.

(** One replacement in a paragraph. *)
Lemma replace_in_block_wf d pre b t post x i j cs ce r :
  wf d (pre ++ (b, t) :: post) -> i <= j ->
  i = Nat.min cs (length t) -> j = Nat.min ce (length t) -> get_block d b = Some x ->
  let ps' := pre ++ (b, firstn i t ++ r ++ skipn j t) :: post in
  exists d', replace_in_block d x cs ce r = Ok d'
   /\ wf d' ps'
   /\ items_of (d_runs d') ps'
      = spec_insert (cpre pre + i) r (spec_delete (cpre pre + i) (cpre pre + j) (items_of (d_runs d) (pre ++ (b, t) :: post)))
   /\ d_blocks d' = d_blocks d /\ d_chars d' = d_chars d /\ d_nblocks d' = d_nblocks d
   /\ d_next d' = d_next d /\ d_order d' = d_order d /\ d_fblocks d' = d_fblocks d.
Proof.
  intros W Hij Hi Hj Hx ps'. pose proof (find_block_some _ _ _ Hx) as [Hid _].
  assert (Hjt : j <= length t) by lia.
  unfold replace_in_block. rewrite Hid, (wf_content _ _ _ _ _ W). cbn [bind].
  rewrite (wf_images _ _ W), !lob_nil, (boff_min t cs), (boff_min t ce), <- Hi, <- Hj.
  rewrite slice_0_boff. cbn [bind]. rewrite (slice_mid t i j) by easy. cbn [bind].
  set (R1 := shift_runs_for_delete _ _ _). set (R' := shift_runs_for_insert R1 _ _).
  cbn [d_images set_runs]. rewrite (wf_images _ _ W), shift_images_delete_nil. cbn [fst].
  rewrite shift_images_insert_nil.
  pose proof (wf_rep _ _ W) as Q1. rewrite segs_mid in Q1. rewrite (cut3 t i j) in Q1 by easy.
  destruct (rep_delete_in_block _ _ _ _ _ _ _ Q1) as (st1 & E1 & Q2).
  destruct (rep_insert_in_block _ _ _ (firstn i t) (skipn j t) r _ Q2) as (st2 & E2 & Q3).
  cbn [d_rs update_block set_blocks set_images set_runs].
  rewrite (boff_mid t i j) by easy. rewrite boff_split, E1. cbn [bind]. rewrite E2. cbn [bind].
  set (d' := set_rs _ _).
  assert (Wr : wf_runs (firstn i t ++ mid_text t i j ++ skipn j t) (d_runs d b)).
  { rewrite <- cut3 by easy. apply (wf_runs_in _ _ W). rewrite in_app_iff. right. now left. }
  assert (Wr1 : wf_runs (firstn i t ++ skipn j t) R1).
  { unfold R1. rewrite (boff_mid t i j), boff_split by easy. apply delete_runs_wf, Wr. }
  assert (Eb : d_blocks d' = d_blocks d).
  { cbn. apply put_same. unfold get_block in Hx. now rewrite Hid. }
  assert (HW : wf d' ps' /\ items_of (d_runs d') ps'
       = ipre (d_runs d) pre ++ styled (firstn i t ++ r ++ skipn j t) R' ++ ipost (d_runs d) post).
  { eapply wf_edit; try reflexivity.
    - exact W.
    - cbn. rewrite segs_mid. exact Q3.
    - unfold R'. rewrite boff_split. apply insert_runs_wf, Wr1.
    - now rewrite Eb.
    - intros c. cbn. unfold upd. destruct (N.eqb c b); [easy|apply (wf_images _ _ W)]. }
  destruct HW as [W' I']. exists d'. split; [reflexivity|]. split; [exact W'|]. split; [|now repeat split].
  rewrite I'. unfold R'. rewrite boff_split, (insert_runs_styled _ _ _ _ Wr1).
  assert (Es : styled (firstn i t ++ skipn j t) R1 = styled (firstn i t) (d_runs d b) ++ styled_from (boff t j) (skipn j t) (d_runs d b)).
  { unfold R1. rewrite (boff_mid t i j), boff_split by easy. now rewrite (delete_runs_styled _ _ _ _ Wr). }
  assert (Es' : styled (firstn i t ++ skipn j t) R1 = styled (firstn i t) R1 ++ styled_from (blen (firstn i t)) (skipn j t) R1).
  { unfold styled. rewrite styled_app. reflexivity. }
  rewrite Es in Es'. assert (L0 : length (styled (firstn i t) (d_runs d b)) = length (styled (firstn i t) R1))
    by (unfold styled; now rewrite !styled_length).
  destruct (app_inv_length _ _ _ _ L0 Es') as [S1 S2]. rewrite <- S1, <- S2.
  unfold spec_delete.
  rewrite (firstn_items (d_runs d) pre b t post i) by lia.
  rewrite (skipn_items (d_runs d) pre b t post j) by lia.
  unfold spec_insert.
  assert (L : length (ipre (d_runs d) pre ++ styled (firstn i t) (d_runs d b)) = cpre pre + i).
  { rewrite app_length, ipre_length. unfold styled. rewrite styled_length, firstn_length. lia. }
  rewrite (firstn_exact _ _ _ L), (skipn_exact _ _ _ L), last_fmt_styled.
  rewrite <- !app_assoc. reflexivity.
Qed.

(** ** Whatever the ranges, the document stays well formed *)

Lemma in_paras (ps : list para) b : In b (map fst ps) -> exists pre t post, ps = pre ++ (b, t) :: post.
Proof.
  intros H. apply in_map_iff in H. destruct H as ([c t] & <- & H). apply in_split in H.
  destruct H as (pre & post & ->). exists pre, t, post. reflexivity.
Qed.

Definition known (ps : list para) (bs : list block) : Prop := forall x, In x bs -> In (b_id x) (map fst ps).

Lemma find_for_total d ps bs p : wf d ps -> known ps bs -> forall k,
  exists r, find_block_for_position d bs k p = Ok r
   /\ match r with Some (k', _) => k <= k' < k + length bs | None => True end.
Proof.
  intros W. induction bs as [|x bs IH]; intros K k; cbn [find_block_for_position length].
  - exists None. easy.
  - destruct (in_paras ps (b_id x)) as (pre & t & post & E); [apply K; now left|]. subst ps.
    rewrite (wf_len_mid _ _ _ _ _ W). cbn [bind].
    destruct (_ && _)%bool.
    + eexists. split; [reflexivity|]. cbn. lia.
    + destruct (IH (fun y H => K y (or_intror H)) (S k)) as (r & -> & H). exists r. split; [easy|].
      destruct r as [[k' o]|]; [lia|easy].
Qed.

Lemma valid_total d ps bs : wf d ps -> known ps bs -> forall ms,
  exists vs n, valid_matches d bs ms = Ok (vs, n) /\ (forall v, In v vs -> snd (fst v) < length bs)
   /\ (Z.of_nat (length vs) + n = Z.of_nat (length ms))%Z /\ (0 <= n)%Z.
Proof.
  intros W K. induction ms as [|m ms IH]; cbn [valid_matches].
  - exists [], 0%Z. repeat split; easy.
  - unfold match_in_single_block.
    destruct (find_for_total _ _ bs (fst m) W K 0) as (r & -> & H). cbn [bind].
    destruct IH as (vs & n & -> & Hv & Hn & Hp). destruct r as [[k o]|]; cbn [bind].
    + destruct (nth_error bs k) as [x|] eqn:Ex; [|apply nth_error_None in Ex; lia]. cbn [unwrap bind].
      destruct (in_paras ps (b_id x)) as (pre & t & post & E); [apply K; eapply nth_error_In, Ex|]. subst ps.
      rewrite (wf_len_mid _ _ _ _ _ W). cbn [bind]. destruct (_ <=? _)%Z.
      * eexists _, _. split; [reflexivity|]. cbn [length]. split; [|lia]. intros v [<-|Hv']; [cbn; lia|auto].
      * eexists _, _. split; [reflexivity|]. cbn [length]. split; [|lia]. auto.
    + eexists _, _. split; [reflexivity|]. cbn [length]. split; [|lia]. auto.
Qed.

Lemma replace_each_wf bs r : forall vs d ps, wf d ps -> known ps bs -> (forall v, In v vs -> snd (fst v) < length bs) ->
  exists d' ps', replace_each d bs vs r = Ok d' /\ wf d' ps' /\ map fst ps' = map fst ps
   /\ d_blocks d' = d_blocks d /\ d_chars d' = d_chars d /\ d_nblocks d' = d_nblocks d
   /\ d_next d' = d_next d /\ d_order d' = d_order d /\ d_fblocks d' = d_fblocks d.
Proof.
  induction vs as [|[[len k] off] vs IH]; intros d ps W K Hv; cbn [replace_each].
  - exists d, ps. split; [easy|]. split; [easy|]. repeat split; reflexivity.
  - specialize (Hv (len, k, off) (or_introl eq_refl)) as Hk. cbn in Hk.
    destruct (nth_error bs k) as [x|] eqn:Ex; [|apply nth_error_None in Ex; lia]. cbn [unwrap bind].
    destruct (in_paras ps (b_id x)) as (pre & t & post & E); [apply K; eapply nth_error_In, Ex|]. subst ps.
    destruct (wf_get_mid _ _ _ _ _ W) as [y Ey]. rewrite Ey. cbn [ok_or bind].
    destruct (replace_in_block_wf d pre (b_id x) t post y (Nat.min off (length t)) (Nat.min (off + len) (length t))
                off (off + len) r W ltac:(lia) eq_refl eq_refl Ey)
      as (d1 & -> & W1 & _ & B1 & B2 & B3 & B4 & B5 & B6). cbn [bind].
    destruct (IH d1 _ W1) as (d' & ps' & -> & W' & M & C1 & C2 & C3 & C4 & C5 & C6).
    + intros z Hz. specialize (K z Hz). rewrite map_app in *. exact K.
    + intros v H. apply Hv. now right.
    + exists d', ps'. split; [easy|]. split; [easy|]. rewrite M, !map_app. cbn [map fst].
      split; [easy|]. repeat split; congruence.
Qed.

(** The blocks whose position is shifted, as a partial map on the blocks. *)
Lemma shifted_in bs delta cur : forall s y, In y (shifted_blocks bs delta cur s) ->
  exists z n, In z cur /\ y = set_b_pos z n.
Proof.
  induction cur as [|b cur IH]; intros s y H; cbn [shifted_blocks] in H; [easy|].
  destruct (s =? 0)%Z.
  - destruct (IH _ _ H) as (z & n & Hz & ->). exists z, n. split; [now right|easy].
  - destruct H as [<-|H]; [exists b; eexists; split; [now left|reflexivity]|].
    destruct (IH _ _ H) as (z & n & Hz & ->). exists z, n. split; [now right|easy].
Qed.

Definition vs_total (r : str) (vs : list (nat * nat * nat)) : Z :=
  fold_right (fun v n => (Z.of_nat (length r) - Z.of_nat (fst (fst v)) + n)%Z) 0%Z vs.

Lemma op_matches d ps ms all r : wf d ps ->
  exists d' n s ps', replace_matches d ms all r = Ok (d', n, s) /\ wf d' ps' /\ map fst ps' = map fst ps
   /\ para_attrs d' = para_attrs d /\ d_nblocks d' = d_nblocks d /\ d_next d' = d_next d
   /\ (0 <= n)%Z /\ (0 <= s)%Z /\ (n + s <= Z.of_nat (length ms))%Z /\ (all = true -> n + s = Z.of_nat (length ms))%Z.
Proof.
  intros W. unfold replace_matches. destruct ms as [|m0 ms0].
  { exists d, 0%Z, 0%Z, ps. do 6 (split; [easy|]). cbn [length]. lia. }
  set (ms := m0 :: ms0). set (bs := sort_blocks _).
  destruct (sorted_f_ids _ _ W) as (S1 & _ & S3). fold bs in S1, S3.
  assert (K : known ps bs) by (intros x Hx; apply S1; now apply in_map).
  destruct (valid_total _ _ bs W K ms) as (vs0 & sk & -> & Hv0 & Hn & Hp). cbn [bind].
  set (vs := if all then vs0 else firstn 1 vs0).
  assert (Hsub : forall v, In v vs -> In v vs0).
  { unfold vs. destruct all; [easy|]. intros v H. rewrite <- (firstn_skipn 1 vs0), in_app_iff. now left. }
  assert (Hl : length vs <= length vs0 /\ (all = true -> length vs = length vs0)).
  { unfold vs. destruct all; [easy|]. split; [rewrite firstn_length; lia|discriminate]. }
  destruct vs as [|v1 vs1] eqn:Evs.
  { exists d, 0%Z, sk, ps. cbn [length] in Hl. do 6 (split; [easy|]). split; [easy|]. split; [easy|]. split; [lia|].
    intros Ha. destruct Hl as [_ Hl]. specialize (Hl Ha). lia. }
  rewrite <- Evs in *. clear v1 vs1 Evs.
  destruct (replace_each_wf bs r (rev vs) d ps W K) as (d1 & ps1 & -> & W1 & M1 & B1 & B2 & B3 & B4 & B5 & B6).
  { intros v H. apply Hv0, Hsub. now rewrite in_rev. }
  cbn [bind].
  set (cur := sort_blocks _). set (d2 := update_multi d1 _).
  assert (A : forall y, In y (shifted_blocks bs (delta_of r vs) cur 0) ->
     In (b_id y) (map b_id (d_blocks d1)) /\ attr d1 (b_id y) = Some (b_list y, b_fmt y)).
  { intros y Hy. apply shifted_in in Hy. destruct Hy as (z & n & Hz & ->). cbn [b_id b_list b_fmt set_b_pos].
    destruct (sorted_f_ids _ _ W1) as (T1 & _ & T3). fold cur in T1, T3. split.
    - eapply wf_has; [exact W1|]. apply T1. now apply in_map.
    - eapply sorted_multi_attr. exact Hz. }
  assert (M : meta d1 d2).
  { apply meta_update_multi. intros i Hi. apply in_map_iff in Hi. destruct Hi as (y & <- & Hy). now apply A. }
  assert (Sa : same_attr d1 d2) by (apply attr_update_multi; intros y Hy; now apply A).
  eexists _, _, _, ps1. split; [reflexivity|]. split; [|split; [exact M1|split; [|split; [|split; [|split; [lia|split; [lia|split; [lia|]]]]]]]].
  - eapply wf_meta; [eapply wf_meta; [exact W1|exact M]|apply meta_chars].
  - transitivity (para_attrs d2); [easy|]. transitivity (para_attrs d1).
    + apply para_attrs_same; [exact Sa|apply (meta_order _ _ M)].
    + apply para_attrs_same; [now apply same_attr_blocks|easy].
  - cbn [d_nblocks set_chars]. rewrite <- B3. apply update_multi_nblocks.
  - cbn [d_next set_chars]. rewrite <- B4. apply (meta_next _ _ M).
  - intros Ha. destruct Hl as [_ Hl]. specialize (Hl Ha). lia.
Qed.
