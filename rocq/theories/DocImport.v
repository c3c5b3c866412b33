(** New documents and plain text import. *)
From Verif Require Import Base BaseFacts FormatRunsModel FormatRunsSpec FormatRunsFacts
  RopeModel RopeSpec RopeFacts DocModel DocSpec BlockFacts DocInv DocFacts DocAttr.
From Coq Require Import Permutation.

Lemma jpre_join l : l <> [] -> jpre l = join (map snd l) ++ [NL].
Proof.
  intros H. destruct (exists_last H) as (l' & [m t] & ->).
  rewrite join_mid, jpre_app, jpre_cons. unfold jpost, jpre at 2. cbn. now rewrite !app_nil_r, <- app_assoc.
Qed.

Definition bounded (st : rstore) (l : list seg) : rstore :=
  match l with [] => st | _ => rope_insert_block_boundary st end.

Lemma rep_append st l b t :
  rep st l -> ~ In (MBlock b) (map fst l) ->
  rep (rope_append_block (bounded st l) b t) (l ++ [(MBlock b, t)]).
Proof.
  intros [R1 R2 R3 R4 R5 R6] Hb.
  assert (Er : rope (bounded st l) = jpre l).
  { destruct l as [|s l]; [cbn [bounded]; now rewrite R1|].
    cbn [bounded rope rope_insert_block_boundary]. rewrite jpre_join, R1; easy. }
  assert (Ee : entries (index (bounded st l)) = starts 0 l) by (rewrite <- R2; now destruct l).
  assert (Em : forall m, midx (index (bounded st l)) m = seg_pos m l) by (intros m; rewrite <- R4; now destruct l).
  assert (Ea : anchor_count (index (bounded st l)) = count_anchors l) by (rewrite <- R5; now destruct l).
  unfold rope_append_block. constructor; cbn [rope index set_total push entries total midx anchor_count].
  - rewrite join_mid, Er. unfold jpost. cbn. now rewrite app_nil_r.
  - now rewrite Ee, starts_app, Er.
  - reflexivity.
  - intros m. rewrite Ee, starts_length, seg_pos_app, Em. cbn [seg_pos].
    destruct (marker_eqb m (MBlock b)) eqn:E.
    + apply marker_eqb_true in E. subst m. apply seg_pos_none in Hb. rewrite Hb. cbn. f_equal. lia.
    + now destruct (seg_pos m l).
  - rewrite Ea, count_anchors_app. unfold bump_anchor, count_anchors. cbn. lia.
  - rewrite map_app. apply nodup_app_intro; [easy|cbn; constructor; [easy|constructor]|].
    intros x Hx [<-|[]]. now apply Hb.
Qed.

Lemma rep_reset : rep rope_reset [].
Proof. constructor; try easy. constructor. Qed.

(** Ids handed out one after the other. *)
Fixpoint ids_from (n : id) (k : nat) : list id :=
  match k with O => [] | S k => n :: ids_from (N.succ n) k end.

Lemma ids_from_length n k : length (ids_from n k) = k.
Proof. revert n; induction k; intros; cbn; auto. Qed.
Lemma ids_from_in n k i : In i (ids_from n k) -> (n <= i /\ i < n + N.of_nat k)%N.
Proof.
  revert n; induction k as [|k IH]; intros n; cbn [ids_from In]; [easy|].
  intros [<-|H]; [lia|]. apply IH in H. lia.
Qed.

Lemma combine_fst {A B} (a : list A) (b : list B) : length a = length b -> map fst (combine a b) = a.
Proof. revert b; induction a as [|x a IH]; intros [|y b]; cbn; try easy. intros [= H]. f_equal; auto. Qed.
Lemma combine_snd {A B} (a : list A) (b : list B) : length a = length b -> map snd (combine a b) = b.
Proof. revert b; induction a as [|x a IH]; intros [|y b]; cbn; try easy. intros [= H]. f_equal; auto. Qed.

Fixpoint new_blocks (n : id) (pos : Z) (ls : list str) : list block :=
  match ls with
  | [] => []
  | l :: rest => mk_block n pos None bfmt_default
                 :: new_blocks (N.succ n) (pos + Z.of_nat (length l) + 1)%Z rest
  end.

Lemma import_lines_full : forall ls d first pos l,
  rep (d_rs d) l -> (first = true <-> l = []) ->
  (forall b, In (MBlock b) (map fst l) -> (b < d_next d)%N) ->
  exists rs',
    import_lines d first pos ls =
     (mk_doc rs' (d_blocks d ++ new_blocks (d_next d) pos ls) (d_runs d) (d_images d)
             (d_fblocks d ++ ids_from (d_next d) (length ls)) (d_order d) (d_chars d) (d_nblocks d)
             (d_next d + N.of_nat (length ls))%N, ids_from (d_next d) (length ls))
    /\ rep rs' (l ++ segs (combine (ids_from (d_next d) (length ls)) ls)).
Proof.
  induction ls as [|x ls IH]; intros d first pos l R Hf Hb.
  - exists (d_rs d). cbn [import_lines new_blocks length ids_from combine]. rewrite !app_nil_r, N.add_0_r.
    split; [now destruct d|exact R].
  - cbn [import_lines create_block]. cbn [d_rs].
    set (d2 := set_rs _ _).
    assert (R2 : rep (d_rs d2) (l ++ [(MBlock (d_next d), x)])).
    { cbn [d2 d_rs set_rs]. replace (if first then d_rs d else rope_insert_block_boundary (d_rs d)) with (bounded (d_rs d) l).
      - apply rep_append; [exact R|]. intros H. apply Hb in H. lia.
      - destruct l; cbn [bounded].
        + destruct first; [easy|]. destruct Hf as [_ Hf]. now specialize (Hf eq_refl).
        + destruct first; [|easy]. destruct Hf as [Hf _]. now specialize (Hf eq_refl). }
    set (q := (pos + Z.of_nat (length x) + _)%Z).
    destruct (IH d2 false q _ R2) as (rs' & E & R3).
    + split; [easy|]. now destruct l.
    + intros b. rewrite map_app, in_app_iff. cbn [map In fst d2 d_next set_rs]. intros [H|[[= <-]|[]]]; [apply Hb in H|]; lia.
    + rewrite E. exists rs'. split.
      * cbn [d2 d_blocks d_runs d_images d_fblocks d_order d_chars d_nblocks d_next set_rs].
        cbn [new_blocks length ids_from]. do 2 f_equal.
        -- rewrite <- app_assoc. do 3 f_equal. unfold q. now destruct ls.
        -- now rewrite <- app_assoc.
        -- lia.
      * cbn [d2 d_next set_rs] in R3. rewrite <- app_assoc in R3. exact R3.
Qed.

Lemma new_blocks_ids n pos ls : map b_id (new_blocks n pos ls) = ids_from n (length ls).
Proof. revert n pos; induction ls; intros; cbn; [easy|]. now f_equal. Qed.

Lemma new_blocks_nth n pos ls k x :
  nth_error (new_blocks n pos ls) k = Some x ->
  b_pos x = (pos + Z.of_nat (cpre (firstn k (combine (ids_from n (length ls)) ls))))%Z
  /\ b_list x = None /\ b_fmt x = bfmt_default.
Proof.
  revert n pos k; induction ls as [|l ls IH]; intros n pos [|k]; cbn [new_blocks nth_error]; try easy.
  - intros [= <-]. cbn [b_pos b_list b_fmt]. rewrite firstn_O, cpre_nil. repeat split. lia.
  - intros H. apply IH in H. destruct H as (-> & H2 & H3). cbn [length ids_from combine firstn].
    rewrite cpre_cons. repeat split; try easy. lia.
Qed.

Definition fresh (d : doc) (ps : list para) : Prop :=
  forall pre b t post, ps = pre ++ (b, t) :: post ->
  forall x, get_block d b = Some x -> b_pos x = Z.of_nat (cpre pre).

Lemma clear_wf d ps : wf d ps ->
  let d' := clear_document d in
  d_rs d' = rope_reset /\ d_blocks d' = [] /\ (forall i, d_runs d' i = []) /\ (forall i, d_images d' i = [])
  /\ d_next d' = d_next d.
Proof.
  intros W d'. unfold d', clear_document. cbn. split; [easy|]. split; [|split; [|split; [|easy]]].
  - assert (H : incl (map b_id (d_blocks d)) (d_fblocks d)).
    { intros i Hi. eapply Permutation_in; [symmetry; apply (wf_fblocks _ _ W)|].
      eapply Permutation_in; [apply (wf_ids _ _ W)|exact Hi]. }
    induction (d_blocks d) as [|b bs IH]; [easy|]. cbn [filter].
    assert (E : existsb (N.eqb (b_id b)) (d_fblocks d) = true) by (apply among_spec, H; now left).
    rewrite E. cbn [negb]. apply IH. intros i Hi. apply H. now right.
  - intros i. destruct (existsb (N.eqb i) (d_fblocks d)) eqn:E; [easy|].
    apply (wf_runs_out _ _ W). intros Hi. apply (among_false (d_fblocks d) i) in E. apply E.
    eapply Permutation_in; [symmetry; apply (wf_fblocks _ _ W)|exact Hi].
  - intros i. destruct (existsb (N.eqb i) (d_fblocks d)); [easy|]. apply (wf_images _ _ W).
Qed.

Lemma ids_from_nodup n k : NoDup (ids_from n k).
Proof.
  revert n; induction k as [|k IH]; intros n; cbn [ids_from]; constructor; [|apply IH].
  intros H. apply ids_from_in in H. lia.
Qed.

Lemma find_nth bs k b : nth_error bs k = Some b -> NoDup (map b_id bs) -> find_block bs (b_id b) = Some b.
Proof.
  revert k; induction bs as [|x bs IH]; intros [|k]; cbn [nth_error find_block map]; try easy.
  - intros [= ->] _. now rewrite N.eqb_refl.
  - intros H N. inversion N as [|? ? N1 N2]; subst. destruct (N.eqb_spec (b_id x) (b_id b)) as [E|E].
    + exfalso. apply N1. rewrite E. apply in_map. now apply nth_error_In in H.
    + eapply IH; eassumption.
Qed.

Lemma split_lines_ne s : split_lines s <> [].
Proof. induction s as [|c s IH]; cbn; [easy|]. destruct (N.eqb c NL); [easy|]. now destruct (split_lines s). Qed.

Lemma import_full d ps0 s :
  wf d ps0 ->
  let ls := split_lines (normalize s) in
  let is_ := ids_from (d_next d) (length ls) in
  let ps := combine is_ ls in
  let d' := import_plain_text d s in
  wf d' ps /\ fresh d' ps /\ (forall i, d_runs d' i = [])
  /\ para_attrs d' = repeat (Some (None, bfmt_default)) (length ls)
  /\ d_chars d' = sum_lengths ls /\ d_nblocks d' = Z.of_nat (length ls)
  /\ d_next d' = (d_next d + N.of_nat (length ls))%N.
Proof.
  intros W ls is_ ps d'. unfold d', import_plain_text. fold ls.
  destruct (clear_wf _ _ W) as (C1 & C2 & C3 & C4 & C5). set (d0 := clear_document d) in *.
  assert (R0 : rep (d_rs d0) []) by (rewrite C1; apply rep_reset).
  destruct (import_lines_full ls d0 true 0%Z [] R0) as (rs' & -> & R'); [easy|easy|].
  rewrite C2, C5 in *. cbn [app] in *. cbv beta iota.
  assert (Hls : ls <> []) by apply split_lines_ne.
  assert (Hlen : length (ids_from (d_next d) (length ls)) = length ls) by apply ids_from_length.
  assert (Hfst : map fst ps = is_) by now apply combine_fst.
  assert (ND : NoDup (map b_id (new_blocks (d_next d) 0 ls))) by (rewrite new_blocks_ids; apply ids_from_nodup).
  match goal with |- wf ?x _ /\ _ => set (dd := x) end.
  assert (Wd : wf dd ps).
  { constructor; unfold dd; cbn [d_rs d_blocks d_runs d_images d_fblocks d_order d_next set_nblocks set_chars set_order].
    - unfold ps. destruct ls as [|l ls']; [easy|]. discriminate.
    - exact R'.
    - now rewrite Hfst.
    - now rewrite Hfst.
    - now rewrite new_blocks_ids, Hfst.
    - intros b t _. rewrite C3. apply wf_runs_nil.
    - intros b _. apply C3.
    - apply C4.
    - intros b Hb. rewrite Hfst in Hb. apply ids_from_in in Hb. lia. }
  assert (Hnth : forall pre b t post, ps = pre ++ (b, t) :: post ->
     exists x, nth_error (new_blocks (d_next d) 0 ls) (length pre) = Some x /\ b_id x = b).
  { intros pre b t post E.
    assert (Hb : nth_error (map b_id (new_blocks (d_next d) 0 ls)) (length pre) = Some b).
    { rewrite new_blocks_ids. fold is_. rewrite <- Hfst, E, map_app, nth_error_app2; rewrite map_length; [|lia].
      now rewrite Nat.sub_diag. }
    rewrite nth_error_map in Hb. destruct (nth_error (new_blocks _ _ _) (length pre)) as [x|]; [|easy].
    injection Hb as Hb. now exists x. }
  split; [exact Wd|]. split; [|split; [apply C3|split; [|repeat split]]].
  - intros pre b t post E x Hx. destruct (Hnth _ _ _ _ E) as (y & Hy & Hyb).
    unfold get_block, dd in Hx. cbn [d_blocks set_nblocks set_chars set_order] in Hx.
    rewrite <- Hyb, (find_nth _ _ _ Hy ND) in Hx. injection Hx as ->.
    apply new_blocks_nth in Hy. destruct Hy as (-> & _ & _). fold is_. fold ps. rewrite E.
    rewrite firstn_exact by easy. lia.
  - unfold para_attrs. change (d_order dd) with (ids_from (d_next d) (length ls)).
    assert (H : forall i, In i (ids_from (d_next d) (length ls)) -> attr dd i = Some (None, bfmt_default)).
    { intros i Hi. fold is_ in Hi. rewrite <- Hfst in Hi. apply in_map_iff in Hi. destruct Hi as ([b t] & <- & Hi).
      apply in_split in Hi. destruct Hi as (pre & post & E). destruct (Hnth _ _ _ _ E) as (y & Hy & Hyb).
      cbn [fst]. unfold attr, get_block, dd. cbn [d_blocks set_nblocks set_chars set_order].
      rewrite <- Hyb, (find_nth _ _ _ Hy ND). cbn.
      apply new_blocks_nth in Hy. destruct Hy as (_ & -> & ->). reflexivity. }
    transitivity (repeat (Some (@None id, bfmt_default)) (length (ids_from (d_next d) (length ls)))); [|now rewrite Hlen].
    clearbody dd. clear - H. revert H. generalize (ids_from (d_next d) (length ls)). intros l. induction l as [|i l IH]; intros H; [easy|].
    cbn [map length repeat]. rewrite (H i (or_introl eq_refl)). f_equal. apply IH. intros. apply H. now right.
Qed.

Lemma new_wf : wf new_document [(1%N, [])] /\ fresh new_document [(1%N, [])].
Proof.
  split.
  - constructor.
    + discriminate.
    + constructor; try reflexivity. cbn. constructor; [easy|constructor].
    + reflexivity.
    + apply Permutation_refl.
    + apply Permutation_refl.
    + intros b t _. apply wf_runs_nil.
    + reflexivity.
    + reflexivity.
    + intros b [<-|[]]. reflexivity.
  - intros pre b t post E x Hx. destruct pre as [|? [|? ?]]; cbn in E; try discriminate.
    injection E as <- <- <-. cbn in Hx. injection Hx as <-. reflexivity.
Qed.

(** ** Lines *)

Lemma split_join s : join (split_lines s) = s.
Proof.
  induction s as [|c s IH]; [easy|]. cbn [split_lines].
  pose proof (split_lines_ne s) as N.
  destruct (N.eqb_spec c NL) as [->|_].
  - destruct (split_lines s) as [|l ls]; [easy|]. cbn [join app] in *. now rewrite IH.
  - destruct (split_lines s) as [|l ls]; [easy|]. cbn [join] in *. destruct ls; cbn [app]; congruence.
Qed.

Lemma split_no_nl s : Forall (fun l => ~ In NL l) (split_lines s).
Proof.
  induction s as [|c s IH]; cbn [split_lines]; [constructor; [easy|constructor]|].
  destruct (N.eqb_spec c NL) as [->|N]; [constructor; [easy|exact IH]|].
  destruct (split_lines s) as [|l ls]; [constructor; [|constructor]|inversion IH; subst; constructor; [|easy]].
  - intros [H|[]]. congruence.
  - intros [H|H]; [congruence|auto].
Qed.
