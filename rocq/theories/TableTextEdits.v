(** Edits of single paragraphs in a document with a table. *)
From Coq Require Import Sorting.Permutation.
From Verif Require Import Base RopeModel RopeSpec RopeFacts RopeTables TableModel TableSpec TableFacts TablePlaces TableTextModel TableTextSpec TableTextFacts.

(** ** One segment gets another text, or is cut in two *)
Definition marker_dec (a b : marker) : {a = b} + {a <> b}.
Proof. decide equality; apply N.eq_dec. Qed.
Definition retext (m : marker) (t : str) (s : seg) : seg := if marker_dec (fst s) m then (m, t) else s.
Lemma retext_fst m t l : map fst (map (retext m t) l) = map fst l.
Proof. rewrite map_map. apply map_ext. intros [k u]. unfold retext. cbn. now destruct (marker_dec k m). Qed.
Lemma retext_out m t l : ~ In m (map fst l) -> map (retext m t) l = l.
Proof.
  induction l as [|[k u] l IH]; intros H; [easy|]. cbn [map fst In] in *. rewrite IH by tauto. f_equal. unfold retext. cbn.
  destruct (marker_dec k m); [tauto|easy].
Qed.
Lemma nodup_out {A} (pre post : list (marker * A)) m t : NoDup (map fst (pre ++ (m, t) :: post)) -> ~ In m (map fst pre) /\ ~ In m (map fst post).
Proof. rewrite map_app. cbn [map fst]. intros H. apply NoDup_remove_2 in H. rewrite in_app_iff in H. tauto. Qed.
Lemma retext_mid pre m t post t' : NoDup (map fst (pre ++ (m, t) :: post)) -> pre ++ (m, t') :: post = map (retext m t') (pre ++ (m, t) :: post).
Proof.
  intros N. apply nodup_out in N. destruct N. rewrite map_app. cbn [map]. rewrite !retext_out by easy. do 2 f_equal. unfold retext. cbn.
  now destruct (marker_dec m m).
Qed.
Definition cut (m : marker) (t1 : str) (n : marker) (t2 : str) (s : seg) : list seg := if marker_dec (fst s) m then [(m, t1); (n, t2)] else [s].
Lemma cut_out m t1 n t2 l : ~ In m (map fst l) -> flat_map (cut m t1 n t2) l = l.
Proof.
  induction l as [|[k u] l IH]; intros H; [easy|]. cbn [map fst In flat_map] in *. rewrite IH by tauto. unfold cut. cbn.
  destruct (marker_dec k m); [tauto|easy].
Qed.
Lemma cut_mid pre m t post t1 n t2 : NoDup (map fst (pre ++ (m, t) :: post)) ->
  pre ++ (m, t1) :: (n, t2) :: post = flat_map (cut m t1 n t2) (pre ++ (m, t) :: post).
Proof.
  intros N. apply nodup_out in N. destruct N. rewrite flat_map_app. cbn [flat_map]. rewrite !cut_out by easy. f_equal. unfold cut. cbn.
  now destruct (marker_dec m m).
Qed.
Lemma cut_fst b t1 n t2 l ids : map fst l = map MBlock ids -> map fst (flat_map (cut (MBlock b) t1 (MBlock n) t2) l) = map MBlock (put_after b n ids).
Proof.
  revert ids. induction l as [|[k u] l IH]; intros [|i ids] E; try discriminate; [easy|]. cbn in E. injection E as -> E.
  unfold put_after. cbn [flat_map]. rewrite !map_app. fold (put_after b n ids). rewrite (IH ids E). f_equal. unfold cut. cbn.
  destruct (marker_dec (MBlock i) (MBlock b)) as [X|X]; destruct (N.eqb_spec i b) as [Y|Y]; try congruence; cbn; [congruence|reflexivity].
Qed.

(** ** Where the block is *)
Lemma layout_nodup x a b c : layout x a b c -> NoDup (map fst ((a ++ (MAnchor (x_tid x), [FFFC]) :: b) ++ c)).
Proof. intros (R & _). exact (rep_nodup _ _ R). Qed.
Lemma layout_split x a b c i : layout x a b c -> block_in x i ->
  exists pre t post, (a ++ (MAnchor (x_tid x), [FFFC]) :: b) ++ c = pre ++ (MBlock i, t) :: post /\ text_of x i = Ok t.
Proof.
  intros L H. destruct (layout_in _ _ _ _ _ L H) as (t & Ht & E). apply in_split in Ht. destruct Ht as (pre & post & X). now exists pre, t, post.
Qed.
Lemma retext_layout x a b c i t' st d' : layout x a b c -> rep st (map (retext (MBlock i) t') ((a ++ (MAnchor (x_tid x), [FFFC]) :: b) ++ c)) ->
  same_blocks (x_table x) d' ->
  let f := map (retext (MBlock i) t') in layout (mk_xdoc d' st (x_tid x)) (f a) (f b) (f c).
Proof.
  intros (R0 & B & A & P & F & NE) R (_ & O & At & S & Nb) f. unfold layout. cbn [x_table x_store x_tid].
  assert (C : cell_ids (t_cells d') = cell_ids (t_cells (x_table x))).
  { assert (X : forall cs, cell_ids cs = concat (map block_shape cs)).
    { intros cs. unfold cell_ids, block_ids, block_shape. induction cs as [|y cs IH]; [easy|]. cbn. now rewrite map_app, IH. }
    now rewrite !X, S. }
  rewrite O, At, C, Nb. unfold f. rewrite !retext_fst. split.
  { rewrite !map_app in R. cbn [map] in R. unfold retext at 2 in R. cbn [fst] in R. destruct (marker_dec (MAnchor (x_tid x)) (MBlock i)); [discriminate|exact R]. }
  do 3 (split; [easy|]). split.
  - intros y Hy. apply F. unfold block_in in *. cbn [x_table] in Hy. now rewrite O, C in Hy.
  - intros Z. rewrite Z in O. destruct (t_others (x_table x)); easy.
Qed.
Lemma in_retext m t l k u : In (k, u) l -> k <> m -> In (k, u) (map (retext m t) l).
Proof. intros H N. apply in_map_iff. exists (k, u). split; [|easy]. unfold retext. cbn. now destruct (marker_dec k m). Qed.
Lemma in_retext_self m t l : In m (map fst l) -> In (m, t) (map (retext m t) l).
Proof. intros H. apply in_map_iff in H. destruct H as ([k u] & E & H). cbn in E. subst k. apply in_map_iff. exists (m, u). split; [|easy]. unfold retext. cbn. now destruct (marker_dec m m). Qed.
Definition only_text (x : xdoc) (i : id) (t' : str) (x' : xdoc) : Prop :=
  text_of x' i = Ok t' /\ forall j, block_in x j -> j <> i -> text_of x' j = text_of x j.
Lemma retext_only x a b c i t' st d' : layout x a b c -> block_in x i -> rep st (map (retext (MBlock i) t') ((a ++ (MAnchor (x_tid x), [FFFC]) :: b) ++ c)) ->
  only_text x i t' (mk_xdoc d' st (x_tid x)).
Proof.
  intros L Hi R. split.
  - apply (rep_read _ _ _ _ R). apply in_retext_self. destruct (layout_in _ _ _ _ _ L Hi) as (t & Ht & _). apply in_map_iff. now exists (MBlock i, t).
  - intros j Hj N. destruct (layout_in _ _ _ _ _ L Hj) as (t & Ht & E). rewrite E. apply (rep_read _ _ _ _ R). apply in_retext; [easy|congruence].
Qed.

Lemma skipn_more {A} k : forall (t : list A) n, skipn n (skipn k t) = skipn (k + n) t.
Proof. induction k as [|k IH]; intros [|x t] n; cbn; [easy|easy|now rewrite !skipn_nil|apply IH]. Qed.
(** ** Typing and erasing *)
Lemma type_layout x a b c i k text : layout x a b c -> block_in x i ->
  exists t st, text_of x i = Ok t /\ type_in (x_store x) i k text = Ok st
    /\ forall d', same_blocks (x_table x) d' -> let x' := mk_xdoc d' st (x_tid x) in
         (exists a' b' c', layout x' a' b' c') /\ only_text x i (firstn k t ++ text ++ skipn k t) x'.
Proof.
  intros L Hi. destruct (layout_split _ _ _ _ _ L Hi) as (pre & t & post & E & Et). assert (R := proj1 L). rewrite E in R.
  assert (N := layout_nodup _ _ _ _ L). rewrite E in N. exists t. unfold type_in. rewrite (rep_char_to_byte _ _ _ _ _ k R). cbn [bind].
  assert (Q : rep (x_store x) (pre ++ (MBlock i, firstn k t ++ skipn k t) :: post)) by now rewrite firstn_skipn.
  destruct (rep_insert_in_block _ _ _ _ _ text _ Q) as (st & E1 & R1). exists st. split; [easy|]. split; [exact E1|].
  intros d' S. rewrite (retext_mid pre (MBlock i) t post) in R1 by exact N. rewrite <- E in R1. split.
  - eexists _, _, _. exact (retext_layout _ _ _ _ _ _ _ _ L R1 S).
  - exact (retext_only _ _ _ _ _ _ _ d' L Hi R1).
Qed.
Lemma erase_layout x a b c i k n : layout x a b c -> block_in x i ->
  exists t st, text_of x i = Ok t /\ erase_in (x_store x) i k n = Ok st
    /\ forall d', same_blocks (x_table x) d' -> let x' := mk_xdoc d' st (x_tid x) in
         (exists a' b' c', layout x' a' b' c') /\ only_text x i (firstn k t ++ skipn (k + n) t) x'.
Proof.
  intros L Hi. destruct (layout_split _ _ _ _ _ L Hi) as (pre & t & post & E & Et). assert (R := proj1 L). rewrite E in R.
  assert (N := layout_nodup _ _ _ _ L). rewrite E in N. exists t. unfold erase_in. rewrite (rep_char_to_byte _ _ _ _ _ k R). cbn [bind].
  rewrite (rep_char_to_byte _ _ _ _ _ (k + n) R). cbn [bind].
  assert (T : t = firstn k t ++ firstn n (skipn k t) ++ skipn (k + n) t).
  { rewrite <- (firstn_skipn k t) at 1. f_equal. rewrite <- skipn_more. symmetry. apply firstn_skipn. }
  assert (Q : rep (x_store x) (pre ++ (MBlock i, firstn k t ++ firstn n (skipn k t) ++ skipn (k + n) t) :: post)) by now rewrite <- T.
  assert (B : boff t (k + n) = blen (firstn k t) + blen (firstn n (skipn k t))).
  { unfold boff. rewrite <- blen_app. f_equal. rewrite <- (firstn_skipn k t) at 1. rewrite firstn_app, firstn_firstn, firstn_length.
    destruct (Nat.le_gt_cases k (length t)).
    - replace (Nat.min (k + n) k) with k by lia. now replace (k + n - Nat.min k (length t)) with n by lia.
    - replace (Nat.min (k + n) k) with k by lia. f_equal. rewrite (skipn_all2 t) by lia. now rewrite !firstn_nil. }
  rewrite B. destruct (rep_delete_in_block _ _ _ _ _ _ _ Q) as (st & E1 & R1). exists st. split; [easy|]. split; [exact E1|].
  intros d' S. rewrite (retext_mid pre (MBlock i) t post) in R1 by exact N. rewrite <- E in R1. split.
  - eexists _, _, _. exact (retext_layout _ _ _ _ _ _ _ _ L R1 S).
  - exact (retext_only _ _ _ _ _ _ _ d' L Hi R1).
Qed.

(** ** Breaking a paragraph *)
Lemma put_after_app b n l m : put_after b n (l ++ m) = put_after b n l ++ put_after b n m.
Proof. apply flat_map_app. Qed.
Lemma put_after_out b n l : ~ In b l -> put_after b n l = l.
Proof. induction l as [|i l IH]; intros H; [easy|]. cbn [In] in H. unfold put_after. cbn [flat_map]. fold (put_after b n l). rewrite IH by tauto. destruct (N.eqb_spec i b); [tauto|easy]. Qed.
Lemma put_after_length b n l : NoDup l -> length (put_after b n l) = (if existsb (N.eqb b) l then S (length l) else length l).
Proof.
  induction l as [|i l IH]; intros N; [easy|]. inversion N; subst. unfold put_after. cbn [flat_map existsb]. fold (put_after b n l). rewrite app_length, (N.eqb_sym b i).
  destruct (N.eqb_spec i b) as [->|E]; cbn [orb length].
  - now rewrite put_after_out.
  - assert (X := IH H2). unfold id in *. rewrite X. cbn. now destruct (existsb (N.eqb b) l).
Qed.
Lemma put_after_in b n l j : In j (put_after b n l) -> In j l \/ j = n.
Proof. unfold put_after. rewrite in_flat_map. intros (i & H & G). destruct (N.eqb i b); cbn in G; intuition (subst; auto). Qed.
Lemma NoDup_firstn {A} (l : list A) : NoDup l -> forall n, NoDup (firstn n l).
Proof. intros H n. rewrite <- (firstn_skipn n l) in H. now apply NoDup_app_parts in H. Qed.
Lemma put_after_firstn b n l k : NoDup l ->
  let k' := if existsb (N.eqb b) (firstn k l) then S k else k in
  firstn k' (put_after b n l) = put_after b n (firstn k l) /\ skipn k' (put_after b n l) = put_after b n (skipn k l).
Proof.
  intros N k'. assert (X : put_after b n l = put_after b n (firstn k l) ++ put_after b n (skipn k l)) by (now rewrite <- put_after_app, firstn_skipn).
  assert (Y := put_after_length b n (firstn k l) (NoDup_firstn l N k)). rewrite firstn_length in Y. rewrite X.
  destruct (Nat.le_gt_cases k (length l)).
  - assert (Z : length (put_after b n (firstn k l)) = k') by (rewrite Y, Nat.min_l by lia; reflexivity).
    rewrite <- Z. split; [rewrite firstn_app, firstn_all, Nat.sub_diag; cbn; apply app_nil_r|].
    rewrite skipn_app, skipn_all, Nat.sub_diag. reflexivity.
  - rewrite (skipn_all2 l) by lia. cbn [put_after flat_map]. rewrite app_nil_r.
    assert (Z : length (put_after b n (firstn k l)) <= k') by (rewrite Y; unfold k'; destruct (existsb _ _); lia).
    rewrite firstn_all2, skipn_all2 by easy. easy.
Qed.
Lemma cell_shapes cs : cell_ids cs = concat (map block_shape cs).
Proof. unfold cell_ids, block_ids, block_shape. induction cs as [|y cs IH]; [easy|]. cbn. now rewrite map_app, IH. Qed.
Definition broken (x : xdoc) (i : id) (t1 t2 : str) (x' : xdoc) : Prop :=
  text_of x' i = Ok t1 /\ text_of x' (t_nextb (x_table x)) = Ok t2 /\ forall j, block_in x j -> j <> i -> text_of x' j = text_of x j.
Lemma layout_others_nodup x a b c : layout x a b c -> NoDup (block_ids (t_others (x_table x))).
Proof.
  intros L. assert (N := layout_nodup _ _ _ _ L). destruct L as (_ & E1 & E2 & _). rewrite !map_app in N. cbn [map fst] in N. rewrite E1, E2 in N.
  apply NoDup_app_parts in N. destruct N as (N & _ & _). apply NoDup_remove_1 in N. rewrite <- map_app, firstn_skipn in N. now apply NoDup_map_inv in N.
Qed.
Lemma layout_apart x a b c i : layout x a b c -> In i (block_ids (t_others (x_table x))) -> ~ In i (cell_ids (t_cells (x_table x))).
Proof.
  intros L Hi Hc. assert (N := layout_nodup _ _ _ _ L). destruct L as (_ & E1 & E2 & P & _). rewrite !map_app in N. cbn [map fst] in N. rewrite E1, E2 in N.
  apply NoDup_app_parts in N. destruct N as (_ & _ & N). apply (N (MBlock i)).
  - rewrite <- (firstn_skipn (t_at (x_table x)) (block_ids (t_others (x_table x)))) in Hi. rewrite in_app_iff in *. cbn [In].
    destruct Hi as [Hi|Hi]; [left|right; right]; now apply in_map.
  - apply (Permutation_in (MBlock i) (Permutation_sym P)). now apply in_map.
Qed.
Lemma put_after_shapes i n cs : ~ In i (cell_ids cs) -> map (fun c => put_after i n (block_shape c)) cs = map block_shape cs.
Proof.
  rewrite cell_shapes. intros H. apply map_ext_in. intros c Hc. apply put_after_out. intros Hi. apply H. apply in_concat. exists (block_shape c). split; [now apply in_map|easy].
Qed.
Lemma break_layout x a b c i k : layout x a b c -> In i (block_ids (t_others (x_table x))) ->
  exists t st, text_of x i = Ok t /\ break_in (x_store x) i k (t_nextb (x_table x)) = Ok st
    /\ forall d', one_block_more i (x_table x) d' -> let x' := mk_xdoc d' st (x_tid x) in
         (exists a' b' c', layout x' a' b' c') /\ broken x i (firstn k t) (skipn k t) x'.
Proof.
  intros L Ho. assert (Hi : block_in x i) by now left. destruct (layout_split _ _ _ _ _ L Hi) as (pre & t & post & E & Et). assert (R := proj1 L). rewrite E in R.
  assert (N := layout_nodup _ _ _ _ L). rewrite E in N. exists t. unfold break_in. rewrite (rep_char_to_byte _ _ _ _ _ k R). cbn [bind].
  assert (Q : rep (x_store x) (pre ++ (MBlock i, firstn k t ++ skipn k t) :: post)) by now rewrite firstn_skipn.
  set (nb := t_nextb (x_table x)) in *.
  assert (Fr : ~ block_in x nb).
  { intros H. destruct L as (_ & _ & _ & _ & F & _). apply F in H. fold nb in H. unfold id in *. lia. }
  assert (Fm : ~ In (MBlock nb) (map fst ((a ++ (MAnchor (x_tid x), [FFFC]) :: b) ++ c))).
  { intros H. apply (layout_markers _ _ _ _ _ L) in H. apply Fr. rewrite in_app_iff in H. cbn [In] in H. destruct H as [H|[H|H]]; [left|discriminate|right]; now apply in_mblock. }
  destruct (rep_split_block _ _ _ _ _ nb _ Q) as (st & E1 & R1).
  { rewrite firstn_skipn, <- E. exact Fm. }
  exists st. split; [easy|]. split; [exact E1|]. intros d' S. rewrite (cut_mid pre (MBlock i) t post) in R1 by exact N. rewrite <- E in R1.
  set (g := flat_map (cut (MBlock i) (firstn k t) (MBlock nb) (skipn k t))) in *. split.
  - assert (ON := layout_others_nodup _ _ _ _ L). assert (Ap := layout_apart _ _ _ _ _ L Ho). destruct L as (R0 & B & A & P & F & NE). destruct S as (_ & O & At & S & Nb). fold nb in O, Nb.
    rewrite <- (put_after_shapes i nb _ Ap) in S.
    exists (g a), (g b), (g c). unfold layout. cbn [x_table x_store x_tid].
    assert (C : cell_ids (t_cells d') = put_after i nb (cell_ids (t_cells (x_table x)))).
    { rewrite !cell_shapes, S, <- (map_map block_shape (put_after i nb)). generalize (map block_shape (t_cells (x_table x))). intros m. induction m as [|y m IH]; [easy|].
      cbn [map concat]. now rewrite put_after_app, IH. }
    assert (P1 : firstn (t_at d') (put_after i nb (block_ids (t_others (x_table x)))) = put_after i nb (firstn (t_at (x_table x)) (block_ids (t_others (x_table x)))))
      by (rewrite At; apply (put_after_firstn i nb _ (t_at (x_table x)) ON)).
    assert (P2 : skipn (t_at d') (put_after i nb (block_ids (t_others (x_table x)))) = put_after i nb (skipn (t_at (x_table x)) (block_ids (t_others (x_table x)))))
      by (rewrite At; apply (put_after_firstn i nb _ (t_at (x_table x)) ON)).
    split.
    { unfold g in R1 |- *. rewrite !flat_map_app in R1. cbn [flat_map] in R1. unfold cut at 2 in R1. cbn [fst] in R1.
      destruct (marker_dec (MAnchor (x_tid x)) (MBlock i)); [discriminate|exact R1]. }
    rewrite O, P1, P2. split; [apply cut_fst, B|]. split; [apply cut_fst, A|]. rewrite C. split.
    { apply Permutation_sym, Permutation_map_inv in P. destruct P as (l & El & P). unfold g.
      rewrite <- (cut_fst i (firstn k t) nb (skipn k t) l) by (symmetry; exact El). apply Permutation_map. now apply Permutation_flat_map. }
    split.
    + intros j Hj. rewrite Nb. unfold block_in in Hj. cbn [x_table] in Hj. rewrite O, C in Hj.
      destruct Hj as [Hj|Hj]; apply put_after_in in Hj; (destruct Hj as [Hj| ->]; [assert (X := F j)|]); unfold block_in, id in *; intuition lia.
    + intros Z. rewrite Z in O. destruct (t_others (x_table x)) as [|y l]; [easy|]. cbn in O. destruct (N.eqb (tb_id y) i); discriminate.
  - split; [|split].
    + apply (rep_read _ _ _ _ R1). rewrite E. unfold g. rewrite flat_map_app, in_app_iff. right. cbn [flat_map]. apply in_app_iff. left. unfold cut. cbn [fst]. destruct (marker_dec (MBlock i) (MBlock i)); [now left|easy].
    + apply (rep_read _ _ _ _ R1). rewrite E. unfold g. rewrite flat_map_app, in_app_iff. right. cbn [flat_map]. apply in_app_iff. left. unfold cut. cbn [fst]. destruct (marker_dec (MBlock i) (MBlock i)); [right; now left|easy].
    + intros j Hj Nj. destruct (layout_in _ _ _ _ _ L Hj) as (u & Hu & Eu). rewrite Eu. apply (rep_read _ _ _ _ R1). unfold g. apply in_flat_map. exists (MBlock j, u). split; [easy|].
      unfold cut. cbn [fst]. destruct (marker_dec (MBlock j) (MBlock i)); [congruence|now left].
Qed.
Lemma put_after_map (f : tblock -> tblock) b new bs : (forall y, tb_id (f y) = tb_id y) ->
  block_ids (flat_map (fun y => if N.eqb (tb_id y) b then [f y; new] else [f y]) bs) = put_after b (tb_id new) (block_ids bs).
Proof.
  intros E. unfold block_ids, put_after. induction bs as [|y bs IH]; [easy|]. cbn [flat_map map]. rewrite map_app, IH. f_equal.
  destruct (N.eqb (tb_id y) b); cbn [map]; now rewrite E.
Qed.
(** Outside the table, the new block is put after the one broken. *)
Lemma insert_block_form x b k st : In b (block_ids (t_others (x_table x))) -> break_in (x_store x) b k (t_nextb (x_table x)) = Ok st ->
  exists d', x_insert_block x b k = Ok (mk_xdoc d' st (x_tid x)) /\ one_block_more b (x_table x) d'.
Proof.
  intros Hb E. unfold x_insert_block. set (d := x_table x) in *.
  destruct (find (fun y => N.eqb (tb_id y) b) (t_others d ++ flat_map tc_blocks (t_cells d))) as [cur|] eqn:F.
  2:{ exfalso. unfold block_ids in Hb. apply in_map_iff in Hb. destruct Hb as (y & Ey & Hy).
      assert (X := find_none _ _ F y ltac:(apply in_app_iff; now left)). cbn in X. rewrite Ey, N.eqb_refl in X. discriminate. }
  rewrite E. cbn [bind]. assert (Eb : existsb (N.eqb b) (block_ids (t_others d)) = true) by (apply existsb_exists; exists b; split; [easy|apply N.eqb_refl]).
  rewrite Eb. eexists. split; [reflexivity|].
  set (edit := fun y => if N.eqb (tb_id y) b then _ else _).
  assert (Ee : forall y, tb_id (edit y) = tb_id y).
  { intros y. unfold edit. destruct (N.eqb_spec (tb_id y) b) as [<-|_]; [easy|]. match goal with |- context [if ?c then _ else _] => destruct c end; reflexivity. }
  unfold one_block_more, retyped. cbn [t_rows t_cols t_widths t_cells t_others t_at t_next t_nextb]. split.
  - split; [easy|]. split; [easy|]. split; [easy|]. split; [|apply N.le_refl]. rewrite map_map. apply map_ext. intros y. reflexivity.
  - split; [|split; [easy|split; [|easy]]].
    + exact (put_after_map edit b (mk_tblock (t_nextb d) _ _) (t_others d) Ee).
    + rewrite map_map. apply map_ext. intros y. unfold block_shape, block_ids. cbn [tc_blocks TableModel.set_blocks]. rewrite map_map. now apply map_ext.
Qed.
