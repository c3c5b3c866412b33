(** Edits at positions of a document with a table. *)
From Coq Require Import Sorting.Permutation.
From Verif Require Import Base RopeModel RopeSpec RopeFacts TableModel TableSpec TableFacts TablePlaces TableTheorems TableTextModel TableTextSpec TableTextFacts TableTextEdits TableTextTheorems TableEditModel TableEditSpec TableEditFacts TableEditSteps PropSpec FlowSpec.
Local Open Scope Z_scope.

Lemma edited_texts x : edited x -> exists ts, document_texts x ts.
Proof. intros H. assert (I := edited_inv _ H). destruct (inv_seen _ I) as [ts Se]. exists ts. now apply texts_seen. Qed.
Lemma seen_chars x bs ts : seen x bs ts -> TableTextTheorems.lengths bs = Z.of_nat (length (concat ts)).
Proof. induction 1 as [|b t bs ts (_ & _ & E) _ IH]; [easy|]. cbn [concat]. rewrite app_length. cbn. unfold TableTextTheorems.lengths in *. rewrite IH, E. lia. Qed.
Lemma seen_count x bs ts : seen x bs ts -> length bs = length ts.
Proof. induction 1; cbn; congruence. Qed.
Lemma seen_at x bs : forall ts k b, seen x bs ts -> nth_error bs k = Some b -> exists t, nth_error ts k = Some t /\ known x b t.
Proof.
  induction bs as [|y bs IH]; intros ts [|k] b Se E; try discriminate; inversion Se as [|? v ? vs K Se']; subst; cbn in E.
  - injection E as <-. now exists v.
  - exact (IH vs k b Se' E).
Qed.
Lemma place_at x bs : forall ts r k b, seen x bs ts -> in_place r bs -> nth_error bs k = Some b -> tb_pos b = r + Z.of_nat (start_of k ts).
Proof.
  induction bs as [|y bs IH]; intros ts r [|k] b Se P E; try discriminate; inversion Se as [|? v ? vs K Se']; subst; cbn in E; destruct P as [P1 P2].
  - injection E as <-. cbn. lia.
  - rewrite (IH vs _ k b Se' P2 E). unfold start_of. cbn [firstn starts fold_right]. fold (starts (firstn k vs)). destruct K as (_ & _ & ->). lia.
Qed.
Lemma edited_recorded x ts : edited x -> document_texts x ts -> recorded_right x ts.
Proof.
  intros H T. assert (I := edited_inv _ H). apply (texts_seen _ _ I) in T. split; [|split].
  - intros bs k b O E. apply (order_flow _ _ (inv_history _ I)) in O. subst bs. split; [exact (place_at x _ ts 0 k b T (inv_placed _ I) E)|].
    destruct (seen_at _ _ _ _ _ T E) as (t & -> & _ & _ & ->). easy.
  - now rewrite (inv_count _ I), (seen_count _ _ _ T).
  - now rewrite (inv_chars _ I), (seen_chars _ _ _ T).
Qed.

(** ** Typing *)
Lemma here_holds ts1 (t : str) ts2 k p : (k <= length t)%nat -> (p = starts ts1 + k \/ ts2 = [] /\ k = length t /\ starts ts1 + k < p)%nat ->
  holds (ts1 ++ t :: ts2) (length ts1) p.
Proof.
  intros Hk W. exists t. rewrite nth_error_app2, Nat.sub_diag, start_mid by lia. split; [easy|]. destruct W as [->|(-> & -> & W)]; [lia|]. split; [lia|]. right. rewrite app_length. cbn. lia.
Qed.
Lemma clip_place ts1 (t : str) ts2 k p : (k <= length t)%nat -> (p = starts ts1 + k \/ ts2 = [] /\ k = length t /\ starts ts1 + k < p)%nat ->
  Nat.min p (length (joined (ts1 ++ t :: ts2))) = (starts ts1 + k)%nat.
Proof.
  intros Hk W. destruct W as [->|(-> & -> & W)]; [|rewrite joined_length; lia]. rewrite joined_mid, !app_length, lead_length. lia.
Qed.
Lemma replaced_mid ts1 t ts2 i j mid : replaced (ts1 ++ t :: ts2) (length ts1) i j mid = ts1 ++ (firstn i t ++ mid ++ skipn j t) :: ts2.
Proof.
  unfold replaced. rewrite nth_error_app2, Nat.sub_diag by lia. cbn [nth_error]. rewrite firstn_app, Nat.sub_diag, firstn_all, app_nil_r. f_equal. f_equal.
  rewrite skipn_app, skipn_all2 by lia. now replace (S (length ts1) - length ts1)%nat with 1%nat by lia.
Qed.
Lemma cut_mid ts1 t ts2 i : cut_in_two (ts1 ++ t :: ts2) (length ts1) i = ts1 ++ firstn i t :: skipn i t :: ts2.
Proof.
  unfold cut_in_two. rewrite nth_error_app2, Nat.sub_diag by lia. cbn [nth_error]. rewrite firstn_app, Nat.sub_diag, firstn_all, app_nil_r. do 3 f_equal.
  rewrite skipn_app, skipn_all2 by lia. now replace (S (length ts1) - length ts1)%nat with 1%nat by lia.
Qed.
Lemma typing x ts p text : edited x -> document_texts x ts ->
  let q := Nat.min p (length (joined ts)) in
  exists x' k, x_insert_text x (Z.of_nat p) text = Ok (x', Z.of_nat (q + length text)) /\ edited x' /\ same_blocks (x_table x) (x_table x')
   /\ holds ts k p /\ document_texts x' (replaced ts k (q - start_of k ts) (q - start_of k ts) text)
   /\ joined (replaced ts k (q - start_of k ts) (q - start_of k ts) text) = firstn q (joined ts) ++ text ++ skipn q (joined ts).
Proof.
  intros H T q. assert (I := edited_inv _ H). apply (texts_seen _ _ I) in T. destruct (type_inv x ts p text I T) as (x' & ts1 & t & ts2 & k & Et & Hk & W & E & I' & Se & Sb).
  assert (Q : q = (starts ts1 + k)%nat) by (unfold q; rewrite Et; now apply clip_place). exists x', (length ts1).
  assert (R : replaced ts (length ts1) (q - start_of (length ts1) ts) (q - start_of (length ts1) ts) text = ts1 ++ (firstn k t ++ text ++ skipn k t) :: ts2).
  { rewrite Et, replaced_mid, start_mid, Q. now replace (starts ts1 + k - starts ts1)%nat with k by lia. }
  rewrite R. split; [rewrite E, Q; do 2 f_equal|]. split; [exact (edited_type x p text x' _ H E)|]. split; [easy|]. split; [rewrite Et; now apply (here_holds _ _ _ k)|].
  split; [now apply texts_seen|]. rewrite Q, Et. destruct (splice ts1 t ts2 k Hk) as [-> ->]. rewrite joined_mid, !app_assoc. reflexivity.
Qed.

(** ** Breaks *)
Lemma breaking x ts k p : edited x -> document_texts x ts -> holds ts k p -> outside x k ->
  let q := Nat.min p (length (joined ts)) in
  exists x', x_break_at x (Z.of_nat p) = Ok x' /\ edited x'
   /\ document_texts x' (cut_in_two ts k (q - start_of k ts))
   /\ joined (cut_in_two ts k (q - start_of k ts)) = firstn q (joined ts) ++ NL :: skipn q (joined ts).
Proof.
  intros H T Ho Ou q. assert (I := edited_inv _ H). assert (T' := T). apply (texts_seen _ _ I) in T'. destruct (break_inv x ts p k I T' Ho Ou) as (x' & ts1 & t & ts2 & j & Et & Lk & Hj & W & E & I' & Se).
  assert (Q : q = (starts ts1 + j)%nat) by (unfold q; rewrite Et; now apply clip_place). subst k. exists x'.
  assert (R : cut_in_two ts (length ts1) (q - start_of (length ts1) ts) = ts1 ++ firstn j t :: skipn j t :: ts2).
  { rewrite Et, cut_mid, start_mid, Q. now replace (starts ts1 + j - starts ts1)%nat with j by lia. }
  rewrite R. split; [easy|]. split; [exact (edited_break x ts _ p x' H T Ho Ou E)|]. split; [now apply texts_seen|].
  rewrite Q, Et. destruct (splice ts1 t ts2 j Hj) as [-> ->]. rewrite joined_mid. cbn [trail flat_map]. fold (trail ts2). rewrite <- !app_assoc. reflexivity.
Qed.

(** ** Deletions *)
Lemma deleting x ts k p a : edited x -> table_last x -> document_texts x ts -> holds ts k p -> holds ts k a -> (p <= length (joined ts) /\ a <= length (joined ts))%nat ->
  let s := Nat.min p a in let e := Nat.max p a in
  exists x', x_delete x (Z.of_nat p) (Z.of_nat a) = Ok (Some x') /\ edited x' /\ table_last x' /\ same_blocks (x_table x) (x_table x')
   /\ document_texts x' (replaced ts k (s - start_of k ts) (e - start_of k ts) [])
   /\ joined (replaced ts k (s - start_of k ts) (e - start_of k ts) []) = firstn s (joined ts) ++ skipn e (joined ts).
Proof.
  intros H TL T Hp Ha L s e. assert (I := edited_inv _ H). assert (T' := T). apply (texts_seen _ _ I) in T'. destruct (Nat.eq_dec p a) as [Epa|Ne].
  - exists x. assert (E : x_delete x (Z.of_nat p) (Z.of_nat a) = Ok (Some x)) by (unfold x_delete; now rewrite Epa, Z.eqb_refl). subst a.
    assert (Es : s = p) by lia. assert (Ee : e = p) by lia. rewrite Es, Ee, firstn_skipn.
    assert (R : replaced ts k (p - start_of k ts) (p - start_of k ts) [] = ts).
    { unfold replaced. destruct (nth_error ts k) as [t|] eqn:N; [|easy]. cbn [app]. rewrite firstn_skipn. apply nth_error_split in N. destruct N as (a & b & -> & <-).
      rewrite firstn_app, Nat.sub_diag, firstn_all, app_nil_r. rewrite skipn_app, skipn_all2 by lia. now replace (S (length a) - length a)%nat with 1%nat by lia. }
    rewrite R. do 3 (split; [easy|]). split; [repeat split; apply N.le_refl|easy].
  - destruct (delete_inv x ts p a I TL T' L Ne) as [(ts1 & t & ts2 & j & n & x' & Et & (Hj & Hs & He) & E & I' & TL' & Se & Sb)|[(i1 & i2 & Hl & H1 & H2) E]].
    + assert (k = length ts1).
      { destruct (Nat.le_ge_cases p a).
        - apply (holds_here ts1 t ts2 j p); [lia|left; lia|now rewrite <- Et].
        - apply (holds_here ts1 t ts2 j a); [lia|left; lia|now rewrite <- Et]. }
      subst k. exists x'. assert (R : replaced ts (length ts1) (s - start_of (length ts1) ts) (e - start_of (length ts1) ts) [] = ts1 ++ (firstn j t ++ skipn (j + n) t) :: ts2).
      { rewrite Et, replaced_mid, start_mid. cbn [app]. unfold s, e. rewrite Hs, He. replace (starts ts1 + j - starts ts1)%nat with j by lia. now replace (starts ts1 + j + n - starts ts1)%nat with (j + n)%nat by lia. }
      rewrite R. split; [easy|]. split; [exact (edited_delete x ts p a x' H TL T L E)|]. split; [easy|]. split; [easy|]. split; [now apply texts_seen|].
      unfold s, e. rewrite Hs, He, Et. destruct (splice ts1 t ts2 j ltac:(lia)) as [-> _]. destruct (splice ts1 t ts2 (j + n) Hj) as [_ X]. rewrite Nat.add_assoc in X. rewrite X, joined_mid, <- !app_assoc. reflexivity.
    + exfalso. assert (i1 = i2); [|lia]. assert (Y : forall i, holds ts i (Nat.min p a) -> i = k).
      { intros i Hi. assert (Hm : holds ts k (Nat.min p a)) by (destruct (Nat.min_spec p a) as [[_ ->]|[_ ->]]; easy). revert Hi Hm. clear -L. intros (u & Nu & L1 & R1) Hm.
        apply nth_error_split in Nu. destruct Nu as (a1 & a2 & -> & <-). rewrite start_mid in *. symmetry. apply (holds_here a1 u a2 (Nat.min p a - starts a1) (Nat.min p a)).
        - destruct R1 as [R1|R1]; [lia|]. rewrite app_length in R1. cbn in R1. destruct a2; [|cbn in R1; lia]. rewrite joined_length in L. lia.
        - left. lia.
        - exact Hm. }
      assert (Z1 : forall i, holds ts i (Nat.max p a) -> i = k).
      { intros i Hi. assert (Hm : holds ts k (Nat.max p a)) by (destruct (Nat.max_spec p a) as [[_ ->]|[_ ->]]; easy). revert Hi Hm. clear -L. intros (u & Nu & L1 & R1) Hm.
        apply nth_error_split in Nu. destruct Nu as (a1 & a2 & -> & <-). rewrite start_mid in *. symmetry. apply (holds_here a1 u a2 (Nat.max p a - starts a1) (Nat.max p a)).
        - destruct R1 as [R1|R1]; [lia|]. rewrite app_length in R1. cbn in R1. destruct a2; [|cbn in R1; lia]. rewrite joined_length in L. lia.
        - left. lia.
        - exact Hm. }
      rewrite (Y _ H1), (Z1 _ H2). reflexivity.
Qed.

(** ** The snapshot *)
Lemma snap_seen x bs : forall ts r, seen x bs ts -> exists ss, snap_blocks (x_store x) bs r = Ok (ss, (r + starts ts)%nat)
  /\ map xs_id ss = block_ids bs /\ map xs_text ss = ts /\ forall k s, nth_error ss k = Some s -> xs_len s = length (xs_text s) /\ xs_pos s = (r + start_of k ts)%nat.
Proof.
  induction bs as [|b bs IH]; intros ts r Se; inversion Se as [|? t ? us (K1 & K2 & K3) Se']; subst.
  - exists []. cbn. rewrite Nat.add_0_r. repeat split; destruct k; discriminate.
  - destruct (IH us (r + length t + 1)%nat Se') as (ss & E & Ei & Et & Ep). exists (mk_xsnap (tb_id b) r (length t) t :: ss). cbn [snap_blocks]. unfold text_of in K1. rewrite K1. cbn [bind].
    rewrite K2. cbn [bind]. rewrite E. cbn [bind]. split; [do 2 f_equal; cbn [starts fold_right]; fold (starts us); lia|]. split; [cbn; now rewrite Ei|]. split; [cbn; now rewrite Et|].
    intros [|k] s N; cbn in N; [injection N as <-; cbn; split; [easy|lia]|]. destruct (Ep k s N) as [P1 P2]. split; [easy|]. rewrite P2. unfold start_of. cbn [firstn starts fold_right]. fold (starts (firstn k us)). lia.
Qed.
Lemma sort_one (c : tcell) : length (tc_blocks c) = 1%nat -> sort_tblocks (tc_blocks c) = tc_blocks c.
Proof. destruct (tc_blocks c) as [|b [|]]; easy. Qed.
Lemma nth_app {A} (l m : list A) k a : nth_error (l ++ m) k = Some a -> nth_error l k = Some a /\ (k < length l)%nat \/ exists j, k = (length l + j)%nat /\ nth_error m j = Some a.
Proof.
  intros H. destruct (Nat.lt_ge_cases k (length l)) as [D|D]; [left; rewrite nth_error_app1 in H by easy; easy|right]. exists (k - length l)%nat. split; [lia|]. now rewrite nth_error_app2 in H.
Qed.
Lemma start_left ts us k : (k <= length ts)%nat -> start_of k (ts ++ us) = start_of k ts.
Proof. intros H. unfold start_of. rewrite firstn_app. replace (k - length ts)%nat with 0%nat by lia. now rewrite app_nil_r. Qed.
Lemma start_right ts us k : start_of (length ts + k) (ts ++ us) = (starts ts + start_of k us)%nat.
Proof. unfold start_of. rewrite firstn_app_2. apply starts_app. Qed.
Lemma snap_cells_seen x cs : forall ts r, (forall c, In c cs -> length (tc_blocks c) = 1%nat) -> seen x (flat_map tc_blocks cs) ts ->
  exists xs, snap_cells (x_store x) cs r = Ok (xs, (r + starts ts)%nat)
  /\ map (fun c => (xc_row c, xc_col c, xc_rs c, xc_cs c, map xs_id (xc_blocks c))) xs = map (fun c => (tc_row c, tc_col c, tc_rs c, tc_cs c, block_ids (tc_blocks c))) cs
  /\ map xs_text (flat_map xc_blocks xs) = ts /\ forall k s, nth_error (flat_map xc_blocks xs) k = Some s -> xs_len s = length (xs_text s) /\ xs_pos s = (r + start_of k ts)%nat.
Proof.
  induction cs as [|c cs IH]; intros ts r Si Se.
  - inversion Se. exists []. cbn. rewrite Nat.add_0_r. repeat split; destruct k; discriminate.
  - cbn [flat_map] in Se. apply seen_app in Se. destruct Se as (t1 & t2 & -> & S1 & S2). destruct (snap_seen _ _ _ r S1) as (ss & E & Ei & Et & Ep).
    destruct (IH t2 (r + starts t1)%nat (fun y Hy => Si y (or_intror Hy)) S2) as (xs & E2 & Ei2 & Et2 & Ep2).
    exists (mk_xcell (tc_row c) (tc_col c) (tc_rs c) (tc_cs c) ss :: xs). cbn [snap_cells]. rewrite (sort_one c (Si c (or_introl eq_refl))), E. cbn [bind]. rewrite E2. cbn [bind].
    split; [rewrite starts_app; do 2 f_equal; lia|]. split; [cbn; now rewrite Ei, Ei2|]. split; [cbn; now rewrite map_app, Et, Et2|].
    intros k s N. cbn [flat_map xc_blocks] in N. assert (Ls : length ss = length t1) by (rewrite <- Et; now rewrite map_length). destruct (nth_app _ _ _ _ N) as [[N1 D]|(j & -> & N1)].
    + destruct (Ep _ _ N1) as [P1 P2]. split; [easy|]. rewrite start_left by lia. easy.
    + destruct (Ep2 _ _ N1) as [P1 P2]. split; [easy|]. rewrite Ls, start_right. lia.
Qed.
Lemma snapshot_shows x ts : edited x -> document_texts x ts -> exists es, x_snapshot x = Ok es /\ snapshot_right x ts es.
Proof.
  intros H T. assert (I := edited_inv _ H). apply (texts_seen _ _ I) in T. unfold flow_blocks in T. apply seen_app in T. destruct T as (t1 & t23 & -> & S1 & S23). apply seen_app in S23. destruct S23 as (t2 & t3 & -> & S2 & S3).
  destruct (snap_seen _ _ _ 0 S1) as (above & E1 & Ei1 & Et1 & Ep1).
  destruct (snap_cells_seen _ _ _ (0 + starts t1) (fun c Hc => inv_single _ I c (Permutation_in c (sort_cells_perm _) Hc)) S2) as (cells & E2 & Ei2 & Et2 & Ep2).
  destruct (snap_seen _ _ _ (0 + starts t1 + starts t2)%nat S3) as (below & E3 & Ei3 & Et3 & Ep3).
  eexists. unfold x_snapshot. rewrite E1. cbn [bind]. rewrite E2. cbn [bind]. rewrite E3. cbn [bind]. split; [reflexivity|].
  exists above, cells, below, (sort_cells (t_cells (x_table x))). split; [easy|]. split; [apply sort_cells_perm|]. split; [apply history_reads, (inv_history _ I)|]. do 3 (split; [easy|]).
  split; [now rewrite !map_app, Et1, Et2, Et3|]. intros k s N.
  assert (L1 : length above = length t1) by (rewrite <- Et1; now rewrite map_length). assert (L2 : length (flat_map xc_blocks cells) = length t2) by (rewrite <- Et2; now rewrite map_length).
  destruct (nth_app _ _ _ _ N) as [[N1 D]|(j & -> & N1)].
  - destruct (Ep1 _ _ N1) as [P1 P2]. split; [easy|]. rewrite start_left by lia. easy.
  - rewrite L1, start_right. destruct (nth_app _ _ _ _ N1) as [[N2 D]|(i & -> & N2)].
    + destruct (Ep2 _ _ N2) as [P1 P2]. split; [easy|]. rewrite start_left by lia. lia.
    + destruct (Ep3 _ _ N2) as [P1 P2]. split; [easy|]. rewrite L2, start_right. lia.
Qed.
