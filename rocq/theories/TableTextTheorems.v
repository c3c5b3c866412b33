(** Theorems about tables and their text. *)
From Coq Require Import Sorting.Permutation.
From Verif Require Import Base RopeModel RopeSpec RopeFacts RopeTables TableModel TableSpec TableFacts TablePlaces TableTheorems TableTextModel TableTextSpec TableTextFacts TableTextEdits TableTextInsert.
From Verif Require DocDelete StateFacts.
From Verif Require Import DocModel DocSpec DocInv DocFacts DocReach DocTheorems DocHist PropSpec QueryTheorems.

(** ** Histories *)
Lemma x_step_structure x o x' : x_step x o = Ok x' -> exists d', tstep (x_table x) o = Ok d'.
Proof.
  destruct o as [i|i|i|i|r0 c0 r1 c1|i sr sc]; cbn [x_step tstep]; intros E;
    match type of E with bind ?e _ = _ => destruct e as [[]| |] eqn:F end; cbn [bind] in *; try discriminate; eexists; reflexivity.
Qed.
Lemma x_insert_sizes d p a rows cols tid next x : x_insert_table d p a rows cols tid next = Ok x -> (1 <= rows)%Z /\ (1 <= cols)%Z.
Proof.
  unfold x_insert_table. destruct (Z.ltb_spec rows 1), (Z.ltb_spec cols 1); cbn [orb]; try discriminate. easy.
Qed.
Lemma x_history x : xhistory x -> (exists a b c, layout x a b c) /\ table_history (x_table x).
Proof.
  induction 1 as [d p a rows cols tid next x R E|x o x' H [(a & b & c & L) T] C E|x i k text st d' H [(a & b & c & L) T] Hi E S|x i k n st d' H [(a & b & c & L) T] Hi E S|x i k x' H [(a & b & c & L) T] Hi E].
  - destruct (reach_wf _ R) as [ps W]. destruct (x_insert_sizes _ _ _ _ _ _ _ _ E) as [Hr Hc].
    destruct (insert_layout d ps p a rows cols tid next W Hr Hc) as (y & start & Ey & _ & _ & Et & L & _). rewrite E in Ey. injection Ey as <-.
    split; [easy|]. eapply table_new, Et.
  - destruct (x_step_structure _ _ _ E) as [d' D]. destruct (x_step_layout _ _ _ _ _ _ L (proj2 (history_grid _ T)) D) as (y & c' & Ey & Ed & _ & L' & _).
    rewrite E in Ey. injection Ey as <-. split; [now exists a, b, c'|]. rewrite Ed. exact (table_step _ _ _ T C D).
  - destruct (type_layout _ _ _ _ _ k text L Hi) as (t & st' & _ & E' & X). rewrite E in E'. injection E' as <-. split; [exact (proj1 (X d' S))|].
    exact (table_text _ _ T (proj1 S)).
  - destruct (erase_layout _ _ _ _ _ k n L Hi) as (t & st' & _ & E' & X). rewrite E in E'. injection E' as <-. split; [exact (proj1 (X d' S))|].
    exact (table_text _ _ T (proj1 S)).
  - destruct (break_layout _ _ _ _ _ k L Hi) as (t & st' & _ & E' & X). destruct (insert_block_form _ _ _ _ Hi E') as (d' & Ed & S).
    rewrite E in Ed. injection Ed as ->. split; [exact (proj1 (X d' S))|]. exact (table_text _ _ T (proj1 S)).
Qed.
Lemma readable_theorem x b : xhistory x -> block_in x b -> exists t, text_of x b = Ok t.
Proof. intros H Hb. destruct (x_history _ H) as [(a & c & e & L) _]. destruct (layout_in _ _ _ _ _ L Hb) as (t & _ & E). now exists t. Qed.

(** ** Operations *)
Lemma in_cell x c b : In c (t_cells (x_table x)) -> In b (block_ids (tc_blocks c)) -> block_in x b.
Proof. intros H Hb. right. unfold cell_ids, block_ids in *. apply in_map_iff in Hb. destruct Hb as (y & <- & Hy). apply in_map, in_flat_map. now exists c. Qed.
Lemma content_ids bs bs' : content bs' = content bs -> block_ids bs' = block_ids bs.
Proof. intros E. assert (X : forall l, block_ids l = map fst (content l)) by (intros l; unfold block_ids, content; now rewrite map_map). now rewrite !X, E. Qed.
Lemma texts_ids x bs : map (fun b => text_of x (tb_id b)) bs = map (text_of x) (block_ids bs).
Proof. unfold block_ids. now rewrite map_map. Qed.
Definition keeps (x x' : xdoc) : Prop :=
  same_outside x x'
  /\ (forall c c', In c (t_cells (x_table x)) -> In c' (t_cells (x_table x')) -> same_cell c c' -> cell_text x' c' = cell_text x c)
  /\ (forall c', In c' (t_cells (x_table x')) -> blank (x_table x) c' -> cell_text x' c' = empty_cell).
Lemma x_step_keeps x o d' : xhistory x -> tstep (x_table x) o = Ok d' -> exists x', x_step x o = Ok x' /\ x_table x' = d' /\ keeps x x'.
Proof.
  intros H D. destruct (x_history _ H) as [(a & b & c & L) T]. assert (O := proj2 (history_grid _ T)).
  destruct (x_step_layout _ _ _ _ _ _ L O D) as (x' & c' & E & Ed & _ & L' & K & Nw). exists x'. split; [easy|]. split; [easy|].
  assert (Ch : exists p, changed (x_table x) p d').
  { destruct (x_step_form x o d' O D) as [(_ & Ch)|(g & _ & Ch & _)]; eauto. }
  destruct Ch as (p & Ch). split; [|split].
  - assert (X := Ch). destruct X as (f & qs & l & _ & _ & O1 & O2 & _). rewrite <- Ed in O1, O2. split; [easy|]. split; [easy|].
    unfold outside_text. rewrite !texts_ids, O1. apply map_ext_in. intros i Hi. apply K; left; [easy|now rewrite O1].
  - intros z z' Hz Hz' (_ & _ & S). unfold cell_text. rewrite !texts_ids. apply content_ids in S. rewrite S. apply map_ext_in. intros i Hi. apply K.
    + exact (in_cell _ _ _ Hz Hi).
    + apply (in_cell _ _ _ Hz'). now rewrite S.
  - intros z Hz (F & _ & _). assert (Hz' := Hz). rewrite Ed in Hz'. destruct (changed_cell _ _ _ _ Ch Hz') as [(y & Hy & _ & E1 & _)|(i & E1 & [E2 _] & _)].
    + exfalso. apply F. rewrite E1. now apply in_map.
    + unfold cell_text, empty_cell. rewrite texts_ids, E1. cbn [map]. f_equal. apply Nw; [exact E2|]. apply (in_cell _ _ _ Hz). rewrite E1. now left.
Qed.
Lemma covered d r k c : covering d r k = [c] -> In c (t_cells d).
Proof. intros E. assert (X : In c (covering d r k)) by (rewrite E; now left). now apply filter_In in X. Qed.
Lemma keeps_shows x x' r k r' k' : keeps x x' -> (forall c, covering (x_table x) r k = [c] -> exists c', covering (x_table x') r' k' = [c'] /\ same_cell c c') ->
  forall ts, shows x r k ts -> shows x' r' k' ts.
Proof.
  intros (_ & K & _) H ts (c & E & Et). destruct (H c E) as (c' & E' & S). exists c'. split; [easy|]. rewrite <- Et. apply K; [exact (covered _ _ _ _ E)|exact (covered _ _ _ _ E')|easy].
Qed.
Lemma blank_shows x x' r k : keeps x x' -> grid (x_table x') -> slot (x_table x') r k -> (exists c', In c' (covering (x_table x') r k) /\ blank (x_table x) c') -> shows x' r k empty_cell.
Proof.
  intros (_ & _ & K) G S (c' & Hc & B). destruct G as (_ & _ & _ & G). destruct (G r k S) as (c & E). rewrite E in Hc. destruct Hc as [->|[]]. exists c'. split; [easy|].
  apply K; [exact (covered _ _ _ _ E)|easy].
Qed.

Lemma text_row_in x i : xhistory x -> (0 <= i <= t_rows (x_table x))%Z ->
  exists x', x_step x (InsertRow i) = Ok x' /\ same_outside x x'
   /\ t_rows (x_table x') = (t_rows (x_table x) + 1)%Z /\ t_cols (x_table x') = t_cols (x_table x)
   /\ (forall r k ts, shows x r k ts -> shows x' (if (r <? i)%Z then r else (r + 1)%Z) k ts)
   /\ (~ across_row (x_table x) i -> forall k, (0 <= k < t_cols (x_table x))%Z -> shows x' i k empty_cell).
Proof.
  intros H Hi. destruct (x_history _ H) as [_ T]. destruct (insert_row_theorem _ i T) as [_ X]. destruct (X Hi) as (d' & E & E1 & E2 & _ & S & B & _ & G).
  destruct (x_step_keeps x (InsertRow i) d' H E) as (x' & Ex & Ed & K). exists x'. subst d'. split; [easy|]. split; [apply K|]. split; [easy|]. split; [easy|]. split.
  - intros r k ts. apply (keeps_shows _ _ _ _ _ _ K). intros c Hc. exact (S r k c Hc).
  - intros A k Hk. apply (blank_shows x); [easy|now apply G| |now apply B]. unfold slot. rewrite E1, E2. lia.
Qed.
Lemma text_column_in x i : xhistory x -> (0 <= i <= t_cols (x_table x))%Z ->
  exists x', x_step x (InsertColumn i) = Ok x' /\ same_outside x x'
   /\ t_rows (x_table x') = t_rows (x_table x) /\ t_cols (x_table x') = (t_cols (x_table x) + 1)%Z
   /\ (forall r k ts, shows x r k ts -> shows x' r (if (k <? i)%Z then k else (k + 1)%Z) ts)
   /\ (~ across_column (x_table x) i -> forall r, (0 <= r < t_rows (x_table x))%Z -> shows x' r i empty_cell).
Proof.
  intros H Hi. destruct (x_history _ H) as [_ T]. destruct (insert_column_theorem _ i T) as [_ X]. destruct (X Hi) as (d' & E & E1 & E2 & _ & _ & S & B & _ & G).
  destruct (x_step_keeps x (InsertColumn i) d' H E) as (x' & Ex & Ed & K). exists x'. subst d'. split; [easy|]. split; [apply K|]. split; [easy|]. split; [easy|]. split.
  - intros r k ts. apply (keeps_shows _ _ _ _ _ _ K). intros c Hc. exact (S r k c Hc).
  - intros A k Hk. apply (blank_shows x); [easy|now apply G| |now apply B]. unfold slot. rewrite E1, E2. lia.
Qed.
Lemma text_row_out x i : xhistory x -> (0 <= i < t_rows (x_table x))%Z -> (1 < t_rows (x_table x))%Z ->
  exists x', x_step x (RemoveRow i) = Ok x' /\ same_outside x x'
   /\ t_rows (x_table x') = (t_rows (x_table x) - 1)%Z /\ t_cols (x_table x') = t_cols (x_table x)
   /\ (forall r k ts, shows x r k ts -> r <> i -> shows x' (if (r <? i)%Z then r else (r - 1)%Z) k ts).
Proof.
  intros H Hi H1. destruct (x_history _ H) as [_ T]. destruct (remove_row_theorem _ i T) as [_ X]. destruct (X Hi H1) as (d' & E & _ & E1 & E2 & _ & S & _).
  destruct (x_step_keeps x (RemoveRow i) d' H E) as (x' & Ex & Ed & K). exists x'. subst d'. split; [easy|]. split; [apply K|]. split; [easy|]. split; [easy|].
  intros r k ts Sh N. revert Sh. apply (keeps_shows _ _ _ _ _ _ K). intros c Hc. exact (S r k c Hc N).
Qed.
Lemma text_column_out x i : xhistory x -> (0 <= i < t_cols (x_table x))%Z -> (1 < t_cols (x_table x))%Z ->
  exists x', x_step x (RemoveColumn i) = Ok x' /\ same_outside x x'
   /\ t_rows (x_table x') = t_rows (x_table x) /\ t_cols (x_table x') = (t_cols (x_table x) - 1)%Z
   /\ (forall r k ts, shows x r k ts -> k <> i -> shows x' r (if (k <? i)%Z then k else (k - 1)%Z) ts).
Proof.
  intros H Hi H1. destruct (x_history _ H) as [_ T]. destruct (remove_column_theorem _ i T) as [_ X]. destruct (X Hi H1) as (d' & E & _ & E1 & E2 & _ & S & _).
  destruct (x_step_keeps x (RemoveColumn i) d' H E) as (x' & Ex & Ed & K). exists x'. subst d'. split; [easy|]. split; [apply K|]. split; [easy|]. split; [easy|].
  intros r k ts Sh N. revert Sh. apply (keeps_shows _ _ _ _ _ _ K). intros c Hc. exact (S r k c Hc N).
Qed.
Lemma text_merge x r0 c0 r1 c1 : xhistory x -> ~ reached (x_table x) r0 c0 r1 c1 ->
  (0 <= r0 <= r1)%Z -> (r1 < t_rows (x_table x))%Z -> (0 <= c0 <= c1)%Z -> (c1 < t_cols (x_table x))%Z ->
  (forall c, In c (t_cells (x_table x)) -> in_rect r0 c0 r1 c1 (tc_row c) (tc_col c) -> tc_rs c = 1%Z /\ tc_cs c = 1%Z) ->
  exists x', x_step x (Merge r0 c0 r1 c1) = Ok x' /\ same_outside x x'
   /\ (forall r k ts, shows x r k ts -> ~ in_rect r0 c0 r1 c1 r k -> shows x' r k ts)
   /\ (forall r k ts, shows x r0 c0 ts -> in_rect r0 c0 r1 c1 r k -> shows x' r k ts).
Proof.
  intros H R A1 A2 A3 A4 U. destruct (x_history _ H) as [_ T]. destruct (merge_theorem _ r0 c0 r1 c1 T R A1 A2 A3 A4 U) as (d' & i & E & _ & _ & _ & _ & S & s & s' & C & Ss & _ & V).
  destruct (x_step_keeps x (Merge r0 c0 r1 c1) d' H) as (x' & Ex & Ed & K); [cbn [tstep]; rewrite E; reflexivity|]. exists x'. subst d'. split; [easy|]. split; [apply K|]. split.
  - intros r k ts Sh N. revert Sh. apply (keeps_shows _ _ _ _ _ _ K). intros c Hc. exact (S r k c Hc N).
  - intros r k ts Sh I. revert Sh. apply (keeps_shows _ _ _ _ _ _ K). intros c Hc. rewrite C in Hc. injection Hc as <-. exists s'. split; [now apply V|easy].
Qed.
Lemma text_split x c sr sc : xhistory x -> In c (t_cells (x_table x)) -> (1 <= sr <= tc_rs c)%Z -> (1 <= sc <= tc_cs c)%Z -> ~ (tc_rs c = 1%Z /\ tc_cs c = 1%Z) ->
  exists x', x_step x (Split (tc_id c) sr sc) = Ok x' /\ same_outside x x'
   /\ (forall r k ts, shows x r k ts -> covers c r k = false -> shows x' r k ts)
   /\ shows x' (tc_row c) (tc_col c) (cell_text x c)
   /\ (forall r k, covers c r k = true -> shows x' r k (cell_text x c) \/ shows x' r k empty_cell).
Proof.
  intros H Hc S1 S2 N. destruct (x_history _ H) as [_ T]. destruct (split_theorem _ c sr sc T Hc S1 S2 N) as (d' & E & G & _ & _ & _ & S & (c' & C & Sc) & V & _).
  destruct (x_step_keeps x (Split (tc_id c) sr sc) d' H E) as (x' & Ex & Ed & K). exists x'. subst d'. split; [easy|]. split; [apply K|].
  split; [|split].
  - intros r k ts Sh F. revert Sh. apply (keeps_shows _ _ _ _ _ _ K). intros y Hy. apply (S r k y Hy). intros ->.
    assert (X : In c (covering (x_table x) r k)) by (rewrite Hy; now left). apply filter_In in X. destruct X as [_ X]. now rewrite X in F.
  - exists c'. split; [easy|]. apply K; [easy|exact (covered _ _ _ _ C)|easy].
  - intros r k F. destruct (history_grid _ T) as [(_ & _ & Ins & One) _]. destruct (Ins c Hc) as (_ & _ & Sl). destruct (One r k (Sl r k F)) as (y & Hy).
    assert (X : In c (covering (x_table x) r k)) by (apply filter_In; now split). rewrite Hy in X. destruct X as [->|[]].
    destruct (V r k Hy) as (x2 & Ev & Q & _). destruct Q as [Q|Q]; [left|right]; exists x2; (split; [easy|]); apply K; try easy; exact (covered _ _ _ _ Ev).
Qed.

(** ** A new table *)
Lemma texts_paras d ps (x : xdoc) : ps <> [] -> (forall i t, In (i, t) ps -> text_of x i = Ok t) ->
  map (text_of x) (map fst ps) = map (fun p => Ok (plain p)) (paragraphs (items_of (d_runs d) ps)).
Proof.
  intros NE H. rewrite paragraphs_items by easy. rewrite !map_map. apply map_ext_in. intros [i t] Hi. cbn [fst snd]. rewrite (H i t Hi). f_equal.
  unfold styled. symmetry. apply BlockFacts.plain_styled.
Qed.
Lemma text_new d p a rows cols tid next : reach d -> (1 <= rows)%Z -> (1 <= cols)%Z ->
  exists its x, doc_items d = Ok its /\ x_insert_table d p a rows cols tid next = Ok x
   /\ t_rows (x_table x) = rows /\ t_cols (x_table x) = cols
   /\ t_at (x_table x) = paragraphs_started (clip its (Z.min p a)) its
   /\ outside_text x = map (fun q => Ok (plain q)) (paragraphs its)
   /\ (forall r k, slot (x_table x) r k -> shows x r k empty_cell).
Proof.
  intros R Hr Hc. destruct (reach_items _ R) as (ps & W & E). exists (items_of (d_runs d) ps).
  destruct (insert_layout d ps p a rows cols tid next W Hr Hc) as (x & start & Ex & _ & _ & Et & L & (P1 & P2 & P3 & P4)). exists x. split; [easy|]. split; [easy|].
  destruct (insert_table_grid (at_places 0 ps) (t_at (x_table x)) start rows cols (d_nblocks d) (d_chars d) next (d_next d) Hr Hc) as (d' & Ed & G & _ & E1 & E2 & _).
  assert (Q : d' = x_table x) by (rewrite P1 in Ed; rewrite Et in Ed; injection Ed as <-; reflexivity). subst d'.
  split; [easy|]. split; [easy|]. split; [rewrite P1; unfold clip, clipz; now rewrite items_length|]. split.
  - unfold outside_text. rewrite texts_ids, P2. apply texts_paras; [exact (wf_ne _ _ W)|exact P3].
  - intros r k S. destruct G as (_ & _ & _ & G). destruct (G r k S) as (c & Hcv). exists c. split; [easy|]. apply P4. exact (covered _ _ _ _ Hcv).
Qed.
(** With right statistics the new table is in place (C45). *)
Lemma new_placed d p a rows cols tid next x : counted d -> x_insert_table d p a rows cols tid next = Ok x -> placed_history (x_table x).
Proof.
  intros C E. destruct (counted_facts _ C) as (ps & W & D). destruct (x_insert_sizes _ _ _ _ _ _ _ _ E) as [Hr Hc].
  destruct (insert_layout d ps p a rows cols tid next W Hr Hc) as (y & start & Ey & Kl & St & Et & _). rewrite E in Ey. injection Ey as <-.
  unfold drift in D. injection D as D1 D2. eapply placed_new; [apply (at_places_in_place ps 0)|intros b; apply at_places_len| |exact St| | |exact Et].
  - now rewrite at_places_length.
  - rewrite at_places_length. lia.
  - rewrite at_places_chars. assert (X : length (concat (map snd ps)) = DocDelete.csum ps) by (clear; induction ps as [|[b t] ps IH]; [easy|]; cbn [map snd concat]; rewrite app_length, IH; reflexivity). lia.
Qed.

(** ** Taking the table out *)
Lemma text_remove x : xhistory x ->
  (t_at (x_table x) < length (t_others (x_table x)))%nat \/ last (outside_text x) (Ok []) <> Ok [] ->
  exists others n ch st, x_remove_table x = Ok (others, n, ch, st) /\ block_ids others = block_ids (t_others (x_table x))
   /\ map (fun b => block_content st (tb_id b)) others = outside_text x.
Proof.
  intros H A. destruct (x_history _ H) as [(a & b & c & L) T]. assert (L0 := L). destruct L as (R & B & A' & P & F & NE). unfold x_remove_table.
  destruct (mirror_gone_rep (cell_ids (t_cells (x_table x))) (x_store x) (a ++ (MAnchor (x_tid x), [FFFC]) :: b) c []) as (st1 & c' & E1 & R1 & P1 & _); [exact R|now rewrite app_nil_r|].
  rewrite E1. cbn [bind]. cbn in P1. symmetry in P1. apply Permutation_nil in P1. destruct c'; [|discriminate]. rewrite app_nil_r in R1.
  set (ids := block_ids (t_others (x_table x))) in *. set (k := t_at (x_table x)) in *.
  destruct (rep_remove_anchor st1 a (x_tid x) b R1) as (st2 & E2 & R2).
  - assert (Len : length (t_others (x_table x)) = length ids) by (unfold ids, block_ids; now rewrite map_length).
    destruct (Nat.le_gt_cases (length ids) k) as [Hk|Hk].
    + right. destruct A as [A|A]; [lia|]. rewrite firstn_all2 in B by exact Hk.
      assert (NI : ids <> []) by (unfold ids, block_ids; destruct (t_others (x_table x)); easy).
      destruct a as [|[m t] a0] using rev_ind; [symmetry in B; apply map_eq_nil in B; easy|]. clear IHa0. exists a0, m, t. split; [easy|]. intros ->. apply A.
      unfold outside_text. rewrite texts_ids. fold ids.
      destruct ids as [|j ids0] using rev_ind; [easy|]. rewrite map_app in B. cbn [map fst] in B. rewrite map_app in B. cbn [map] in B. apply app_inj_tail in B. destruct B as [_ B].
      rewrite map_app. cbn [map]. rewrite last_last. apply (rep_read _ _ _ _ R). rewrite B, !in_app_iff. left. left. right. now left.
    + left. intros ->. cbn in A'. symmetry in A'. apply map_eq_nil in A'. assert (X := skipn_length k ids). rewrite A' in X. cbn in X. lia.
  - rewrite E2. cbn [bind]. eexists _, _, _, _. split; [reflexivity|].
    assert (O : block_ids (match cell_ids (t_cells (x_table x)) with [] => t_others (x_table x) | _ :: _ => map (moved (base_pos (x_table x)) (- Z.of_nat (length (cell_ids (t_cells (x_table x)))))) (t_others (x_table x)) end) = ids).
    { destruct (cell_ids (t_cells (x_table x))); [easy|]. apply ids_moved. }
    split; [exact O|]. transitivity (map (block_content st2) (block_ids (match cell_ids (t_cells (x_table x)) with [] => t_others (x_table x) | _ :: _ => map (moved (base_pos (x_table x)) (- Z.of_nat (length (cell_ids (t_cells (x_table x)))))) (t_others (x_table x)) end))).
    { unfold block_ids. now rewrite map_map. }
    rewrite O. unfold outside_text. rewrite texts_ids. apply map_ext_in. intros j Hj. destruct (layout_in _ _ _ _ _ L0 (or_introl Hj)) as (t & Ht & Et). rewrite Et.
    apply (rep_read _ _ _ _ R2). assert (M : In (MBlock j) (map fst (a ++ b))) by (rewrite map_app, B, A', <- map_app; fold ids k; rewrite firstn_skipn; now apply in_mblock).
    apply in_map_iff in M. destruct M as ([m u] & Em & M). cbn in Em. subst m.
    assert (M' : In (MBlock j, u) ((a ++ (MAnchor (x_tid x), [FFFC]) :: b) ++ c)) by (rewrite !in_app_iff in *; cbn [In]; tauto).
    destruct (layout_block _ _ _ _ _ _ L0 M') as [_ Eu]. assert (Ok t = Ok u) by congruence. congruence.
Qed.

(** ** Editing a paragraph *)
Lemma text_type x b k text : xhistory x -> block_in x b ->
  exists t st, text_of x b = Ok t /\ type_in (x_store x) b k text = Ok st
   /\ forall d', same_blocks (x_table x) d' -> let x' := mk_xdoc d' st (x_tid x) in
        text_of x' b = Ok (firstn k t ++ text ++ skipn k t) /\ forall i, block_in x i -> i <> b -> text_of x' i = text_of x i.
Proof.
  intros H Hb. destruct (x_history _ H) as [(a & c & e & L) _]. destruct (type_layout _ _ _ _ _ k text L Hb) as (t & st & E1 & E2 & X).
  exists t, st. split; [easy|]. split; [easy|]. intros d' S. exact (proj2 (X d' S)).
Qed.
Lemma text_erase x b k n : xhistory x -> block_in x b ->
  exists t st, text_of x b = Ok t /\ erase_in (x_store x) b k n = Ok st
   /\ forall d', same_blocks (x_table x) d' -> let x' := mk_xdoc d' st (x_tid x) in
        text_of x' b = Ok (firstn k t ++ skipn (k + n) t) /\ forall i, block_in x i -> i <> b -> text_of x' i = text_of x i.
Proof.
  intros H Hb. destruct (x_history _ H) as [(a & c & e & L) _]. destruct (erase_layout _ _ _ _ _ k n L Hb) as (t & st & E1 & E2 & X).
  exists t, st. split; [easy|]. split; [easy|]. intros d' S. exact (proj2 (X d' S)).
Qed.
Lemma text_break x b k : xhistory x -> In b (block_ids (t_others (x_table x))) ->
  exists t x', text_of x b = Ok t /\ x_insert_block x b k = Ok x' /\ one_block_more b (x_table x) (x_table x')
   /\ text_of x' b = Ok (firstn k t) /\ text_of x' (t_nextb (x_table x)) = Ok (skipn k t)
   /\ forall i, block_in x i -> i <> b -> text_of x' i = text_of x i.
Proof.
  intros H Hb. destruct (x_history _ H) as [(a & c & e & L) _]. destruct (break_layout _ _ _ _ _ k L Hb) as (t & st & E1 & E2 & X).
  destruct (insert_block_form _ _ _ _ Hb E2) as (d' & Ed & S). exists t, (mk_xdoc d' st (x_tid x)). split; [easy|]. split; [easy|]. split; [exact S|]. exact (proj2 (X d' S)).
Qed.

(** ** Positions after a break *)
Lemma behind_split b pre post : ~ In b pre -> behind b (pre ++ b :: post) = post.
Proof.
  induction pre as [|i pre IH]; intros H; cbn [behind app].
  - now rewrite N.eqb_refl.
  - destruct (N.eqb_spec i b) as [->|_]; [exfalso; apply H; now left|]. apply IH. intros Hi. apply H. now right.
Qed.
Definition one_later (y : tblock) : tblock := mk_tblock (tb_id y) (tb_pos y + 1) (tb_len y).
Lemma later_in_place bs : forall p, in_place p bs -> in_place (p + 1) (map one_later bs).
Proof.
  induction bs as [|y bs IH]; intros p; [easy|]. cbn [in_place map one_later tb_pos tb_len]. intros [E H]. split; [lia|].
  replace (p + 1 + tb_len y + 1)%Z with (p + tb_len y + 1 + 1)%Z by lia. now apply IH.
Qed.
Definition lengths (bs : list tblock) : Z := fold_right (fun y n => tb_len y + n)%Z 0%Z bs.
Lemma lengths_app a b : lengths (a ++ b) = (lengths a + lengths b)%Z.
Proof. induction a as [|y a IH]; cbn [app lengths fold_right]; [easy|]. fold (lengths (a ++ b)) (lengths a). rewrite IH. lia. Qed.
Lemma lengths_perm a b : Permutation a b -> lengths a = lengths b.
Proof. induction 1; cbn [lengths fold_right]; fold (lengths); try fold (lengths l) (lengths l'); lia. Qed.
Lemma lengths_later bs : lengths (map one_later bs) = lengths bs.
Proof. induction bs as [|y bs IH]; [easy|]. cbn [map lengths fold_right one_later tb_len]. fold (lengths (map one_later bs)) (lengths bs). now rewrite IH. Qed.
(** The blocks of the document in order. *)
Definition flow (d : tdoc) (l : list tcell) : list tblock := firstn (t_at d) (t_others d) ++ flat_map tc_blocks l ++ skipn (t_at d) (t_others d).
Lemma flow_perm d l : Permutation l (t_cells d) -> Permutation (flow d l) (t_others d ++ flat_map tc_blocks (t_cells d)).
Proof.
  intros P. unfold flow. rewrite <- (firstn_skipn (t_at d) (t_others d)) at 3. rewrite <- app_assoc. apply Permutation_app_head.
  etransitivity; [apply Permutation_app_comm|]. apply Permutation_app_head. now apply flat_map_perm.
Qed.
Lemma flow_nodup x l : xhistory x -> Permutation l (t_cells (x_table x)) -> NoDup (block_ids (flow (x_table x) l)).
Proof.
  intros H P. destruct (x_history _ H) as [(a & b & c & L) _]. assert (N := layout_nodup _ _ _ _ L). destruct L as (_ & E1 & E2 & Q & _).
  rewrite !map_app in N. cbn [map fst] in N. rewrite E1, E2, <- app_assoc in N. cbn [app] in N.
  apply NoDup_remove_1 in N. rewrite app_assoc, <- map_app, firstn_skipn in N.
  assert (N2 : NoDup (map MBlock (block_ids (t_others (x_table x))) ++ map MBlock (cell_ids (t_cells (x_table x))))).
  { refine (Permutation_NoDup _ N). now apply Permutation_app_head. }
  rewrite <- map_app in N2. apply NoDup_map_inv in N2. refine (Permutation_NoDup _ N2). unfold block_ids.
  rewrite (Permutation_map tb_id (flow_perm _ _ P)), map_app. apply Permutation_app_head. unfold cell_ids. now rewrite <- ?flat_map_concat_map.
Qed.
Lemma break_flow x b k x' y l : xhistory x -> Permutation l (t_cells (x_table x)) -> reads l -> In y (t_others (x_table x)) -> tb_id y = b ->
  x_insert_block x b k = Ok x' ->
  exists l' pre post, flow (x_table x) l = pre ++ y :: post
   /\ flow (x_table x') l' = pre ++ mk_tblock b (tb_pos y) (Z.of_nat k) :: mk_tblock (t_nextb (x_table x)) (tb_pos y + Z.of_nat k + 1) (tb_len y - Z.of_nat k) :: map one_later post
   /\ Permutation l' (t_cells (x_table x')) /\ reads l' /\ t_count (x_table x') = (t_count (x_table x) + 1)%Z /\ t_chars (x_table x') = t_chars (x_table x)
   /\ map (fun c => length (tc_blocks c)) (t_cells (x_table x')) = map (fun c => length (tc_blocks c)) (t_cells (x_table x)).
Proof.
  intros H Pl Rl Hy Eb E. set (d := x_table x) in *. subst b. destruct (x_history _ H) as [(la & lb & lc & L) T].
  assert (G := history_grid _ T). assert (El : l = sort_cells (t_cells d)).
  { apply reads_unique; [easy|apply sort_cells_reads; apply G|]. rewrite Pl. symmetry. apply sort_cells_perm. }
  assert (Ap : ~ In (tb_id y) (cell_ids (t_cells d))) by (apply (layout_apart _ _ _ _ _ L); unfold block_ids; now apply in_map).
  assert (N := flow_nodup _ _ H Pl). fold d in N.
  unfold x_insert_block in E. fold d in E.
  destruct (find (fun z => N.eqb (tb_id z) (tb_id y)) (t_others d ++ flat_map tc_blocks (t_cells d))) as [cur|] eqn:F; [|discriminate].
  assert (Yf : In y (flow d l)) by (apply (Permutation_in y (Permutation_sym (flow_perm _ _ Pl))); apply in_app_iff; now left).
  assert (Ec : cur = y).
  { apply find_some in F. destruct F as [F1 F2]. apply N.eqb_eq in F2. apply (Permutation_in cur (Permutation_sym (flow_perm _ _ Pl))) in F1.
    apply (StateFacts.NoDup_map_inj tb_id (flow d l)); easy. }
  subst cur. clear F. destruct (break_in _ _ _ _) as [st| |]; cbn [bind] in E; try discriminate.
  assert (Ob : existsb (N.eqb (tb_id y)) (block_ids (t_others d)) = true) by (apply existsb_exists; exists (tb_id y); split; [unfold block_ids; now apply in_map|apply N.eqb_refl]).
  rewrite Ob in E. injection E as <-. cbn [x_table].
  apply in_split in Yf. destruct Yf as (pre & post & Ef).
  assert (Ei : flow_ids d = block_ids (flow d l)).
  { unfold flow_ids, flow. rewrite <- El. unfold block_ids, cell_ids, block_ids. rewrite !map_app, firstn_map, skipn_map. reflexivity. }
  assert (Ni : ~ In (tb_id y) (block_ids pre) /\ ~ In (tb_id y) (block_ids post) /\ forall i, In i (block_ids pre) -> ~ In i (block_ids post)).
  { rewrite Ef in N. unfold block_ids in *. rewrite map_app in N. cbn [map] in N. apply NoDup_app_parts in N. destruct N as (_ & N2 & N3). inversion N2; subst.
    split; [intros X; apply (N3 _ X); now left|]. split; [easy|]. intros i X Y. apply (N3 _ X). now right. }
  assert (Eh : behind (tb_id y) (flow_ids d) = block_ids post).
  { rewrite Ei, Ef. unfold block_ids. rewrite map_app. cbn [map]. apply behind_split. apply Ni. }
  rewrite Eh.
  set (ed := fun z => if N.eqb (tb_id z) (tb_id y) then _ else _). set (new := mk_tblock (t_nextb d) _ _).
  set (g := fun z => if N.eqb (tb_id z) (tb_id y) then [ed z; new] else [ed z]).
  assert (Ki : forall z, tb_id (ed z) = tb_id z).
  { intros z. unfold ed. destruct (N.eqb_spec (tb_id z) (tb_id y)) as [->|_]; [easy|]. match goal with |- context [if ?c then _ else _] => destruct c end; reflexivity. }
  assert (Gc : forall bs, ~ In (tb_id y) (block_ids bs) -> flat_map g bs = map ed bs).
  { clear. induction bs as [|z bs IH]; intros Hn; [easy|]. cbn [flat_map map]. rewrite IH by (intros X; apply Hn; now right). unfold g at 1.
    destruct (N.eqb_spec (tb_id z) (tb_id y)) as [e|_]; [exfalso; apply Hn; left; now rewrite e|easy]. }
  set (d' := mk_tdoc _ _ _ _ _ _ _ _ _ _). set (sc := fun c => TableModel.set_blocks c (map ed (tc_blocks c))) in *.
  assert (Pc : Permutation (map sc l) (t_cells d')) by (apply Permutation_map; exact Pl).
  assert (Bl : flat_map tc_blocks (map sc l) = map ed (flat_map tc_blocks l)).
  { clear. induction l as [|c l IH]; [easy|]. cbn [map flat_map]. rewrite IH, map_app. reflexivity. }
  assert (Fg : flow d' (map sc l) = flat_map g (flow d l)).
  { unfold flow. cbn [d' t_at t_others]. rewrite Bl, !flat_map_app. rewrite <- (Gc (flat_map tc_blocks l)).
    2:{ intros X. apply Ap. unfold cell_ids, block_ids in *. apply (Permutation_in (tb_id y) (Permutation_map tb_id (flat_map_perm tc_blocks _ _ Pl))). exact X. }
    change (flat_map _ (t_others d)) with (flat_map g (t_others d)).
    assert (Lg : forall bs, NoDup (block_ids bs) -> length (flat_map g bs) = length bs + if existsb (N.eqb (tb_id y)) (block_ids bs) then 1 else 0).
    { clear -Gc. induction bs as [|z bs IH]; intros Hn; [easy|]. cbn [flat_map block_ids map length existsb] in *. fold (block_ids bs) in *. inversion Hn; subst.
      rewrite app_length. unfold g at 1. rewrite (N.eqb_sym (tb_id y)). destruct (N.eqb_spec (tb_id z) (tb_id y)) as [e|_]; cbn [length orb].
      - rewrite Gc by now rewrite <- e. rewrite map_length. lia.
      - rewrite IH by easy. lia. }
    assert (No : NoDup (block_ids (t_others d))) by exact (layout_others_nodup _ _ _ _ L).
    assert (Lf := Lg (firstn (t_at d) (t_others d))). unfold block_ids in Lf at 1 2. rewrite <- firstn_map in Lf. fold (block_ids (t_others d)) in Lf.
    specialize (Lf ltac:(rewrite <- (firstn_skipn (t_at d)) in No; apply NoDup_app_parts in No; apply No)).
    set (n := if existsb _ (firstn _ _) then S (t_at d) else t_at d).
    assert (Q : length (firstn (t_at d) (t_others d)) = t_at d \/ skipn (t_at d) (t_others d) = []).
    { destruct (le_lt_dec (t_at d) (length (t_others d))); [left; now apply firstn_length_le|right; apply skipn_all2; lia]. }
    assert (Q2 := firstn_le_length (t_at d) (t_others d)).
    assert (Cut : firstn n (flat_map g (t_others d)) = flat_map g (firstn (t_at d) (t_others d)) /\ skipn n (flat_map g (t_others d)) = flat_map g (skipn (t_at d) (t_others d))).
    { rewrite <- (firstn_skipn (t_at d) (t_others d)) at 1 3. rewrite flat_map_app, firstn_app, skipn_app.
      destruct Q as [Q|Q].
      - assert (En : n = length (flat_map g (firstn (t_at d) (t_others d)))).
        { rewrite Lf, Q. assert (X : forall (w : bool) a, (if w then S a else a) = a + if w then 1 else 0) by (intros []; lia). apply X. }
        rewrite En, Nat.sub_diag, firstn_all, skipn_all. cbn [firstn skipn]. now rewrite app_nil_r.
      - rewrite Q. cbn [flat_map]. rewrite firstn_nil, skipn_nil, !app_nil_r.
        assert (length (flat_map g (firstn (t_at d) (t_others d))) <= n) by (rewrite Lf; assert (X : forall (w : bool) a c, c <= a -> c + (if w then 1 else 0) <= if w then S a else a) by (intros []; lia); now apply X).
        split; [now apply firstn_all2|now apply skipn_all2]. }
    destruct Cut as [-> ->]. reflexivity. }
  assert (Eq : flow d' (map sc l) = pre ++ mk_tblock (tb_id y) (tb_pos y) (Z.of_nat k) :: new :: map one_later post).
  { rewrite Fg, Ef, flat_map_app. cbn [flat_map]. rewrite (Gc pre (proj1 Ni)), (Gc post (proj1 (proj2 Ni))). unfold g. rewrite N.eqb_refl. cbn [app].
    assert (E1 : map ed pre = pre).
    { rewrite (map_ext_in ed (fun z => z)), map_id; [easy|]. intros z Hz. assert (Iz : In (tb_id z) (block_ids pre)) by (unfold block_ids; now apply in_map). unfold ed.
      destruct (N.eqb_spec (tb_id z) (tb_id y)) as [e|_]; [exfalso; apply (proj1 Ni); now rewrite <- e|].
      destruct (existsb (N.eqb (tb_id z)) (block_ids post)) eqn:X; [|easy]. apply existsb_exists in X. destruct X as (i & Hi & e). apply N.eqb_eq in e. subst i.
      exfalso. exact (proj2 (proj2 Ni) _ Iz Hi). }
    assert (E2 : map ed post = map one_later post).
    { apply map_ext_in. intros z Hz. assert (Iz : In (tb_id z) (block_ids post)) by (unfold block_ids; now apply in_map). unfold ed.
      destruct (N.eqb_spec (tb_id z) (tb_id y)) as [e|_]; [exfalso; apply (proj1 (proj2 Ni)); now rewrite <- e|].
      assert (X : existsb (N.eqb (tb_id z)) (block_ids post) = true) by (apply existsb_exists; exists (tb_id z); split; [easy|apply N.eqb_refl]). now rewrite X. }
    rewrite E1, E2. unfold ed. rewrite N.eqb_refl. reflexivity. }
  exists (map sc l), pre, post. split; [exact Ef|]. split; [exact Eq|]. split; [exact Pc|]. split; [|split; [reflexivity|split; [reflexivity|]]].
  - clear -Rl. unfold reads in *. induction Rl as [|c l S IH F]; cbn [map]; constructor; [easy|]. rewrite Forall_forall in *. intros z Hz. apply in_map_iff in Hz. destruct Hz as (w & <- & Hw). exact (F w Hw).
  - cbn [d' t_cells]. rewrite map_map. apply map_ext. intros c. unfold sc. cbn. apply map_length.
Qed.
Lemma break_places x b k x' y : xhistory x -> placed (x_table x) -> counted_right (x_table x) -> In y (t_others (x_table x)) -> tb_id y = b ->
  x_insert_block x b k = Ok x' -> placed (x_table x') /\ counted_right (x_table x').
Proof.
  intros H (l & Pl & Rl & I) [C1 C2] Hy Eb E. destruct (break_flow _ _ _ _ _ _ H Pl Rl Hy Eb E) as (l' & pre & post & Ef & Eq & Pc & Rl' & Ec & Eh & _).
  set (d := x_table x) in *. set (d' := x_table x') in *. fold (flow d l) in I. split.
  - exists l'. split; [exact Pc|]. split; [exact Rl'|].
    fold (flow d' l'). rewrite Eq. rewrite Ef in I. apply in_place_app in I. destruct I as [I1 I2]. apply in_place_app. split; [easy|].
    cbn [in_place tb_pos tb_len] in *. destruct I2 as [I2 I3]. split; [easy|]. split; [lia|].
    replace (0 + width pre + Z.of_nat k + 1 + (tb_len y - Z.of_nat k) + 1)%Z with (0 + width pre + tb_len y + 1 + 1)%Z by lia. now apply later_in_place.
  - assert (P1 := flow_perm d l Pl). assert (P2 := flow_perm d' l' Pc). rewrite Ef in P1. rewrite Eq in P2. split.
    + unfold blocks_of in *. apply Permutation_length in P1, P2. rewrite !app_length in P1, P2. cbn [length] in P1, P2. rewrite map_length in P2.
      rewrite Ec, C1. lia.
    + rewrite Eh, C2. unfold chars_of. change (lengths (t_others d ++ flat_map tc_blocks (t_cells d)) = lengths (t_others d' ++ flat_map tc_blocks (t_cells d'))).
      rewrite <- (lengths_perm _ _ P1), <- (lengths_perm _ _ P2), !lengths_app. cbn [lengths fold_right tb_len]. fold (lengths post) (lengths (map one_later post)).
      rewrite lengths_later. lia.
Qed.

(** ** Positions and statistics after taking the table out *)
Local Open Scope Z_scope.
Lemma sum_moved p k bs : fold_right (fun b m => tb_len b + m) 0 (map (moved p k) bs) = fold_right (fun b m => tb_len b + m) 0 bs.
Proof. induction bs as [|b bs IH]; [easy|]. cbn [map fold_right]. rewrite IH. unfold moved. destruct (p <=? tb_pos b); reflexivity. Qed.
Lemma removed_places x others n ch st : x_remove_table x = Ok (others, n, ch, st) ->
  (counted_right (x_table x) -> n = Z.of_nat (length others))
  /\ (placed (x_table x) -> own_blocks (x_table x) -> (forall b, In b (flat_map tc_blocks (t_cells (x_table x))) -> tb_len b = 0) ->
      in_place 0 others /\ (counted_right (x_table x) -> ch = fold_right (fun b m => tb_len b + m) 0 others)).
Proof.
  unfold x_remove_table. set (d := x_table x). set (ids := cell_ids (t_cells d)). intros E.
  destruct (mirror_gone (x_store x) ids) as [s1| |]; [cbn [bind] in E|discriminate..].
  destruct (rope_remove_table_anchor s1 (x_tid x)) as [s2| |]; [cbn [bind] in E|discriminate..]. injection E as E1 E2 E3 E4.
  assert (LI : length ids = length (flat_map tc_blocks (t_cells d))) by (unfold ids, cell_ids, block_ids; now rewrite map_length).
  assert (Lo : length others = length (t_others d)) by (rewrite <- E1; destruct ids; [easy|]; apply map_length).
  split.
  - intros [C _]. rewrite Lo, <- E2, C. unfold blocks_of. rewrite <- LI. lia.
  - intros (l & P & Rd & I) (O1 & O2 & O3) Z0. assert (Q := flat_map_perm tc_blocks _ _ P).
    assert (Zl : forall b, In b (flat_map tc_blocks l) -> tb_len b = 0) by (intros b Hb; apply Z0; now apply (Permutation_in b Q)).
    assert (Sum : fold_right (fun b m => tb_len b + m) 0 others = fold_right (fun b m => tb_len b + m) 0 (t_others d)).
    { rewrite <- E1. destruct ids; [reflexivity|]. apply sum_moved. }
    split.
    + rewrite !in_place_app in I. destruct I as (I1 & I2 & I3). rewrite Z.add_0_l in *.
      assert (W : width (flat_map tc_blocks l) = Z.of_nat (length ids)) by (rewrite width_empty by exact Zl; rewrite LI; f_equal; now apply Permutation_length).
      destruct (flat_map tc_blocks l) as [|b0 rest] eqn:F.
      * cbn in W. assert (ids = []) by (destruct ids; [easy|cbn in W; lia]). rewrite H in E1. rewrite <- E1, <- (firstn_skipn (t_at d) (t_others d)). apply in_place_app.
        cbn in I3. rewrite Z.add_0_r in I3. now split.
      * assert (Bp : base_pos d = width (firstn (t_at d) (t_others d))).
        { apply (base_first d l _ b0 rest P F I2). intros y Hy. rewrite (Zl y Hy). lia. }
        assert (N0 : ids <> []) by (intros N0; rewrite N0 in W; cbn [length] in W; rewrite width_empty in W by exact Zl; cbn [length] in W; lia).
        destruct ids as [|i0 ids0] eqn:Ei; [easy|]. rewrite <- E1, Bp. set (k := - Z.of_nat (length (i0 :: ids0))) in *.
        rewrite <- (firstn_skipn (t_at d) (t_others d)) at 2. rewrite map_app.
        assert (Lf : forall b, In b (firstn (t_at d) (t_others d)) -> 0 <= tb_len b) by (intros b Hb; apply O1; rewrite <- (firstn_skipn (t_at d) (t_others d)); apply in_app_iff; now left).
        assert (Ls : forall b, In b (skipn (t_at d) (t_others d)) -> 0 <= tb_len b) by (intros b Hb; apply O1; rewrite <- (firstn_skipn (t_at d) (t_others d)); apply in_app_iff; now right).
        rewrite moved_still by (intros b Hb; assert (X := in_place_bounds _ Lf 0 I1 b Hb); lia).
        apply in_place_app. split; [exact I1|]. rewrite Z.add_0_l.
        replace (width (firstn (t_at d) (t_others d))) with (width (firstn (t_at d) (t_others d)) + width (b0 :: rest) + k) at 1 by (rewrite W; unfold k; lia).
        apply in_place_moved; [|exact I3]. intros b Hb. assert (X := in_place_bounds _ Ls _ I3 b Hb). assert (0 <= width (b0 :: rest)) by (rewrite W; lia). lia.
    + intros [_ C]. rewrite Sum, <- E3, C. unfold chars_of. rewrite fold_right_app.
      replace (fold_right (fun b m => tb_len b + m) 0 (flat_map tc_blocks (t_cells d))) with 0; [easy|].
      symmetry. revert Z0. generalize (flat_map tc_blocks (t_cells d)). induction l0 as [|b bs IH]; intros Z0; [easy|]. cbn [fold_right]. rewrite IH by (intros y Hy; apply Z0; now right). rewrite Z0 by now left. easy.
Qed.
