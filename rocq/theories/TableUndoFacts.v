(** Facts about undo and redo of table operations. *)
From Coq Require Import Sorting.Permutation.
From Verif Require Import Base RopeModel RopeSpec RopeFacts RopeTables TableModel TableSpec TableFacts TablePlaces TableTheorems TableTextModel TableTextSpec TableTextFacts
  TableTextInsert TableTextTheorems TableRename.
From Verif Require Import DocModel DocSpec DocInv DocFacts DocReach DocTheorems PropSpec UndoModel UndoFacts SessionModel TableUndoModel TableUndoSpec.

(** ** Counters *)
Definition le3 (a b : id * id * id) : Prop := (fst (fst a) <= fst (fst b) /\ snd (fst a) <= snd (fst b) /\ snd a <= snd b)%N.
Lemma le3_refl a : le3 a a.
Proof. unfold le3. split; [|split]; apply N.le_refl. Qed.
Lemma le3_trans a b c : le3 a b -> le3 b c -> le3 a c.
Proof. unfold le3. intros (A & B & C) (D & E & F). split; [|split]; etransitivity; eassumption. Qed.
Lemma counters_set c n : counters (set_counters c n) = n.
Proof. destruct n as [[a b] e]. now destruct c. Qed.
Lemma set_twice c n n' : set_counters (set_counters c n) n' = set_counters c n'.
Proof. destruct n as [[? ?] ?], n' as [[? ?] ?]. now destruct c. Qed.

Lemma fold_counts {A} (new : tdoc -> A -> tdoc) l : (forall d a, (t_next d <= t_next (new d a) /\ t_nextb d <= t_nextb (new d a))%N) ->
  forall d, (t_next d <= t_next (fold_left new l d) /\ t_nextb d <= t_nextb (fold_left new l d))%N.
Proof.
  intros H. induction l as [|a l IH]; intros d; [split; apply N.le_refl|]. cbn. destruct (H d a) as [A1 A2], (IH (new d a)) as [B1 B2].
  split; etransitivity; eassumption.
Qed.
Lemma new_counts d r c rs cs : (t_next d <= t_next (new_cell d r c rs cs) /\ t_nextb d <= t_nextb (new_cell d r c rs cs))%N.
Proof. cbn. unfold id in *. lia. Qed.
Lemma step_facts d o d' : own_ids d -> tstep d o = Ok d' -> own_ids d' /\ (t_next d <= t_next d' /\ t_nextb d <= t_nextb d')%N.
Proof.
  intros O. destruct o as [i|i|i|i|r0 c0 r1 c1|i sr sc]; cbn [tstep].
  - unfold insert_row. destruct (_ || _)%bool; [easy|]. intros [= <-]. split.
    + apply own_ids_settle, own_ids_size. rewrite row_fold. apply own_ids_add, (own_ids_map d (row_inserted i)); [easy| |reflexivity].
      intros c. unfold row_inserted. destruct (_ <=? _)%Z; [easy|]. now destruct (_ <? _)%Z.
    + exact (fold_counts (fun d c => new_cell d i c 1 1) (zrange (t_cols d)) ltac:(intros; apply new_counts) (set_cells d _)).
  - unfold insert_column. destruct (_ || _)%bool; [easy|]. intros [= <-]. split.
    + apply own_ids_settle, own_ids_size. rewrite column_fold. apply own_ids_add, (own_ids_map d (column_inserted i)); [easy| |reflexivity].
      intros c. unfold column_inserted. destruct (_ <=? _)%Z; [easy|]. now destruct (_ <? _)%Z.
    + exact (fold_counts (fun d r => new_cell d r i 1 1) (zrange (t_rows d)) ltac:(intros; apply new_counts) (set_cells d _)).
  - unfold remove_row. destruct (_ || _)%bool; [easy|]. destruct (_ <=? 1)%Z; [easy|]. intros [= <-]. split; [|split; apply N.le_refl].
    apply own_ids_settle, own_ids_size. apply (own_ids_map (set_cells d (filter (fun c => negb (row_goes i c)) (t_cells d))) (row_removed i)); [now apply own_ids_filter| |reflexivity].
    intros c. unfold row_removed. repeat destruct (_ && _)%bool; try easy. now destruct (_ <? _)%Z.
  - unfold remove_column. destruct (_ <=? 1)%Z; [easy|]. destruct (_ || _)%bool; [easy|]. intros [= <-]. split; [|split; apply N.le_refl].
    apply own_ids_settle, own_ids_size. apply (own_ids_map (set_cells d (filter (fun c => negb (column_goes i c)) (t_cells d))) (column_removed i)); [now apply own_ids_filter| |reflexivity].
    intros c. unfold column_removed. repeat destruct (_ && _)%bool; try easy. now destruct (_ <? _)%Z.
  - unfold merge_cells. destruct (_ <? _)%Z; [easy|]. destruct (_ <? _)%Z; [easy|]. destruct (_ || _)%bool; [easy|]. destruct (existsb _ _); [easy|].
    destruct (find _ _) as [s|]; cbn [ok_or bind]; [|easy]. intros [= <-]. split; [|split; apply N.le_refl].
    apply own_ids_settle. eapply (own_ids_map (set_cells d (filter _ (t_cells d)))); [now apply own_ids_filter| |reflexivity].
    intros c. cbv beta. destruct (N.eqb_spec (tc_id c) (tc_id s)); [now cbn|easy].
  - unfold split_cell. destruct (_ || _)%bool; [easy|]. destruct (find _ _) as [c|]; cbn [ok_or bind]; [|easy]. destruct (_ <? _)%Z; [easy|]. destruct (_ <? _)%Z; [easy|].
    destruct (_ && _)%bool; [easy|]. destruct (sub_cells c sr sc) as [|[[[r k] rs0] cs0] rest]; [easy|]. intros [= <-]. split.
    + apply own_ids_settle. eapply own_ids_add, own_ids_map; [exact O| |reflexivity]. intros x. cbv beta. now destruct (N.eqb (tc_id x) i).
    + exact (fold_counts (fun d '(r, k, rs, cs) => new_cell d r k rs cs) rest ltac:(intros ? [[[? ?] ?] ?]; apply new_counts) (set_cells d _)).
Qed.

(** ** States all of whose numbers are below the counters *)
Definition good (c : tstate) : Prop :=
  match c with
  | Plain d _ _ => reach d
  | Tabled x nt => (exists a b e, layout x a b e) /\ own_ids (x_table x) /\ (x_tid x < nt)%N
  | Bare _ _ _ _ _ _ _ => True
  end.
Lemma starting_good c : starting c -> good c.
Proof.
  destruct c as [d nc nt|x nt|]; cbn; [easy| |easy]. intros [H T]. destruct (x_history _ H) as [L Hi]. split; [easy|]. split; [|easy].
  exact (proj2 (history_grid _ Hi)).
Qed.
Lemma x_step_table x o x' : x_step x o = Ok x' -> tstep (x_table x) o = Ok (x_table x') /\ x_tid x' = x_tid x.
Proof.
  assert (W : forall d, with_new x d = Ok x' -> x_table x' = d /\ x_tid x' = x_tid x).
  { intros d. unfold with_new. destruct (frame_end _ _ _); cbn; try easy. destruct (mirror_new _ _ _); cbn; try easy. now intros [= <-]. }
  assert (V : forall p d, TableTextModel.without x p d = Ok x' -> x_table x' = d /\ x_tid x' = x_tid x).
  { intros p d. unfold TableTextModel.without. destruct (mirror_gone _ _); cbn; try easy. now intros [= <-]. }
  destruct o; cbn [x_step tstep]; intros H.
  1,2,6: match type of H with bind ?e _ = _ => destruct e; cbn [bind] in H; [|easy|easy] end; apply W in H; destruct H as [-> ->]; easy.
  1,2: match type of H with bind ?e _ = _ => destruct e; cbn [bind] in H; [|easy|easy] end; apply V in H; destruct H as [-> ->]; easy.
  match type of H with bind ?e _ = _ => destruct e as [[d s]| |]; cbn [bind] in H; [|easy|easy] end. cbn [bind]. apply V in H. destruct H as [-> ->]. easy.
Qed.
Lemma carry_good c r c' : good c -> carry_out c r = Ok c' -> good c' /\ le3 (counters c) (counters c').
Proof.
  intros G. assert (X : forall x nt o x', (exists a b e, layout x a b e) /\ own_ids (x_table x) /\ (x_tid x < nt)%N -> x_step x o = Ok x' ->
    good (Tabled x' nt) /\ le3 (counters (Tabled x nt)) (counters (Tabled x' nt))).
  { intros x nt o x' ((a & b & e & L) & O & T) E. destruct (x_step_table _ _ _ E) as [E1 E2]. destruct (step_facts _ _ _ O E1) as [O' C].
    destruct (x_step_layout _ _ _ _ _ _ L O E1) as (y & c0 & Ey & _ & _ & L' & _). rewrite E in Ey. injection Ey as <-.
    split; [|unfold le3; cbn; unfold id in *; lia]. cbn. split; [now exists a, b, c0|]. split; [easy|]. now rewrite E2. }
  destruct r as [p a rows cols|t o|t]; destruct c as [d nc nt|x nt|]; cbn [carry_out]; try easy.
  - destruct (x_insert_table _ _ _ _ _ _ _) as [x| |] eqn:E; cbn [bind]; try easy. intros [= <-]. destruct (x_insert_sizes _ _ _ _ _ _ _ _ E) as [Hr Hc].
    destruct (reach_wf _ G) as [ps W]. destruct (insert_layout d ps p a rows cols nt nc W Hr Hc) as (y & start & Ey & _ & _ & Et & L & _). rewrite E in Ey. injection Ey as <-.
    assert (O := proj2 (history_grid _ (table_new _ _ _ _ _ _ _ _ _ _ Et))). assert (Tid : x_tid x = nt).
    { revert E. unfold x_insert_table. destruct (_ || _)%bool; [easy|]. repeat match goal with |- bind ?e _ = _ -> _ => destruct e; cbn [bind]; [|easy|easy] end.
      repeat match goal with q : (_ * _)%type |- _ => destruct q end. intros H. repeat match type of H with bind ?e _ = _ => destruct e; cbn [bind] in H; [|easy|easy] end. now injection H as <-. }
    split; [cbn; split; [easy|split; [easy|rewrite Tid; unfold id in *; lia]]|].
    revert Et. unfold insert_table. destruct (_ || _)%bool; [easy|]. intros [= Et]. unfold le3. cbn [counters fst snd]. rewrite <- Et.
    cbn [add_count shift_others set_others set_cells t_next t_nextb].
    match goal with |- context [fold_left ?F ?l ?d0] => assert (H := fold_counts F l ltac:(intros; apply fold_counts; intros; apply new_counts) d0) end.
    cbn [t_next t_nextb] in H. destruct H as [H1 H2]. split; [easy|]. split; [easy|]. unfold id in *. lia.
  - now destruct o.
  - destruct o; try (destruct (N.eqb _ _); [|easy]); destruct (x_step _ _) as [x'| |] eqn:E; cbn [bind]; try easy; intros [= <-]; eapply X; eassumption.
  - now destruct o.
  - destruct (N.eqb _ _); [|easy]. destruct (x_remove_table x) as [[[[o n] ch] st]| |]; cbn [bind]; try easy. intros [= <-]. split; [easy|apply le3_refl].
Qed.
