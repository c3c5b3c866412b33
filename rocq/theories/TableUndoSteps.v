(** Sessions of table operations. *)
From Verif Require Import Base RopeModel TableModel TableSpec TableTextModel TableTextSpec DocModel DocSpec PropSpec UndoModel UndoFacts SessionModel
  TableUndoModel TableUndoSpec TableUndoFacts TableCopy.

(** ** Counters never go down *)
Lemma step_counts d o d' : tstep d o = Ok d' -> (t_next d <= t_next d' /\ t_nextb d <= t_nextb d')%N.
Proof.
  destruct o as [i|i|i|i|r0 c0 r1 c1|i sr sc]; cbn [tstep].
  - unfold insert_row. destruct (_ || _)%bool; [easy|]. intros [= <-].
    exact (fold_counts (fun d c => new_cell d i c 1 1) (zrange (t_cols d)) ltac:(intros; apply new_counts) (set_cells d _)).
  - unfold insert_column. destruct (_ || _)%bool; [easy|]. intros [= <-].
    exact (fold_counts (fun d r => new_cell d r i 1 1) (zrange (t_rows d)) ltac:(intros; apply new_counts) (set_cells d _)).
  - unfold remove_row. destruct (_ || _)%bool; [easy|]. destruct (_ <=? 1)%Z; [easy|]. intros [= <-]. split; apply N.le_refl.
  - unfold remove_column. destruct (_ <=? 1)%Z; [easy|]. destruct (_ || _)%bool; [easy|]. intros [= <-]. split; apply N.le_refl.
  - unfold merge_cells. destruct (_ <? _)%Z; [easy|]. destruct (_ <? _)%Z; [easy|]. destruct (_ || _)%bool; [easy|]. destruct (existsb _ _); [easy|].
    destruct (find _ _) as [s|]; cbn [ok_or bind]; [|easy]. intros [= <-]. split; apply N.le_refl.
  - unfold split_cell. destruct (_ || _)%bool; [easy|]. destruct (find _ _) as [c|]; cbn [ok_or bind]; [|easy]. destruct (_ <? _)%Z; [easy|]. destruct (_ <? _)%Z; [easy|].
    destruct (_ && _)%bool; [easy|]. destruct (sub_cells c sr sc) as [|[[[r k] rs0] cs0] rest]; [easy|]. intros [= <-].
    exact (fold_counts (fun d '(r, k, rs, cs) => new_cell d r k rs cs) rest ltac:(intros ? [[[? ?] ?] ?]; apply new_counts) (set_cells d _)).
Qed.
Lemma insert_counts others at_ start rows cols count chars next nextb t : insert_table others at_ start rows cols count chars next nextb = Ok t ->
  (next <= t_next t /\ nextb <= t_nextb t)%N.
Proof.
  unfold insert_table. destruct (_ || _)%bool; [easy|]. intros [= <-]. cbn [add_count shift_others set_others set_cells t_next t_nextb].
  match goal with |- context [fold_left ?F ?l ?d0] => exact (fold_counts F l ltac:(intros; apply fold_counts; intros; apply new_counts) d0) end.
Qed.
Lemma carry_counts c r c' : carry_out c r = Ok c' -> le3 (counters c) (counters c').
Proof.
  assert (X : forall x nt o x', x_step x o = Ok x' -> le3 (counters (Tabled x nt)) (counters (Tabled x' nt))).
  { intros x nt o x' E. destruct (step_counts _ _ _ (proj1 (x_step_table _ _ _ E))). unfold le3. cbn. unfold id in *. lia. }
  destruct r as [p a rows cols|t o|t]; destruct c as [d nc nt|x nt|]; cbn [carry_out]; try easy.
  - unfold x_insert_table. destruct (_ || _)%bool; [easy|]. destruct (caught_up _ _); cbn [bind]; try easy. destruct (find_block_at_position _ _ _) as [[[b k] off]| |]; cbn [bind]; try easy.
    destruct (char_length _ _); cbn [bind]; try easy. destruct (insert_table _ _ _ _ _ _ _ _ _) as [t| |] eqn:E; cbn [bind]; try easy.
    destruct (rope_insert_table_anchor _ _ _ _); cbn [bind]; try easy. destruct (frame_end _ _ _); cbn [bind]; try easy. destruct (mirror_new _ _ _); cbn [bind]; try easy.
    intros [= <-]. apply insert_counts in E. unfold le3. cbn. unfold id in *. lia.
  - now destruct o.
  - destruct o; try (destruct (N.eqb _ _); [|easy]); destruct (x_step _ _) as [x'| |] eqn:E; cbn [bind]; try easy; intros [= <-]; eapply X; eassumption.
  - now destruct o.
  - destruct (N.eqb _ _); [|easy]. destruct (x_remove_table x) as [[[[o n] ch] st]| |]; cbn [bind]; try easy. intros [= <-]. apply le3_refl.
Qed.

(** ** Steps *)
Lemma t_run_app cs : forall s cs', t_run s (cs ++ cs') =
  let! (s1, o1) := t_run s cs in let! (s2, o2) := t_run s1 cs' in Ok (s2, o1 ++ o2).
Proof.
  induction cs as [|c cs IH]; intros s cs'; cbn [app t_run bind].
  - destruct (t_run s cs') as [[s2 o2]| |]; reflexivity.
  - destruct (t_step s c) as [[s1 ok]| |]; cbn [bind]; [|easy|easy]. rewrite IH.
    destruct (t_run s1 cs) as [[s2 o2]| |]; cbn [bind]; [|easy|easy].
    destruct (t_run s2 cs') as [[s3 o3]| |]; reflexivity.
Qed.
Lemma repeat_last {A} (x : A) n : repeat x (S n) = repeat x n ++ [x].
Proof. induction n as [|n IH]; [easy|]. cbn. f_equal. exact IH. Qed.
Lemma rest_add m us rds k : resting m -> get_stack m 1 = Some (us, rds) ->
  let m' := fst (m_add merge_t m k here) in resting m' /\ get_stack m' 1 = Some (One k :: us, []).
Proof.
  intros [O Lv St] G. cbv zeta. unfold m_add. rewrite O. cbn [sid here]. rewrite G.
  assert (H : resting (set_stack m 1 (One k :: us, [])) /\ get_stack (set_stack m 1 (One k :: us, [])) 1 = Some (One k :: us, [])).
  { split; [constructor; [exact O|exact Lv|now rewrite get_set]|now rewrite get_set]. }
  destruct us as [|top below]; [exact H|]. destruct top as [x|cs]; cbn [merge_entry merge_t option_map fst]; exact H.
Qed.
Lemma t_do_step c m us rds r c' : resting m -> get_stack m 1 = Some (us, rds) -> carry_out c r = Ok c' ->
  exists m', t_step (c, m) (TDo r) = Ok ((c', m'), true) /\ resting m' /\ get_stack m' 1 = Some (One (mk_tcmd r c) :: us, []).
Proof.
  intros R G E. cbn [t_step fst snd]. rewrite E. destruct (rest_add m us rds (mk_tcmd r c) R G) as [A B]. eauto.
Qed.
Lemma t_undo_step m us rds k c : resting m -> get_stack m 1 = Some (One k :: us, rds) ->
  exists m', t_step (c, m) TUndo = Ok ((restored c (tsnap k), m'), true) /\ resting m' /\ get_stack m' 1 = Some (us, One k :: rds).
Proof.
  intros [O Lv St] G. cbn [t_step fst snd]. unfold m_undo. cbn [sid here]. rewrite G. cbn [undo_entry undo_each undo_t bind].
  eexists. split; [reflexivity|]. split; [constructor; [exact O|exact Lv|now rewrite get_set]|now rewrite get_set].
Qed.
Lemma t_redo_step m us rds r s c c' : resting m -> get_stack m 1 = Some (us, One (mk_tcmd r s) :: rds) -> carry_out c r = Ok c' ->
  exists m', t_step (c, m) TRedo = Ok ((c', m'), true) /\ resting m' /\ get_stack m' 1 = Some (One (mk_tcmd r c) :: us, rds).
Proof.
  intros [O Lv St] G E. cbn [t_step fst snd]. unfold m_redo. cbn [sid here]. rewrite G.
  unfold redo_entry. cbn [redo_each]. unfold redo_t. cbn [tq]. rewrite E. cbn [bind].
  eexists. split; [reflexivity|]. split; [constructor; [exact O|exact Lv|now rewrite get_set]|now rewrite get_set].
Qed.
Lemma do_ok c m r s' : t_step (c, m) (TDo r) = Ok (s', true) -> exists c', carry_out c r = Ok c'.
Proof. cbn [t_step fst snd]. destruct (carry_out c r) as [c'| |]; [|easy|easy]. eauto. Qed.

(** ** Undoing a whole run *)
Lemma run_undo rs : forall c m us rds c' m', resting m -> get_stack m 1 = Some (us, rds) ->
  t_run (c, m) (map TDo rs) = Ok ((c', m'), repeat true (length rs)) ->
  resting m' /\ exists es rds', get_stack m' 1 = Some (es ++ us, rds')
   /\ forall x m2 rds2 us2, resting m2 -> get_stack m2 1 = Some (es ++ us2, rds2) ->
        exists m3 x3, t_run (x, m2) (repeat TUndo (length rs)) = Ok ((x3, m3), repeat true (length rs))
          /\ (rs <> [] -> x3 = restored x c) /\ (rs = [] -> x3 = x) /\ resting m3 /\ exists rds3, get_stack m3 1 = Some (us2, rds3).
Proof.
  induction rs as [|r rs IH]; intros c m us rds c' m' R G H.
  - cbn in H. injection H as <- <-. split; [easy|]. exists [], rds. split; [exact G|]. intros x m2 rds2 us2 R2 G2. exists m2, x. split; [easy|]. split; [easy|]. split; [easy|]. split; [easy|]. now exists rds2.
  - cbn [t_run length repeat map] in H. destruct (t_step (c, m) (TDo r)) as [[[c1 m1] ok]| |] eqn:E; cbn [bind] in H; [|easy|easy].
    destruct (t_run (c1, m1) (map TDo rs)) as [[s2 oks]| |] eqn:E2; cbn [bind] in H; [|easy|easy]. injection H as -> -> ->.
    destruct (do_ok _ _ _ _ E) as [c2 Ec]. destruct (t_do_step _ _ _ _ _ _ R G Ec) as (m1' & Es & R1 & G1). rewrite E in Es. injection Es as -> ->.
    destruct (IH _ _ _ _ _ _ R1 G1 E2) as (R' & es & rds' & Ge & U). split; [easy|]. exists (es ++ [One (mk_tcmd r c)]), rds'. rewrite <- app_assoc. split; [easy|].
    intros x m2 rds2 us2 R2 G2. rewrite <- app_assoc in G2. destruct (U x m2 rds2 _ R2 G2) as (m3 & x3 & RU & Z1 & Z2 & R3 & rds3 & G3).
    destruct (t_undo_step m3 us2 rds3 (mk_tcmd r c) x3 R3 G3) as (m4 & RS & R4 & G4). exists m4, (restored x c).
    cbn [length]. rewrite !repeat_last, t_run_app, RU. cbn [bind t_run]. rewrite RS. cbn [bind tsnap]. replace (restored x3 c) with (restored x c); [split; [reflexivity|]; split; [easy|]; split; [easy|]; split; [easy|]; eexists; exact G4|].
    destruct rs as [|r' rs]; [now rewrite Z2|]. rewrite Z1 by easy. unfold restored. now rewrite counters_set.
Qed.
Lemma same_set c n : same_content c (set_counters c n).
Proof. destruct n as [[nb nc] nt]. destruct c as [d nc1 nt1|x nt1|]; cbn; [constructor|..]; repeat split. Qed.
Lemma table_undo_all_theorem s rs s1 : resting (snd s) -> t_run s (map TDo rs) = Ok (s1, repeat true (length rs)) ->
  exists s2, t_run s1 (repeat TUndo (length rs)) = Ok (s2, repeat true (length rs)) /\ same_content (fst s) (fst s2).
Proof.
  destruct s as [c m], s1 as [c1 m1]. cbn [fst snd]. intros R H. destruct (get_stack m 1) as [[us rds]|] eqn:G; [|now destruct (rest_stack _ R)].
  destruct (run_undo _ _ _ _ _ _ _ R G H) as (R1 & es & rds' & G1 & U). destruct (U c1 m1 rds' us R1 G1) as (m3 & x3 & RU & Z1 & Z2 & _).
  exists (x3, m3). split; [easy|]. cbn [fst]. destruct rs as [|r rs].
  - rewrite Z2 by easy. cbn in H. injection H as <- <-. replace (fst (c, m)) with (set_counters c (counters c)) at 2 by now destruct c as [[] ? ?|[[] ? ?] ?|].
    apply same_set.
  - rewrite Z1 by easy. apply same_set.
Qed.

(** ** Back and forth *)
Section Walk.
Variables (n0 : id * id * id) (c0 : tstate).
(** What is behind: the requests, last first, the state they lead to, the stack. *)
Inductive past (n : id * id * id) : list trequest -> tstate -> list (entry tcmd) -> Prop :=
| past_start us : past n [] c0 us
| past_next done X us r X' s : past n done X us -> good X -> carry_out X r = Ok X' -> copy n0 X s -> le3 (counters s) n ->
    past n (r :: done) X' (One (mk_tcmd r s) :: us).
(** What is ahead. *)
Inductive ahead : tstate -> list trequest -> list (entry tcmd) -> Prop :=
| ahead_end X rds : ahead X [] rds
| ahead_next X r X' s todo rds : carry_out X r = Ok X' -> ahead X' todo rds -> ahead X (r :: todo) (One (mk_tcmd r s) :: rds).
Lemma past_le n n' done X us : past n done X us -> le3 n n' -> past n' done X us.
Proof. induction 1 as [us|done X us r X' s P IH G E K L]; intros H; [constructor|]. econstructor; eauto using le3_trans. Qed.
Record midway (rs : list trequest) (k : nat) (s : tsession) : Prop := {
  mid_rest : resting (snd s);
  mid_zip : exists done todo X us rds, rs = rev done ++ todo /\ length done = k /\ get_stack (snd s) 1 = Some (us, rds)
    /\ past (counters (fst s)) done X us /\ ahead X todo rds /\ copy n0 X (fst s) /\ good X
}.
Lemma midway_undo rs k s : midway rs (S k) s -> exists s', t_step s TUndo = Ok (s', true) /\ midway rs k s'.
Proof.
  destruct s as [c m]. intros [R (done & todo & X & us & rds & Er & Ek & G & P & A & K & Gd)]. cbn [fst snd] in *.
  destruct P as [|done X0 us r X s P GX E Ks L]; [easy|]. destruct (t_undo_step m us rds (mk_tcmd r s) c R G) as (m' & Es & R' & G').
  eexists. split; [exact Es|]. split; [easy|]. exists done, (r :: todo), X0, us, (One (mk_tcmd r s) :: rds). cbn [fst snd tsnap].
  split; [now rewrite Er; cbn [rev]; rewrite <- app_assoc|]. split; [cbn in Ek; lia|]. split; [easy|].
  unfold restored. rewrite counters_set. split; [easy|]. split; [now apply (ahead_next _ _ X)|]. split; [|easy].
  apply copy_up; [easy|exact (step_live _ _ _ E)|easy|easy].
Qed.
Lemma midway_redo rs k s : Forall (names_old n0) rs -> midway rs k s -> k < length rs -> exists s', t_step s TRedo = Ok (s', true) /\ midway rs (S k) s'.
Proof.
  destruct s as [c m]. intros Nm [R (done & todo & X & us & rds & Er & Ek & G & P & A & K & Gd)] Hk. cbn [fst snd] in *.
  destruct A as [X rds|X r X' s todo rds E A]; [rewrite app_nil_r in Er; apply (f_equal (@length _)) in Er; rewrite rev_length in Er; lia|].
  assert (Nr : names_old n0 r) by (rewrite Forall_forall in Nm; apply Nm; rewrite Er; apply in_app_iff; right; now left).
  destruct (copy_step _ _ _ _ _ Gd K Nr E) as (c' & Ec & K'). destruct (t_redo_step m us rds r s c c' R G Ec) as (m' & Es & R' & G').
  eexists. split; [exact Es|]. split; [easy|]. exists (r :: done), todo, X', (One (mk_tcmd r c) :: us), rds. cbn [fst snd].
  split; [now rewrite Er; cbn [rev]; rewrite <- app_assoc|]. split; [cbn; lia|]. split; [easy|].
  assert (L := carry_counts _ _ _ Ec). split; [|split; [easy|split; [easy|exact (proj1 (carry_good _ _ _ Gd E))]]].
  apply (past_next _ _ X); auto. now apply (past_le (counters c)).
Qed.
Lemma midway_walk rs us : Forall (names_old n0) rs -> forall k s k', midway rs k s -> walk (length rs) k us = Some k' ->
  exists s', t_run s us = Ok (s', repeat true (length us)) /\ midway rs k' s'.
Proof.
  intros Nm. induction us as [|u us IH]; intros k s k' M W; cbn [walk] in W; [injection W as <-; now exists s|]. destruct u as [r| |]; [easy| |].
  - destruct k as [|k]; [easy|]. destruct (midway_undo _ _ _ M) as (s1 & E & M1). destruct (IH _ _ _ M1 W) as (s2 & E2 & M2). exists s2.
    cbn [t_run length repeat]. rewrite E. cbn [bind]. rewrite E2. now cbn [bind].
  - destruct (Nat.ltb_spec k (length rs)) as [L|]; [|easy]. destruct (midway_redo _ _ _ Nm M L) as (s1 & E & M1). destruct (IH _ _ _ M1 W) as (s2 & E2 & M2). exists s2.
    cbn [t_run length repeat]. rewrite E. cbn [bind]. rewrite E2. now cbn [bind].
Qed.
Lemma run_past rs : forall c m us rds done s', resting m -> get_stack m 1 = Some (us, rds) -> good c -> le3 n0 (counters c) -> past (counters c) done c us ->
  t_run (c, m) (map TDo rs) = Ok (s', repeat true (length rs)) ->
  resting (snd s') /\ good (fst s') /\ le3 n0 (counters (fst s')) /\ exists us' rds', get_stack (snd s') 1 = Some (us', rds') /\ past (counters (fst s')) (rev rs ++ done) (fst s') us'.
Proof.
  induction rs as [|r rs IH]; intros c m us rds done s' R G Gc L P H.
  - cbn in H. injection H as <-. cbn. eauto 10.
  - cbn [t_run length repeat map] in H. destruct (t_step (c, m) (TDo r)) as [[[c1 m1] ok]| |] eqn:E; cbn [bind] in H; [|easy|easy].
    destruct (t_run (c1, m1) (map TDo rs)) as [[s2 oks]| |] eqn:E2; cbn [bind] in H; [|easy|easy]. injection H as -> -> ->.
    destruct (do_ok _ _ _ _ E) as [c2 Ec]. destruct (t_do_step _ _ _ _ _ _ R G Ec) as (m1' & Es & R1 & G1). rewrite E in Es. injection Es as -> ->.
    destruct (carry_good _ _ _ Gc Ec) as [Gc2 L2]. cbn [rev]. rewrite <- app_assoc. apply (IH _ _ _ _ (r :: done) _ R1 G1 Gc2 (le3_trans _ _ _ L L2)); [|easy].
    apply (past_next _ _ c); auto; [now apply (past_le (counters c))|]. now apply copy_refl.
Qed.
(** The states behind are those of the run. *)
Lemma past_run n done X us : past n done X us -> forall m0, resting m0 -> exists m, t_run (c0, m0) (map TDo (rev done)) = Ok ((X, m), repeat true (length done)) /\ resting m.
Proof.
  induction 1 as [us|done X us r X' s P IH G E K L]; intros m0 R; [now exists m0|]. destruct (IH m0 R) as (m & Em & Rm).
  destruct (get_stack m 1) as [[us1 rds1]|] eqn:Gm; [|now destruct (rest_stack _ Rm)]. destruct (t_do_step _ _ _ _ _ _ Rm Gm E) as (m' & Es & R' & _).
  exists m'. split; [|easy]. cbn [rev length]. rewrite map_app, t_run_app, Em. cbn [bind map t_run]. rewrite Es. cbn [bind]. now rewrite repeat_last.
Qed.
End Walk.
Lemma table_back_theorem c m rs s us k : starting c -> resting m -> Forall (names_old (counters c)) rs ->
  t_run (c, m) (map TDo rs) = Ok (s, repeat true (length rs)) -> walk (length rs) (length rs) us = Some k ->
  exists s' c1 m1, t_run s us = Ok (s', repeat true (length us))
    /\ t_run (c, m) (map TDo (firstn k rs)) = Ok ((c1, m1), repeat true k) /\ same_but_new_numbers (counters c) c1 (fst s').
Proof.
  intros St R Nm H W. destruct (get_stack m 1) as [[us0 rds0]|] eqn:G; [|now destruct (rest_stack _ R)].
  destruct (run_past (counters c) c rs c m us0 rds0 [] s R G (starting_good _ St) (le3_refl _) (past_start _ _ _ _) H) as (R1 & G1 & L1 & us1 & rds1 & S1 & P1).
  rewrite app_nil_r in P1.
  assert (M : midway (counters c) c rs (length rs) s).
  { split; [easy|]. exists (rev rs), [], (fst s), us1, rds1. rewrite rev_involutive, app_nil_r, rev_length. split; [easy|]. split; [easy|]. split; [easy|].
    split; [easy|]. split; [constructor|]. split; [now apply copy_refl|easy]. }
  destruct (midway_walk _ _ _ _ Nm _ _ _ M W) as (s' & E & [_ (done & todo & X & us2 & rds2 & Er & Ek & _ & P & _ & K & _)]).
  destruct (past_run _ _ _ _ _ _ P m R) as (m1 & E1 & _). exists s', X, m1. split; [easy|]. split; [|now apply copy_same].
  rewrite Er, firstn_app, rev_length, Ek, Nat.sub_diag, <- Ek. cbn [firstn]. rewrite app_nil_r, <- (rev_length done), firstn_all, rev_length. exact E1.
Qed.
Lemma table_failed_theorem s r s' : t_step s (TDo r) = Ok (s', false) -> s' = s.
Proof. cbn [t_step]. destruct (carry_out (fst s) r); [easy| |easy]. now intros [= <-]. Qed.

(** ** With a history, the operations do what they do without one *)

Lemma table_alone_new d nc nt m p a rows cols x : x_insert_table d p a rows cols nt nc = Ok x ->
  exists m', t_step (Plain d nc nt, m) (TDo (NewTable p a rows cols)) = Ok ((Tabled x (N.succ nt), m'), true).
Proof. intros E. cbn [t_step fst snd carry_out]. rewrite E. cbn [bind]. eauto. Qed.
Lemma table_alone_step x nt m o x' : x_step x o = Ok x' ->
  exists m', t_step (Tabled x nt, m) (TDo (OnTable (x_tid x) o)) = Ok ((Tabled x' nt, m'), true).
Proof.
  intros E. cbn [t_step fst snd]. assert (C : carry_out (Tabled x nt) (OnTable (x_tid x) o) = Ok (Tabled x' nt)).
  { destruct o; cbn [carry_out]; rewrite ?N.eqb_refl, E; reflexivity. }
  rewrite C. eauto.
Qed.
Lemma table_alone_drop x nt m others n ch st : x_remove_table x = Ok (others, n, ch, st) ->
  exists m', t_step (Tabled x nt, m) (TDo (DropTable (x_tid x)))
             = Ok ((Bare others n ch st (t_nextb (x_table x)) (t_next (x_table x)) nt, m'), true).
Proof. intros E. cbn [t_step fst snd carry_out]. rewrite N.eqb_refl, E. cbn [bind]. eauto. Qed.
Lemma table_alone_theorem m :
  (forall d cells tables p a rows cols x, x_insert_table d p a rows cols tables cells = Ok x ->
     exists m', t_step (Plain d cells tables, m) (TDo (NewTable p a rows cols)) = Ok ((Tabled x (N.succ tables), m'), true))
  /\ (forall x tables o x', x_step x o = Ok x' ->
     exists m', t_step (Tabled x tables, m) (TDo (OnTable (x_tid x) o)) = Ok ((Tabled x' tables, m'), true))
  /\ (forall x tables others n chars st, x_remove_table x = Ok (others, n, chars, st) ->
     exists m', t_step (Tabled x tables, m) (TDo (DropTable (x_tid x)))
                = Ok ((Bare others n chars st (t_nextb (x_table x)) (t_next (x_table x)) tables, m'), true)).
Proof. split; [|split]; intros; [now apply table_alone_new|now apply table_alone_step|now apply table_alone_drop]. Qed.
