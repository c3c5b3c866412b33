(** Facts about undo and redo of rich edits. *)
From Verif Require Import Base BaseFacts FormatRunsModel RopeModel DocModel DocSpec DocFacts DocInv DocReach DocTheorems
  HistModel UndoModel UndoFacts SessionModel SearchModel QueryTheorems PropSpec ListModel ListDocModel ListDocSpec ListDocFacts FragmentModel FragmentSpec FragmentText
  FragmentInsert FragmentTheorems ImageModel RichModel RichSpec.

(** ** Restoring *)

Lemma same_restore x L : same_rich (restore x L) L.
Proof. split; [|reflexivity]. constructor; reflexivity. Qed.
Lemma restore_twice x A B : restore (restore x A) B = restore x B.
Proof. reflexivity. Qed.
Lemma restore_exact L L' : d_next (l_doc L') = d_next (l_doc L) -> l_next L' = l_next L -> restore L' L = L.
Proof. intros A B. unfold restore, restore_snapshot. rewrite A, B. destruct L as [d ls n]. now destruct d. Qed.

(** ** Calls that make nothing leave the counters *)

Lemma multi_next bs : forall d, d_next (update_multi d bs) = d_next d.
Proof. unfold update_multi. induction bs as [|b bs IH]; intros d; cbn; [easy|]. now rewrite IH. Qed.

Ltac next_bind H :=
  match type of H with
  | bind ?e _ = Ok _ =>
      let E := fresh "E" in destruct e as [?x| |] eqn:E; cbn [bind] in H; [|discriminate|discriminate]
  end.
Ltac next_pair :=
  repeat match goal with x : (_ * _)%type |- _ => destruct x end.

Lemma image_next d p a name w h d' np e : insert_image d p a name w h = Ok (d', np, e) -> d_next d' = d_next d.
Proof.
  unfold insert_image. destruct (negb _); [easy|]. destruct (_ || _)%bool; [easy|]. intros H.
  next_bind H. next_pair. next_bind H. next_bind H. injection H as <- _ _. cbn. now rewrite multi_next.
Qed.
Lemma replace_in_next d x cs ce r d' : replace_in_block d x cs ce r = Ok d' -> d_next d' = d_next d.
Proof. unfold replace_in_block. intros H. do 5 next_bind H. now injection H as <-. Qed.
Lemma replace_each_next bs r vs : forall d d', replace_each d bs vs r = Ok d' -> d_next d' = d_next d.
Proof.
  induction vs as [|[[len k] off] vs IH]; intros d d' H; cbn [replace_each] in H; [now injection H as <-|].
  next_bind H. next_bind H. next_bind H. rewrite (IH _ _ H). eapply replace_in_next; eassumption.
Qed.
Lemma replace_next g d query r o all d' n k : replace_text g d query r o all = Ok (d', n, k) -> d_next d' = d_next d.
Proof.
  unfold replace_text, replace_matches. intros H. next_bind H. next_bind H. destruct x0; [now injection H as <- _ _|].
  next_bind H. next_pair. destruct (if all then _ else _); [now injection H as <- _ _|].
  next_bind H. injection H as <- _ _. cbn. rewrite multi_next. eapply replace_each_next; eassumption.
Qed.
Lemma block_format_next q d p a d' : set_block_format q d p a = Ok d' -> d_next d' = d_next d.
Proof. unfold set_block_format. intros H. next_bind H. injection H as <-. apply multi_next. Qed.
Lemma remove_merged_next is_ : forall d d', remove_merged d is_ = Ok d' -> d_next d' = d_next d.
Proof.
  induction is_ as [|i is_ IH]; intros d d' H; cbn [remove_merged] in H; [now injection H as <-|].
  next_bind H. now rewrite (IH _ _ H).
Qed.
Lemma delete_next d p a d' np cut : delete_text d p a = Ok (d', np, cut) -> d_next d' = d_next d.
Proof.
  unfold delete_text. destruct (_ =? _)%Z; [now intros [= <- _ _]|]. intros H.
  next_bind H. next_pair. next_bind H. next_pair. next_bind H. next_pair. destruct (_ =? _).
  - next_bind H. next_bind H. next_bind H. injection H as <- _ _. cbn.
    match goal with |- d_next (if ?c then _ else _) = _ => destruct c end; cbn; rewrite ?multi_next; cbn; now rewrite ?multi_next.
  - do 7 next_bind H. injection H as <- _ _. cbn.
    assert (N : d_next x5 = d_next d) by (erewrite remove_merged_next by eassumption; cbn; now rewrite multi_next).
    match goal with |- d_next (if ?c then _ else _) = _ => destruct c end; cbn; rewrite ?multi_next; cbn; now rewrite ?multi_next.
Qed.
Lemma assign_next l s e bs : forall d d', assign_list d l s e bs = Ok d' -> d_next d' = d_next d.
Proof.
  induction bs as [|b bs IH]; intros d d' H; cbn [assign_list] in H; [now injection H as <-|].
  next_bind H. rewrite (IH _ _ H). now destruct (touches _ _ _ _).
Qed.

(** Requests that make no paragraph and no list. *)
Definition numbers_nothing (r : request) : Prop :=
  match r with
  | QDelete _ _ | QBlockFormat _ _ _ | QJoin _ _ | QLeave _ | QListFormat _ _ | QImage _ _ _ _ | QReplace _ _ _ _ _ => True
  | _ => False
  end.
Lemma execute_next L r L' np : numbers_nothing r -> execute L r = Ok (L', np) ->
  d_next (l_doc L') = d_next (l_doc L) /\ l_next L' = l_next L.
Proof.
  destruct r; try easy; intros _ H; cbn [execute] in H; next_bind H; next_pair; injection H as <- _.
  - split; [eapply delete_next; eassumption|reflexivity].
  - split; [eapply block_format_next; eassumption|reflexivity].
  - unfold add_block_to_list in E. next_bind E. next_bind E. injection E as <-. split; reflexivity.
  - unfold remove_block_from_list in E. next_bind E. next_bind E. injection E as <-. split; reflexivity.
  - unfold set_list_format in E. next_bind E. injection E as <-. split; reflexivity.
  - split; [eapply image_next; eassumption|reflexivity].
  - split; [eapply replace_next; eassumption|reflexivity].
Qed.

(** ** Pushing commands *)

Definition pushed (L : ldoc) (e : entry rcmd) : Prop := forall x, undo_entry undo_r x e = Ok (restore x L, true).

Lemma idle_add m us rs c : idle m -> get_stack m 1 = Some (us, rs) ->
  let m' := fst (m_add merge_r m c here) in idle m' /\ get_stack m' 1 = Some (One c :: us, []).
Proof.
  intros [O Lv Ow St] G. cbv zeta. unfold m_add. rewrite O. cbn [sid here]. rewrite G.
  assert (H : idle (set_stack m 1 (One c :: us, [])) /\ get_stack (set_stack m 1 (One c :: us, [])) 1 = Some (One c :: us, [])).
  { split; [constructor; [exact O|exact Lv|exact Ow|now rewrite get_set]|now rewrite get_set]. }
  destruct us as [|top below]; [exact H|]. destruct top as [x|cs]; cbn [merge_entry merge_r option_map fst]; exact H.
Qed.

Lemma perform_push L m r us rs L' m' np : idle m -> get_stack m 1 = Some (us, rs) ->
  perform (L, m) r = Ok ((L', m'), Some np) ->
  idle m' /\ get_stack m' 1 = Some (One (mk_rcmd r L) :: us, []) /\ execute L r = Ok (L', np).
Proof.
  intros I G. unfold perform. destruct (execute L r) as [[L1 n]| |] eqn:E; [|easy|easy]. intros [= <- <- <-].
  destruct (idle_add m us rs (mk_rcmd r L) I G) as [A B]. auto.
Qed.

Lemma over_push L m p a f us rs L' m' : idle m -> get_stack m 1 = Some (us, rs) -> p <> a ->
  perform_over (L, m) p a f = Ok ((L', m'), true) ->
  exists L1 np q np', execute L (QDelete (Z.of_nat p) (Z.of_nat a)) = Ok (L1, np) /\ to_usize np = Ok q
   /\ execute L1 (f (Z.of_nat q)) = Ok (L', np')
   /\ idle m' /\ get_stack m' 1 = Some (Group [mk_rcmd (QDelete (Z.of_nat p) (Z.of_nat a)) L; mk_rcmd (f (Z.of_nat q)) L1] :: us, []).
Proof.
  intros [O Lv Ow St] G Hne. unfold perform_over. rewrite (proj2 (Nat.eqb_neq p a) Hne). cbn [fst snd].
  assert (Hb : m_begin m here = (mk_manager (stacks m) (next_stack m) (Some ([], 1%N)) 1 here, true)).
  { unfold m_begin. rewrite O, Lv. destruct Ow as [-> | ->]; reflexivity. }
  rewrite Hb. cbn [fst]. unfold perform at 1.
  destruct (execute L (QDelete (Z.of_nat p) (Z.of_nat a))) as [[L1 n]| |] eqn:E; cbn [bind]; [|easy|easy].
  destruct (to_usize n) as [q| |] eqn:Eq; cbn [bind]; [|easy|easy].
  unfold m_add. cbn [open sid here N.eqb Pos.eqb fst stacks next_stack level UndoModel.owner app]. unfold perform.
  destruct (execute L1 (f (Z.of_nat q))) as [[L2 n']| |] eqn:E2; cbn [bind]; [|easy|easy].
  unfold m_add. cbn [open sid here N.eqb Pos.eqb fst snd stacks next_stack level UndoModel.owner app].
  unfold m_end. cbn [level pred open UndoModel.owner sid here stacks next_stack]. unfold get_stack in *. cbn [stacks sid here]. rewrite G. cbn [bind].
  intros [= <- <-]. exists L1, n, q, n'. repeat (split; [assumption || reflexivity|]). split.
  - constructor; cbn; try reflexivity; [now right|]. unfold get_stack. cbn. rewrite lookup_update. now cbn.
  - unfold get_stack. cbn. now rewrite lookup_update.
Qed.

Lemma simply_ok s r s' : simply s r = Ok (s', true) -> exists np, perform s r = Ok (s', Some np).
Proof. unfold simply. destruct (perform s r) as [[s1 [n|]]| |]; cbn; try easy. intros [= <-]. eauto. Qed.

Lemma step_push L m c us rs L' m' : idle m -> get_stack m 1 = Some (us, rs) -> changes c ->
  r_step (L, m) c = Ok ((L', m'), true) ->
  exists e, idle m' /\ get_stack m' 1 = Some (e :: us, []) /\ pushed L e.
Proof.
  intros I G C.
  assert (S1 : forall r, simply (L, m) r = Ok ((L', m'), true) -> exists e, idle m' /\ get_stack m' 1 = Some (e :: us, []) /\ pushed L e).
  { intros r H. apply simply_ok in H. destruct H as [np H]. destruct (perform_push _ _ _ _ _ _ _ _ I G H) as (A & B & _).
    exists (One (mk_rcmd r L)). split; [easy|]. split; [easy|]. intros x. reflexivity. }
  assert (S2 : forall p a f, perform_over (L, m) p a f = Ok ((L', m'), true) -> exists e, idle m' /\ get_stack m' 1 = Some (e :: us, []) /\ pushed L e).
  { intros p a f H. destruct (Nat.eq_dec p a) as [<-|Hne].
    - unfold perform_over in H. rewrite Nat.eqb_refl in H. apply (S1 (f (Z.of_nat p))). exact H.
    - destruct (over_push _ _ _ _ _ _ _ _ _ I G Hne H) as (L1 & np & q & np' & _ & _ & _ & A & B).
      eexists. split; [easy|]. split; [exact B|]. intros x. reflexivity. }
  destruct c; cbn [r_step]; try easy; eauto.
Qed.

(** ** Undoing everything *)

Lemma undo_step L m us rs e x : get_stack m 1 = Some (e :: us, rs) -> idle m -> pushed L e ->
  exists m', r_step (x, m) RUndo = Ok ((restore x L, m'), true) /\ idle m' /\ get_stack m' 1 = Some (us, e :: rs).
Proof.
  intros G [O Lv Ow St] P. cbn [r_step fst snd]. unfold m_undo. cbn [sid here]. rewrite G, (P x). cbn [bind].
  eexists. split; [reflexivity|]. split; [constructor; [exact O|exact Lv|exact Ow|now rewrite get_set]|now rewrite get_set].
Qed.

Lemma run_app cs : forall s cs', r_run s (cs ++ cs') =
  let! (s1, o1) := r_run s cs in let! (s2, o2) := r_run s1 cs' in Ok (s2, o1 ++ o2).
Proof.
  induction cs as [|c cs IH]; intros s cs'; cbn [app r_run bind].
  - destruct (r_run s cs') as [[s2 o2]| |]; reflexivity.
  - destruct (r_step s c) as [[s1 ok]| |]; cbn [bind]; [|easy|easy]. rewrite IH.
    destruct (r_run s1 cs) as [[s2 o2]| |]; cbn [bind]; [|easy|easy].
    destruct (r_run s2 cs') as [[s3 o3]| |]; reflexivity.
Qed.
Lemma repeat_snoc {A} (x : A) n : repeat x (S n) = repeat x n ++ [x].
Proof. induction n as [|n IH]; [easy|]. cbn. f_equal. exact IH. Qed.

(** Like [step_push], for a run: one entry for each call. *)
Lemma run_push cs : forall L m us rs L' m', idle m -> get_stack m 1 = Some (us, rs) -> Forall changes cs ->
  r_run (L, m) cs = Ok ((L', m'), repeat true (length cs)) ->
  idle m' /\ exists es rs', get_stack m' 1 = Some (es ++ us, rs') /\ length es = length cs
   /\ (cs <> [] -> rs' = []) /\ (cs = [] -> rs' = rs)
   /\ (forall x m2 rs2 us2, idle m2 -> get_stack m2 1 = Some (es ++ us2, rs2) ->
        exists m3 L3, r_run (x, m2) (repeat RUndo (length cs)) = Ok ((L3, m3), repeat true (length cs))
          /\ (cs <> [] -> L3 = restore x L) /\ (cs = [] -> L3 = x)
          /\ idle m3 /\ get_stack m3 1 = Some (us2, rev es ++ rs2)).
Proof.
  induction cs as [|c cs IH]; intros L m us rs L' m' I G F H.
  - cbn in H. injection H as <- <-. split; [easy|]. exists [], rs. cbn [app length rev repeat r_run]. split; [exact G|]. split; [easy|]. split; [easy|]. split; [easy|].
    intros x m2 rs2 us2 I2 G2. exists m2, x. easy.
  - inversion F as [|? ? Fc Fr]; subst. cbn [r_run length repeat] in H.
    destruct (r_step (L, m) c) as [[[L1 m1] ok]| |] eqn:E; cbn [bind] in H; [|easy|easy].
    destruct (r_run (L1, m1) cs) as [[s2 oks]| |] eqn:E2; cbn [bind] in H; [|easy|easy]. injection H as -> -> ->.
    destruct (step_push _ _ _ _ _ _ _ I G Fc E) as (e & I1 & G1 & P).
    destruct (IH _ _ _ _ _ _ I1 G1 Fr E2) as (I' & es & rs' & Ge & Le & R1 & R2 & U). split; [easy|].
    exists (es ++ [e]), rs'. rewrite <- app_assoc. cbn [app]. split; [easy|].
    rewrite app_length, Le. split; [cbn; lia|]. split.
    { intros _. destruct cs; [now apply R2|now apply R1]. }
    split; [easy|]. intros x m2 rs2 us2 I2 G2. rewrite <- app_assoc in G2. cbn [app] in G2.
    destruct (U x m2 rs2 (e :: us2) I2 G2) as (m3 & L3 & RU & _ & _ & I3 & G3).
    destruct (undo_step L m3 us2 (rev es ++ rs2) e L3 G3 I3 P) as (m4 & RS & I4 & G4).
    exists m4, (restore x L). cbn [length]. rewrite !repeat_snoc, run_app, RU. cbn [bind]. cbn [r_run]. rewrite RS. cbn [bind].
    assert (Er : restore L3 L = restore x L).
    { destruct cs as [|c' cs].
      - destruct (U x m2 rs2 (e :: us2) I2 G2) as (m5 & L5 & RU5 & _ & Z & _). rewrite RU in RU5. injection RU5 as <- <-. now rewrite Z.
      - destruct (U x m2 rs2 (e :: us2) I2 G2) as (m5 & L5 & RU5 & Z & _). rewrite RU in RU5. injection RU5 as <- <-. now rewrite Z. }
    rewrite Er. split; [reflexivity|]. split; [easy|]. split; [easy|]. split; [easy|].
    rewrite rev_app_distr. exact G4.
Qed.

Lemma undo_all_theorem s cs s1 : idle (snd s) -> Forall changes cs -> r_run s cs = Ok (s1, repeat true (length cs)) ->
  exists s2, r_run s1 (repeat RUndo (length cs)) = Ok (s2, repeat true (length cs))
   /\ same_rich (fst s2) (fst s) /\ idle (snd s2).
Proof.
  destruct s as [L m], s1 as [L1 m1]. cbn [fst snd]. intros I F H.
  destruct (get_stack m 1) as [[us rs]|] eqn:G; [|now destruct (idle_stack _ I)].
  destruct (run_push _ _ _ _ _ _ _ I G F H) as (I1 & es & rs' & G1 & _ & _ & _ & U).
  destruct (U L1 m1 rs' us I1 G1) as (m3 & L3 & RU & Z1 & Z2 & I3 & _). exists (L3, m3). cbn [fst snd].
  split; [easy|]. split; [|easy]. destruct cs as [|c cs].
  - rewrite Z2 by easy. cbn in H. injection H as -> ->. split; [constructor; reflexivity|reflexivity].
  - rewrite Z1 by easy. apply same_restore.
Qed.

(** ** Redoing exactly *)

(** An entry that takes [L] to [L'] and back exactly. *)
Record swaps (L L' : ldoc) (e : entry rcmd) : Prop := {
  sw_undo : pushed L e; sw_next : d_next (l_doc L') = d_next (l_doc L); sw_lists : l_next L' = l_next L;
  sw_redo : redo_entry redo_r L e = Ok (L', e, true)
}.
Lemma exact_step c L m us rs L' m' : idle m -> get_stack m 1 = Some (us, rs) -> makes_nothing c ->
  r_step (L, m) c = Ok ((L', m'), true) ->
  exists e, idle m' /\ get_stack m' 1 = Some (e :: us, []) /\ swaps L L' e.
Proof.
  intros I G C.
  assert (S1 : forall r, numbers_nothing r -> simply (L, m) r = Ok ((L', m'), true) ->
    exists e, idle m' /\ get_stack m' 1 = Some (e :: us, []) /\ swaps L L' e).
  { intros r Hr H. apply simply_ok in H. destruct H as [np H]. destruct (perform_push _ _ _ _ _ _ _ _ I G H) as (A & B & X).
    destruct (execute_next _ _ _ _ Hr X) as [N1 N2]. exists (One (mk_rcmd r L)). split; [easy|]. split; [easy|].
    constructor; [intros x; reflexivity|exact N1|exact N2|]. unfold redo_entry. cbn [redo_each]. unfold redo_r. cbn [rc_req]. now rewrite X. }
  destruct c; cbn [r_step]; try easy; try (apply S1; exact Logic.I).
  destruct (Nat.eq_dec p a) as [<-|Hne].
  - unfold perform_over. rewrite Nat.eqb_refl. apply (S1 (QImage (Z.of_nat p) name (Z.of_nat w) (Z.of_nat h))). exact Logic.I.
  - intros H. destruct (over_push _ _ _ _ _ _ _ _ _ I G Hne H) as (L1 & np & q & np' & X1 & Xq & X2 & A & B).
    eexists. split; [exact A|]. split; [exact B|].
    destruct (execute_next L (QDelete (Z.of_nat p) (Z.of_nat a)) _ _ Logic.I X1) as [N1 N2].
    destruct (execute_next L1 (QImage (Z.of_nat q) name (Z.of_nat w) (Z.of_nat h)) _ _ Logic.I X2) as [N3 N4].
    constructor; [intros x; reflexivity|congruence|congruence|].
    unfold redo_entry. cbn [redo_each]. unfold redo_r. cbn [rc_req]. rewrite X1. cbn [bind]. rewrite X2. reflexivity.
Qed.

Lemma redo_step m us rs e L L' : idle m -> get_stack m 1 = Some (us, e :: rs) -> swaps L L' e ->
  exists m', r_step (L, m) RRedo = Ok ((L', m'), true) /\ idle m' /\ get_stack m' 1 = Some (e :: us, rs).
Proof.
  intros [O Lv Ow St] G S. cbn [r_step fst snd]. unfold m_redo. cbn [sid here]. rewrite G, (sw_redo _ _ _ S). cbn [bind].
  eexists. split; [reflexivity|]. split; [constructor; [exact O|exact Lv|exact Ow|now rewrite get_set]|now rewrite get_set].
Qed.

Lemma exact_run cs : forall L m us rs L' m', idle m -> get_stack m 1 = Some (us, rs) -> Forall makes_nothing cs ->
  r_run (L, m) cs = Ok ((L', m'), repeat true (length cs)) ->
  idle m' /\ exists es rs', get_stack m' 1 = Some (es ++ us, rs')
   /\ (forall m2 rs2 us2, idle m2 -> get_stack m2 1 = Some (es ++ us2, rs2) ->
        exists m3, r_run (L', m2) (repeat RUndo (length cs)) = Ok ((L, m3), repeat true (length cs))
          /\ idle m3 /\ get_stack m3 1 = Some (us2, rev es ++ rs2))
   /\ (forall m2 rs2 us2, idle m2 -> get_stack m2 1 = Some (us2, rev es ++ rs2) ->
        exists m3, r_run (L, m2) (repeat RRedo (length cs)) = Ok ((L', m3), repeat true (length cs))
          /\ idle m3 /\ get_stack m3 1 = Some (es ++ us2, rs2)).
Proof.
  induction cs as [|c cs IH]; intros L m us rs L' m' I G F H.
  - cbn in H. injection H as <- <-. split; [easy|]. exists [], rs. split; [easy|].
    split; intros m2 rs2 us2 I2 G2; exists m2; (split; [reflexivity|]; split; [exact I2|exact G2]).
  - inversion F as [|? ? Fc Fr]; subst. cbn [r_run length repeat] in H.
    destruct (r_step (L, m) c) as [[[L1 m1] ok]| |] eqn:E; cbn [bind] in H; [|easy|easy].
    destruct (r_run (L1, m1) cs) as [[s2 oks]| |] eqn:E2; cbn [bind] in H; [|easy|easy]. injection H as -> -> ->.
    destruct (exact_step _ _ _ _ _ _ _ I G Fc E) as (e & I1 & G1 & X).
    destruct (IH _ _ _ _ _ _ I1 G1 Fr E2) as (I' & es & rs' & Ge & U & V). split; [easy|].
    exists (es ++ [e]), rs'. rewrite <- app_assoc. cbn [app]. split; [easy|]. cbn [length]. split.
    + intros m2 rs2 us2 I2 G2. rewrite <- app_assoc in G2. cbn [app] in G2.
      destruct (U m2 rs2 _ I2 G2) as (m3 & RU & I3 & G3).
      destruct (undo_step L m3 us2 (rev es ++ rs2) _ L1 G3 I3 (sw_undo _ _ _ X)) as (m4 & RS & I4 & G4).
      exists m4. rewrite !repeat_snoc, run_app, RU. cbn [bind r_run]. rewrite RS. cbn [bind].
      rewrite (restore_exact _ _ (sw_next _ _ _ X) (sw_lists _ _ _ X)). split; [easy|]. split; [easy|]. rewrite rev_app_distr. exact G4.
    + intros m2 rs2 us2 I2 G2. rewrite rev_app_distr in G2. cbn [rev app] in G2.
      destruct (redo_step _ _ _ _ _ _ I2 G2 X) as (m3 & RS & I3 & G3).
      destruct (V m3 rs2 _ I3 G3) as (m4 & RV & I4 & G4).
      exists m4. cbn [repeat r_run]. rewrite RS. cbn [bind]. rewrite RV. cbn [bind].
      split; [easy|]. split; [easy|]. now rewrite <- app_assoc.
Qed.

Lemma exact_theorem s cs s1 : idle (snd s) -> Forall makes_nothing cs -> r_run s cs = Ok (s1, repeat true (length cs)) ->
  exists s2 s3, r_run s1 (repeat RUndo (length cs)) = Ok (s2, repeat true (length cs)) /\ fst s2 = fst s
   /\ r_run s2 (repeat RRedo (length cs)) = Ok (s3, repeat true (length cs)) /\ fst s3 = fst s1.
Proof.
  destruct s as [L m], s1 as [L1 m1]. cbn [fst snd]. intros I F H.
  destruct (get_stack m 1) as [[us rs]|] eqn:G; [|now destruct (idle_stack _ I)].
  destruct (exact_run _ _ _ _ _ _ _ I G F H) as (I1 & es & rs' & G1 & U & V).
  destruct (U m1 rs' us I1 G1) as (m2 & RU & I2 & G2). destruct (V m2 rs' us I2 G2) as (m3 & RV & _).
  exists (L, m2), (L1, m3). auto.
Qed.
