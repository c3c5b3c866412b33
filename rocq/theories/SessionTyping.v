(** Keystrokes that merge, and what goes wrong elsewhere. *)
From Verif Require Import Base BaseFacts FormatRunsModel FormatRunsSpec FormatRunsFacts
  RopeModel RopeSpec RopeFacts DocModel DocSpec BlockFacts DocInv DocFacts DocAttr DocDelete DocBreak DocReplace
  DocImport DocFormat HistModel HistSpec DocReach DocHist PropSpec DocTheorems QueryTheorems UndoModel UndoFacts SessionModel SessionSpec SessionFacts SessionCmd SessionChain SessionTheorems DocRefuted.

(** The newest entry is typing of [w] at [p] up to now. *)
Definition typed (d : doc) (k : content) (p : nat) (w : str) (t : N) (s : session) : Prop :=
  let (d1, m) := s in
  open m = None /\ exists u,
  let c := CInsert (Z.of_nat p) (Z.of_nat p) w (Z.of_nat (p + length w)) t false (USimple u) in
  get_stack m 1 = Some ([One c], []) /\ made c d d1 /\ replay c k (after (EInsert p p w) k)
  /\ good d1 (after (EInsert p p w) k) /\ (d_next d <= d_next d1)%N.

Lemma insert_shape t p text d d' q c : do_insert t (Z.of_nat p) (Z.of_nat p) text d = Ok (d', q, c) ->
  exists u, c = CInsert (Z.of_nat p) (Z.of_nat p) text q t false (USimple u).
Proof.
  unfold do_insert, exec_insert. rewrite Z.eqb_refl. destruct (insert_text_simple _ _ _) as [[[? ?] ?]| |]; cbn [bind]; try easy.
  intros [= <- <- <-]. eauto.
Qed.
Lemma point_ready p text k : p <= length (k_items k) -> ready (EInsert p p text) k /\ direct (EInsert p p text) (k_items k)
  /\ edit_cursor (EInsert p p text) (k_items k) = p + length text.
Proof.
  intros H. split; [|split].
  - split; [easy|]. cbn [edit_range snd]. lia.
  - cbn [direct]. now rewrite lo_same, hi_same.
  - cbn [edit_cursor]. rewrite lo_same. lia.
Qed.

Lemma typed_first d k p w t m rs : good d k -> p <= length (k_items k) -> open m = None -> get_stack m 1 = Some ([], rs) ->
  exists s', s_step (d, m) (Edit (EInsert p p w) t) = Ok s' /\ typed d k p w t s'.
Proof.
  intros G Hp Op E. destruct (point_ready p w k Hp) as (R & D & Q).
  destruct (do_good t _ _ _ G R D) as (d' & c & X & G' & M & Rp & N & _). cbn [do_edit] in X. rewrite Q in X.
  cbn [s_step s_edit s_insert]. rewrite X, to_usize_nat. cbn [bind]. eexists. split; [reflexivity|].
  destruct (insert_shape _ _ _ _ _ _ _ X) as (u & ->). unfold record, m_add. rewrite Op. cbn [here sid]. rewrite E. cbn [fst].
  split; [easy|]. exists u. rewrite get_set. easy.
Qed.
Lemma no_boundary_last w : Forall word_char w -> forall c, last_char w = Some c -> is_boundary c = false.
Proof.
  intros F c. unfold last_char. destruct (rev w) as [|x r] eqn:E; [easy|]. intros [= <-]. rewrite Forall_forall in F. apply F.
  apply in_rev. rewrite E. now left.
Qed.
Lemma typed_more d k p w t s w' t' : good d k -> p <= length (k_items k) -> typed d k p w t s ->
  Forall word_char w -> length w + length w' <= 200 -> (t' - t <= 2000)%N ->
  exists s', s_step s (Edit (EInsert (p + length w) (p + length w) w') t') = Ok s' /\ typed d k p (w ++ w') t' s'.
Proof.
  intros G Hp T F Hl Ht. destruct s as [d1 m]. destruct T as (Op & u & E & M & Rp & G1 & N).
  set (q := p + length w) in *. set (c := CInsert _ _ _ _ _ _ _) in *. set (k1 := after (EInsert p p w) k) in *.
  assert (Hq : q <= length (k_items k1)).
  { unfold k1. cbn [after k_items spec_edit]. rewrite lo_same, hi_same, spec_delete_none, insert_length; unfold q; lia. }
  destruct (point_ready q w' k1 Hq) as (R & D & Q).
  destruct (do_good t' _ _ _ G1 R D) as (d2 & c2 & X & G2 & M2 & Rp2 & N2 & _). pose proof X as X0. cbn [do_edit] in X. rewrite Q in X.
  cbn [s_step s_edit s_insert]. rewrite X, to_usize_nat. cbn [bind]. eexists. split; [reflexivity|].
  destruct (insert_shape _ _ _ _ _ _ _ X) as (u2 & Hc2).
  assert (CM : can_merge_insert w (Z.of_nat q) t (Z.of_nat q) w' t' false = true).
  { unfold can_merge_insert. rewrite (proj2 (N.leb_le _ _) Ht), Z.eqb_refl, (proj2 (Nat.leb_le _ _) Hl). cbn [andb negb].
    apply negb_true_iff. destruct (last_char w) as [l|] eqn:El; [|easy]. rewrite (no_boundary_last _ F _ El). now destruct (first_char w'). }
  assert (Mc : exists u3, merge_cmd c c2 = Some (CInsert (Z.of_nat p) (Z.of_nat p) (w ++ w') (Z.of_nat (q + length w')) t' false (USimple u3))).
  { rewrite Hc2. unfold c. cbn [merge_cmd widen]. fold q. rewrite CM. eexists. reflexivity. }
  destruct Mc as (u3 & Mc).
  assert (Ap : apart (cmark c) (EInsert q q w') t') by easy.
  destruct (merge_good _ _ _ _ _ _ _ _ _ _ _ G1 M Rp R D Ap X0 Mc) as (M4 & R4 & _ & _).
  unfold record, m_add. rewrite Op. cbn [here sid]. rewrite E. cbn [merge_entry]. rewrite Mc. cbn [option_map fst].
  split; [easy|]. exists u3. rewrite get_set.
  assert (Ha : after (EInsert q q w') k1 = after (EInsert p p (w ++ w')) k).
  { unfold k1. destruct (point_ready p w k Hp) as (_ & _ & Qp). rewrite <- after_typing. rewrite Qp. easy. }
  assert (Hn : q + length w' = p + length (w ++ w')) by (unfold q; rewrite app_length; lia).
  rewrite Ha in *. rewrite Hn in *. split; [easy|]. split; [easy|]. split; [easy|]. split; [easy|]. lia.
Qed.

Lemma typed_all ts : forall d k p w t s, good d k -> p <= length (k_items k) -> typed d k p w t s ->
  Forall word_char (w ++ concat (map fst ts)) -> length (w ++ concat (map fst ts)) <= 200 -> quick t ts ->
  exists s' t', s_run s (typing (p + length w) ts) = Ok s' /\ typed d k p (w ++ concat (map fst ts)) t' s'.
Proof.
  induction ts as [|[w' t'] ts IH]; intros d k p w t s G Hp T F L Q; cbn [typing s_run map fst concat quick] in *.
  - rewrite app_nil_r. eauto.
  - destruct Q as [Q1 Q2]. rewrite app_assoc in F, L |- *.
    assert (F1 : Forall word_char w).
    { apply Forall_app in F. destruct F as [F _]. now apply Forall_app in F. }
    destruct (typed_more _ _ _ _ _ _ w' t' G Hp T F1) as (s1 & E1 & T1); [rewrite !app_length in L; lia|easy|].
    rewrite E1. cbn [bind]. destruct (IH _ _ _ _ _ _ G Hp T1 F L Q2) as (s' & t'' & E & T').
    rewrite app_length, Nat.add_assoc in E. eauto.
Qed.
Lemma keystrokes_theorem d its p w t ts : reach d -> doc_items d = Ok its -> p <= length its ->
  let all := w ++ concat (map fst ts) in
  Forall word_char all -> length all <= 200 -> quick t ts ->
  exists d1 m1 d2 m2 d3 m3 k,
    s_run (d, new_history) (typing p ((w, t) :: ts)) = Ok (d1, m1) /\ shows d1 k /\ k_items k = spec_insert p all its
    /\ s_step (d1, m1) UndoCall = Ok (d2, m2) /\ same_document d2 d /\ can_undo m2 here = false
    /\ s_step (d2, m2) RedoCall = Ok (d3, m3) /\ shows d3 k.
Proof.
  intros Hr Hi Hp all F L Q. destruct (reach_good _ Hr) as (k & G).
  assert (Ek : k_items k = its) by (destruct (good_shows _ _ G) as [H _]; congruence). rewrite <- Ek in Hp.
  destruct (typed_first d k p w t new_history [] G Hp eq_refl eq_refl) as (s1 & E1 & T1).
  destruct (typed_all ts _ _ _ _ _ _ G Hp T1 F L Q) as ([d1 m1] & t' & E & T).
  destruct T as (Op & u & Es & M & Rp & G1 & N). fold all in Es, M, Rp, G1.
  assert (C : gchain (cmds (One (CInsert (Z.of_nat p) (Z.of_nat p) all (Z.of_nat (p + length all)) t' false (USimple u)))) d d1 k (after (EInsert p p all) k)).
  { exists d1, (after (EInsert p p all) k). repeat (split; [easy|]). easy. }
  destruct (entry_round _ _ _ _ _ _ _ Es C G) as (d2 & m2 & d3 & m3 & U & Sd & Cu & _ & Rd & Sh).
  exists d1, m1, d2, m2, d3, m3, (after (EInsert p p all) k). cbn [typing s_run]. rewrite E1. cbn [bind].
  split; [exact E|]. split; [now apply good_shows|]. split; [|easy].
  cbn [after k_items spec_edit]. rewrite lo_same, hi_same, spec_delete_none, Ek, Nat.min_l by congruence. easy.
Qed.

(** ** Where the claims fail *)


(** A selection typed over, then one more character: redo types both but does
    not delete the selection again. *)
Definition overtype : list call := [Edit (EInsert 0 2 [120]%N) 0; Edit (EInsert 1 1 [121]%N) 100].
Lemma overtype_refuted :
  let s := (import_plain_text new_document [97; 98]%N, new_history) in
  text_of (s_run s overtype) = Ok [120; 121]%N
  /\ text_of (s_run s (overtype ++ [UndoCall])) = Ok [97; 98]%N
  /\ text_of (s_run s (overtype ++ [UndoCall; RedoCall])) = Ok [120; 121; 97; 98]%N.
Proof. vm_compute. easy. Qed.

(** Undo inside an edit block: the step before the block is undone, and the
    text becomes one the document never had. *)
Definition inside_block : list call := [Edit (EInsert 0 0 [97]%N) 0; BeginBlock; Edit (EInsert 1 1 [98]%N) 9000; UndoCall].
Lemma inside_block_refuted :
  text_of (s_run new_session inside_block) = Ok [98]%N
  /\ forall n, n < 4 -> text_of (s_run new_session (firstn n inside_block)) <> Ok [98]%N.
Proof. split; [vm_compute; easy|]. intros n Hn. destruct n as [|[|[|[|n]]]]; [vm_compute; easy..|lia]. Qed.

(** After a group on one stack, a group on another one is refused and its
    commands become separate steps. *)
Definition push_one (w : nat) : res (nat * nat) := Ok (S w, w).
Definition two_groups : list (mop nat nat) :=
  [CreateStack; BeginGroup (Some 1%N); Act push_one (Some 1%N); EndGroup;
   BeginGroup (Some 0%N); Act push_one (Some 0%N); Act push_one (Some 0%N); EndGroup].
Lemma two_groups_refuted :
  exists w m, mrun (fun _ c => Ok c) (fun _ c => Ok (S c, c)) (fun _ _ => None) (0, new_manager) two_groups = Ok (w, m)
   /\ get_stack m 0 = Some ([One 2; One 1], []).
Proof. eexists _, _. vm_compute. easy. Qed.
