(** The undo stack of a session and the history it stands for. *)
From Verif Require Import Base BaseFacts FormatRunsModel FormatRunsSpec FormatRunsFacts
  RopeModel RopeSpec RopeFacts DocModel DocSpec BlockFacts DocInv DocFacts DocAttr DocDelete DocBreak DocReplace
  DocImport DocFormat HistModel HistSpec DocReach DocHist PropSpec DocTheorems UndoModel UndoFacts SessionModel SessionSpec SessionFacts SessionCmd.

Lemma made_eq c d0 d x : made c d0 d -> doc_eq x d -> (d_next d <= d_next x)%N -> made c d0 x.
Proof.
  intros M E N.
  assert (U : forall u q, undoes u q d0 d -> undoes u q d0 x).
  { intros [su|s] q H; cbn in *; [eapply inserted_eq; eauto|easy]. }
  destruct c; cbn [made] in *; auto. destruct M as [q M]. eauto.
Qed.

Definition cmds (e : entry cmd) : list cmd := match e with One c => [c] | Group cs => cs end.
Definition emark (e : entry cmd) : mark := match e with One c => cmark c | Group _ => Other end.

(** Commands executed one after the other. *)
Fixpoint gchain (cs : list cmd) (d0 d : doc) (k0 k : content) : Prop :=
  match cs with
  | [] => d = d0 /\ k0 = k
  | c :: rest => exists d1 k1, good d1 k1 /\ (d_next d0 <= d_next d1)%N /\ made c d0 d1 /\ replay c k0 k1 /\ gchain rest d1 d k1 k
  end.
Fixpoint rchain (cs : list cmd) (k k' : content) : Prop :=
  match cs with [] => k = k' | c :: rest => exists k1, replay c k k1 /\ rchain rest k1 k' end.

Lemma gchain_rchain cs : forall d0 d k0 k, gchain cs d0 d k0 k -> rchain cs k0 k.
Proof. induction cs as [|c cs IH]; intros d0 d k0 k; cbn; [easy|]. intros (d1 & k1 & _ & _ & _ & R & H). eauto. Qed.
Lemma gchain_next cs : forall d0 d k0 k, gchain cs d0 d k0 k -> (d_next d0 <= d_next d)%N.
Proof. induction cs as [|c cs IH]; intros d0 d k0 k; cbn; [intros [-> _]; lia|]. intros (d1 & k1 & _ & N & _ & _ & H). apply IH in H. lia. Qed.
Lemma gchain_snoc cs : forall d0 d k0 k c d' k', gchain cs d0 d k0 k -> made c d d' -> replay c k k' -> good d' k' ->
  (d_next d <= d_next d')%N -> gchain (cs ++ [c]) d0 d' k0 k'.
Proof.
  induction cs as [|x cs IH]; intros d0 d k0 k c d' k' H M R G N; cbn in *.
  - destruct H as [-> ->]. exists d', k'. easy.
  - destruct H as (d1 & k1 & G1 & N1 & M1 & R1 & H). exists d1, k1. repeat (split; [easy|]). eauto.
Qed.
Lemma undo_each_app (l : list cmd) : forall l' x x', undo_each undo_cmd x l = Ok (x', true) ->
  undo_each undo_cmd x (l ++ l') = undo_each undo_cmd x' l'.
Proof.
  induction l as [|c l IH]; intros l' x x' E; cbn in *; [now injection E as ->|].
  destruct (undo_cmd x c); [auto|easy|easy].
Qed.
Lemma undo_chain cs : forall d0 d k0 k x, gchain cs d0 d k0 k -> doc_eq x d -> (d_next d <= d_next x)%N ->
  exists x', undo_each undo_cmd x (rev cs) = Ok (x', true) /\ doc_eq x' d0 /\ d_next x' = d_next x.
Proof.
  induction cs as [|c cs IH]; intros d0 d k0 k x H E N; cbn in *.
  - destruct H as [-> _]. eauto.
  - destruct H as (d1 & k1 & G1 & N1 & M1 & R1 & H). pose proof (gchain_next _ _ _ _ _ H) as N2.
    destruct (IH _ _ _ _ _ H E N) as (x1 & U1 & E1 & X1).
    destruct (undo_good _ _ _ _ M1 E1 ltac:(lia)) as (x2 & U2 & E2 & X2).
    exists x2. rewrite (undo_each_app _ _ _ _ U1). cbn. rewrite U2. split; [easy|]. split; [easy|congruence].
Qed.
Lemma redo_chain cs : forall k k' x, rchain cs k k' -> good x k ->
  exists x' cs', redo_each redo_cmd x cs = Ok (x', cs', true) /\ gchain cs' x x' k k' /\ good x' k'
    /\ map cmark cs' = map cmark cs.
Proof.
  induction cs as [|c cs IH]; intros k k' x H G; cbn in *.
  - subst k'. exists x, []. easy.
  - destruct H as (k1 & R & H). destruct (redo_good _ _ _ _ R G) as (x1 & c1 & E1 & G1 & M1 & R1 & K1 & N1).
    destruct (IH _ _ _ H G1) as (x' & cs' & E2 & C & G2 & K2). rewrite E1, E2. cbn [bind].
    exists x', (c1 :: cs'). split; [easy|]. split; [|split; [easy|cbn; congruence]]. cbn. eauto 10.
Qed.

(** ** The two stacks *)

Fixpoint ulist (us : list (entry cmd)) (past : list (content * mark)) (d : doc) (k : content) : Prop :=
  match us, past with
  | [], [] => True
  | e :: us, (k0, mk) :: past =>
      emark e = mk /\ exists d0 d1, gchain (cmds e) d0 d1 k0 k /\ good d0 k0 /\ doc_eq d d1 /\ (d_next d1 <= d_next d)%N
        /\ ulist us past d0 k0
  | _, _ => False
  end.
Fixpoint rlist (rs : list (entry cmd)) (future : list (mark * content)) (k : content) : Prop :=
  match rs, future with
  | [], [] => True
  | e :: rs, (mk, k1) :: future => emark e = mk /\ rchain (cmds e) k k1 /\ rlist rs future k1
  | _, _ => False
  end.
Lemma ulist_eq us past d k x : ulist us past d k -> doc_eq x d -> (d_next d <= d_next x)%N -> ulist us past x k.
Proof.
  destruct us as [|e us], past as [|[k0 mk] past]; cbn; try easy. intros (Em & d0 & d1 & C & G & E & N & U) Ex Nx.
  split; [easy|]. exists d0, d1. split; [easy|]. split; [easy|]. split; [eapply doc_eq_trans; eauto|]. split; [lia|easy].
Qed.
Lemma ulist_nonempty us past d k : ulist us past d k -> nonempty us = nonempty past.
Proof. destruct us, past as [|[]]; cbn; easy. Qed.
Lemma rlist_nonempty rs future k : rlist rs future k -> nonempty rs = nonempty future.
Proof. destruct rs, future as [|[]]; cbn; easy. Qed.

Definition owned (m : manager cmd) : Prop := owner m = None \/ owner m = Some 1%N.
Definition tracks (s : session) (h : history) : Prop :=
  let (d, m) := s in
  good d (now h) /\ owned m /\
  exists us rs, get_stack m 1 = Some (us, rs) /\
  match block h with
  | None => open m = None /\ level m = 0 /\ ulist us (past h) d (now h) /\ rlist rs (future h) (now h)
  | Some (n, k0, b) =>
      level m = n /\ 1 <= n /\ owner m = Some 1%N /\
      exists cs d0, open m = Some (cs, 1%N) /\ b = nonempty cs /\ gchain cs d0 d k0 (now h) /\ good d0 k0
        /\ ulist us (past h) d0 k0 /\ rlist rs (future h) k0
  end.

Lemma tracks_at s h : tracks s h -> at_history s h.
Proof.
  destruct s as [d m]. intros (G & _ & us & rs & E & H). split; [now apply good_shows|].
  unfold can_undo, can_redo. cbn [snd sid here]. rewrite E.
  assert (X : exists d0 k0, ulist us (past h) d0 k0 /\ rlist rs (future h) k0).
  { destruct (block h) as [[[n k0] b]|]; [destruct H as (_ & _ & _ & cs & d0 & _ & _ & _ & _ & U & R)|destruct H as (_ & _ & U & R)]; eauto. }
  destruct X as (d0 & k0 & U & R). rewrite <- (ulist_nonempty _ _ _ _ U), <- (rlist_nonempty _ _ _ R). destruct us, rs; easy.
Qed.

Lemma good_new : good new_document first_content.
Proof. eexists. split; [apply new_wf|]. reflexivity. Qed.
Lemma tracks_new : tracks new_session first_history.
Proof. split; [apply good_new|]. split; [now left|]. exists [], []. repeat split. Qed.

(** ** Steps *)

Lemma tracks_begin d m h : tracks (d, m) h ->
  tracks (d, fst (m_begin m here))
    (mk_history (past h) (now h) (future h) (Some (match block h with Some (n, k0, b) => (S n, k0, b) | None => (1, now h, false) end))).
Proof.
  intros (G & O & us & rs & E & H). unfold m_begin.
  assert (Cl : match owner m, here with None, _ => false | Some a, Some b => negb (a =? b)%N | Some _, None => true end = false).
  { destruct O as [-> | ->]; easy. }
  rewrite Cl. cbn [fst]. split; [exact G|]. split; [now right|]. exists us, rs. split; [exact E|]. cbn [block past now future level owner open here sid].
  destruct (block h) as [[[n k0] b]|].
  - destruct H as (L & Hn & Ow & cs & d0 & Op & H). rewrite Op, L. split; [easy|]. split; [lia|]. split; [easy|]. eauto.
  - destruct H as (Op & L & U & R). rewrite Op, L. repeat (split; [lia || easy|]).
    exists [], d. split; [easy|]. split; [easy|]. cbn. auto 10.
Qed.

Lemma tracks_end d m h : tracks (d, m) h ->
  exists m', m_end m = Ok m' /\ exists h', hstep h EndBlock h' /\ tracks (d, m') h'.
Proof.
  intros (G & O & us & rs & E & H). cbn [hstep]. unfold m_end. destruct (block h) as [[[n k0] b]|] eqn:Hb.
  - destruct H as (L & Hn & Ow & cs & d0 & Op & -> & C & G0 & U & R). rewrite L. destruct n as [|[|n]]; [lia| |].
    + cbn [pred]. rewrite Op, Ow. cbn [sid]. rewrite E. destruct cs as [|c cs].
      * cbn in C. destruct C as [-> ->]. eexists. split; [reflexivity|]. eexists. split; [reflexivity|].
        split; [exact G|]. split; [now right|]. exists us, rs. easy.
      * eexists. split; [reflexivity|]. eexists. split; [reflexivity|]. split; [exact G|]. split; [now right|].
        exists (Group (c :: cs) :: us), []. rewrite get_set. split; [easy|]. split; [easy|]. split; [easy|]. split; [|easy].
        cbn [ulist past now emark cmds]. split; [easy|]. exists d0, d. split; [exact C|]. split; [easy|]. split; [apply doc_eq_refl|]. split; [lia|easy].
    + cbn [pred]. eexists. split; [reflexivity|]. eexists. split; [reflexivity|]. split; [exact G|]. split; [exact O|].
      exists us, rs. split; [exact E|]. cbn [block level owner open past now future]. split; [easy|]. split; [lia|]. split; [easy|]. eauto 10.
  - destruct H as (Op & L & U & R). rewrite L, Op. cbn [pred]. eexists. split; [reflexivity|]. eexists. split; [reflexivity|].
    split; [exact G|]. split; [exact O|]. exists us, rs. rewrite Hb. easy.
Qed.

Lemma tracks_in t e d m h n k0 b : tracks (d, m) h -> block h = Some (n, k0, b) -> ready e (now h) -> direct e (k_items (now h)) ->
  exists d' c, do_edit t e d = Ok (d', Z.of_nat (edit_cursor e (k_items (now h))), c)
   /\ tracks (d', record m c) (mk_history (past h) (after e (now h)) (future h) (Some (n, k0, true))).
Proof.
  intros (G & O & us & rs & E & H) Hb R D. rewrite Hb in H. destruct H as (L & Hn & Ow & cs & d0 & Op & -> & C & G0 & U & Rl).
  destruct (do_good t _ _ _ G R D) as (d' & c & X & G' & M & Rp & N & K). exists d', c. split; [exact X|].
  unfold record, m_add. rewrite Op. cbn [sid here]. rewrite N.eqb_refl. cbn [fst].
  split; [exact G'|]. split; [exact O|]. exists us, rs. split; [exact E|]. cbn [block level owner open past now future].
  split; [easy|]. split; [easy|]. split; [easy|]. exists (cs ++ [c]), d0. split; [easy|]. split; [now destruct cs|].
  split; [eapply gchain_snoc; eauto|easy].
Qed.

Lemma tracks_out t e d m h : tracks (d, m) h -> block h = None -> call_fits h (Edit e t) -> direct e (k_items (now h)) -> no_change e = false ->
  exists d' c h', do_edit t e d = Ok (d', Z.of_nat (edit_cursor e (k_items (now h))), c)
   /\ hstep h (Edit e t) h' /\ tracks (d', record m c) h'.
Proof.
  intros (G & O & us & rs & E & H) Hb (Hok & Hr & Hap) D Hnc. assert (R : ready e (now h)) by (split; easy).
  rewrite Hb in H, Hap. destruct H as (Op & L & U & Rl).
  destruct (do_good t _ _ _ G R D) as (d' & c & X & G' & M & Rp & N & K). exists d', c.
  unfold record, m_add. rewrite Op. cbn [sid here]. rewrite E. cbn [hstep]. rewrite Hnc, Hb.
  assert (Push : ulist (One c :: us) ((now h, mark_of e t (k_items (now h))) :: past h) d' (after e (now h))).
  { cbn. split; [easy|]. exists d, d'. split; [|split; [easy|split; [apply doc_eq_refl|split; [lia|easy]]]].
    exists d', (after e (now h)). easy. }
  destruct us as [|top below].
  - eexists. split; [exact X|]. split; [left; reflexivity|]. split; [exact G'|]. split; [exact O|].
    exists [One c], []. split; [cbn [fst]; now rewrite get_set|]. cbn [block open level past now future]. easy.
  - destruct (past h) as [|[k0 mk] before] eqn:Hp; [easy|]. cbn [ulist] in U. destruct U as (Em & d0 & d1 & C & G0 & Eq & N1 & U).
    destruct (merge_entry merge_cmd top c) as [e1|] eqn:Me.
    + destruct top as [ct|]; cbn [merge_entry] in Me; [|easy]. destruct (merge_cmd ct c) as [cc|] eqn:Mc; [|easy].
      cbn in Me. injection Me as <-. cbn [cmds gchain] in C. destruct C as (d2 & k2 & G2 & N2 & M2 & R2 & -> & ->).
      pose proof (made_eq _ _ _ _ M2 Eq N1) as M3.
      assert (Ap : apart (cmark ct) e t).
      { cbn [emark] in Em. rewrite Em. destruct mk; cbn; try easy. }
      destruct (merge_good _ _ _ _ _ _ _ _ _ _ _ G M3 R2 R D Ap X Mc) as (M4 & R4 & K4 & J).
      eexists. split; [exact X|]. split.
      { right. exists k0, mk, before. split; [easy|]. split; [cbn [emark] in Em; now rewrite <- Em|reflexivity]. }
      split; [exact G'|]. split; [exact O|]. exists (One cc :: below), []. split; [cbn [fst]; now rewrite get_set|].
      cbn [block open level past now future]. split; [easy|]. split; [easy|]. split; [|easy].
      cbn [ulist emark cmds]. split; [easy|]. exists d0, d'. split; [|split; [easy|split; [apply doc_eq_refl|split; [lia|easy]]]].
      exists d', (after e (now h)). split; [easy|]. split; [lia|]. easy.
    + eexists. split; [exact X|]. split; [left; reflexivity|]. split; [exact G'|]. split; [exact O|].
      exists (One c :: top :: below), []. split; [cbn [fst]; now rewrite get_set|]. cbn [block open level past now future]. easy.
Qed.

(** ** Edits made of a deletion and a second edit *)

Definition at_point (e : edit) (q : nat) : edit :=
  match e with
  | EInsert _ _ text => EInsert q q text
  | EInsertFmt _ _ text x => EInsertFmt q q text x
  | EBreak _ _ => EBreak q q
  | ERemove _ _ => ERemove q q
  end.
Definition ends (e : edit) : nat * nat :=
  match e with EInsert p a _ | EInsertFmt p a _ _ | EBreak p a | ERemove p a => (p, a) end.

Lemma after_split e p a k : ends e = (p, a) -> Nat.max p a <= length (k_items k) ->
  after (at_point e (Nat.min p a)) (after (ERemove p a) k) = after e k.
Proof.
  intros He Hr. unfold after. cbn [k_items k_attrs k_chars k_paras]. set (its := k_items k) in *.
  destruct (lo_min its p a Hr) as [L1 L2].
  assert (Hl : Nat.min p a <= length (spec_edit (ERemove p a) its)).
  { cbn [spec_edit]. unfold spec_delete. rewrite app_length, firstn_length, skipn_length. lia. }
  assert (I : spec_edit (at_point e (Nat.min p a)) (spec_edit (ERemove p a) its) = spec_edit e its).
  { destruct e; cbn [ends] in He; injection He as -> ->; cbn [at_point spec_edit] in *;
      rewrite lo_same, hi_same, spec_delete_none, ?(Nat.min_l _ _ Hl), ?L1, ?L2; easy. }
  rewrite I. f_equal; [|lia|lia].
  assert (B : breaks (Nat.min p a) (spec_edit (ERemove p a) its) = breaks (Nat.min p a) its).
  { cbn [spec_edit]. rewrite L1, L2. apply breaks_cut; lia. }
  unfold edit_attrs.
  assert (Er : edit_range (at_point e (Nat.min p a)) = (Nat.min p a, Nat.min p a)).
  { destruct e; cbn; now rewrite Nat.min_id, Nat.max_id. }
  rewrite Er, attrs_point, lo_same, (Nat.min_l _ _ Hl), B.
  destruct e; cbn [ends] in He; injection He as -> ->; cbn [at_point edit_range];
    destruct (min_max_lo its p a) as [-> ->]; rewrite L1, L2; easy.
Qed.

Lemma tracks_two t e d m h p a : tracks (d, m) h -> ready e (now h) -> ends e = (p, a) -> p <> a ->
  (match e with ERemove _ _ => False | _ => True end) ->
  exists d1 c1 d2 c2 m' np2 h',
    do_delete t (Z.of_nat p) (Z.of_nat a) d = Ok (d1, Z.of_nat (Nat.min p a), c1)
    /\ do_edit t (at_point e (Nat.min p a)) d1 = Ok (d2, Z.of_nat np2, c2)
    /\ m_end (record (record (fst (m_begin m here)) c1) c2) = Ok m'
    /\ tracks (d2, m') h'
    /\ h' = match block h with
            | Some (n, k0, _) => mk_history (past h) (after e (now h)) (future h) (Some (n, k0, true))
            | None => mk_history ((now h, Other) :: past h) (after e (now h)) [] None
            end.
Proof.
  intros T R He Hpa Hne. pose proof (tracks_begin _ _ _ T) as T1.
  set (b1 := match block h with Some (n, k0, b) => (S n, k0, b) | None => (1, now h, false) end) in T1.
  destruct b1 as [[n1 k1] bb] eqn:Hb1.
  assert (Hr : Nat.max p a <= length (k_items (now h))).
  { destruct R as [_ R]. destruct e; cbn in He, R; injection He as -> ->; easy. }
  assert (R1 : ready (ERemove p a) (now h)) by (split; easy).
  destruct (tracks_in t (ERemove p a) _ _ _ _ _ _ T1 eq_refl R1 Hpa) as (d1 & c1 & E1 & T2).
  cbn [past now future block] in T2. cbn [now do_edit edit_cursor] in E1.
  set (e2 := at_point e (Nat.min p a)).
  assert (R2 : ready e2 (after (ERemove p a) (now h))).
  { split; [destruct R as [R _]; unfold e2; destruct e; easy|]. destruct (lo_min _ _ _ Hr) as [L1 L2].
    assert (snd (edit_range e2) = Nat.min p a) as -> by (unfold e2; destruct e; cbn; now rewrite Nat.max_id).
    cbn [after k_items spec_edit]. unfold spec_delete. rewrite app_length, firstn_length, skipn_length. lia. }
  assert (D2 : direct e2 (k_items (after (ERemove p a) (now h)))).
  { unfold e2. destruct e; cbn [at_point direct]; rewrite ?lo_same, ?hi_same; easy. }
  destruct (tracks_in t e2 _ _ _ _ _ _ T2 eq_refl R2 D2) as (d2 & c2 & E2 & T3).
  cbn [past now future block] in T3. unfold e2 in T3 at 1. rewrite (after_split e p a (now h) He Hr) in T3.
  destruct (tracks_end _ _ _ T3) as (m' & Em & h' & Hs & T4).
  eexists d1, c1, d2, c2, m', _, h'. split; [exact E1|]. split; [exact E2|]. split; [exact Em|]. split; [exact T4|].
  cbn [hstep block past now future] in Hs. unfold b1 in Hb1. destruct (block h) as [[[n k0] b]|] eqn:Hb.
  - injection Hb1 as <- <- <-. destruct T as (_ & _ & us & rs & _ & H). rewrite Hb in H. destruct H as (_ & Hn & _).
    destruct n; [lia|]. exact Hs.
  - injection Hb1 as <- <- <-. exact Hs.
Qed.

Lemma tracks_edit t e s h : tracks s h -> call_fits h (Edit e t) ->
  exists s' q h', s_edit t s e = Ok (s', Some q) /\ hstep h (Edit e t) h' /\ tracks s' h'.
Proof.
  destruct s as [d m]. intros T F. pose proof F as (Hok & Hr & _). assert (R : ready e (now h)) by (split; easy).
  destruct (no_change e) eqn:Hnc.
  { destruct e as [p a text|p a text x|p a|p a]; cbn in Hnc; try easy. cbn [s_edit s_remove]. rewrite Hnc.
    eexists _, _, h. split; [reflexivity|]. split; [|exact T]. cbn [hstep no_change]. now rewrite Hnc. }
  assert (Dir : direct e (k_items (now h)) ->
    exists d' c h', do_edit t e d = Ok (d', Z.of_nat (edit_cursor e (k_items (now h))), c)
     /\ hstep h (Edit e t) h' /\ tracks (d', record m c) h').
  { intros D. destruct (block h) as [[[n k0] b]|] eqn:Hb.
    - destruct (tracks_in t e _ _ _ _ _ _ T Hb R D) as (d' & c & X & T'). eexists d', c, _. split; [exact X|].
      split; [|exact T']. cbn [hstep]. now rewrite Hnc, Hb.
    - now apply tracks_out. }
  assert (Two : forall p a, ends e = (p, a) -> p <> a -> (match e with ERemove _ _ => False | _ => True end) ->
     mark_of e t (k_items (now h)) = Other ->
     exists d1 c1 d2 c2 m' np2 h',
    do_delete t (Z.of_nat p) (Z.of_nat a) d = Ok (d1, Z.of_nat (Nat.min p a), c1)
    /\ do_edit t (at_point e (Nat.min p a)) d1 = Ok (d2, Z.of_nat np2, c2)
    /\ m_end (record (record (fst (m_begin m here)) c1) c2) = Ok m'
    /\ hstep h (Edit e t) h' /\ tracks (d2, m') h').
  { intros p a He Hpa Hne Mk. destruct (tracks_two t e _ _ _ p a T R He Hpa Hne) as (d1 & c1 & d2 & c2 & m' & np2 & h' & E1 & E2 & E3 & T' & Hh).
    exists d1, c1, d2, c2, m', np2, h'. repeat (split; [easy|]). split; [|easy].
    cbn [hstep]. rewrite Hnc, Hh, Mk. destruct (block h) as [[[n k0] b]|]; [easy|now left]. }
  destruct e as [p a text|p a text x|p a|p a]; cbn [s_edit s_insert s_break s_remove]; cbn [direct do_edit at_point ends] in Dir, Two.
  - destruct (Nat.eq_dec (breaks (lo (k_items (now h)) p a) (k_items (now h))) (breaks (hi (k_items (now h)) p a) (k_items (now h)))) as [D|D].
    + destruct (Dir D) as (d' & c & h' & -> & H & T'). rewrite to_usize_nat. cbn [bind]. eauto 10.
    + assert (Hpa : p <> a) by (intros ->; now rewrite lo_same, hi_same in D).
      destruct (Two p a eq_refl Hpa I) as (d1 & c1 & d2 & c2 & m' & np2 & h' & E1 & E2 & E3 & H & T').
      { cbn [mark_of]. now rewrite (proj2 (Nat.eqb_neq _ _) Hpa), (proj2 (Nat.eqb_neq _ _) D). }
      pose proof T as (G & _). destruct G as (ps & W & Ek). rewrite Ek in D. cbn [k_items] in D.
      destruct (across _ _ _ _ W D) as [Cr _]. unfold do_insert at 1, exec_insert at 1.
      rewrite eqb_Z, (proj2 (Nat.eqb_neq _ _) Hpa), Cr. cbn [bind]. rewrite E1, to_usize_nat. cbn [bind]. rewrite E2, E3. cbn [bind].
      rewrite to_usize_nat. cbn [bind]. eauto 10.
  - destruct (Nat.eq_dec (breaks (lo (k_items (now h)) p a) (k_items (now h))) (breaks (hi (k_items (now h)) p a) (k_items (now h)))) as [D|D].
    + destruct (Dir D) as (d' & c & h' & -> & H & T'). rewrite to_usize_nat. cbn [bind]. eauto 10.
    + assert (Hpa : p <> a) by (intros ->; now rewrite lo_same, hi_same in D).
      destruct (Two p a eq_refl Hpa I eq_refl) as (d1 & c1 & d2 & c2 & m' & np2 & h' & E1 & E2 & E3 & H & T').
      pose proof T as (G & _). destruct G as (ps & W & Ek). rewrite Ek in D. cbn [k_items] in D.
      destruct (across _ _ _ _ W D) as [_ Cr]. unfold do_insert_fmt at 1, exec_insert_fmt at 1.
      rewrite eqb_Z, (proj2 (Nat.eqb_neq _ _) Hpa), Cr. cbn [bind]. rewrite E1, to_usize_nat. cbn [bind]. rewrite E2, E3. cbn [bind].
      rewrite to_usize_nat. cbn [bind]. eauto 10.
  - destruct (Nat.eqb_spec p a) as [D|Hpa].
    + destruct (Dir D) as (d' & c & h' & -> & H & T'). rewrite to_usize_nat. cbn [bind]. eauto 10.
    + destruct (Two p a eq_refl Hpa I eq_refl) as (d1 & c1 & d2 & c2 & m' & np2 & h' & E1 & E2 & E3 & H & T').
      rewrite E1, to_usize_nat. cbn [bind]. rewrite E2, E3. cbn [bind]. rewrite to_usize_nat. cbn [bind]. eauto 10.
  - cbn [no_change] in Hnc. rewrite Hnc. apply Nat.eqb_neq in Hnc. destruct (Dir Hnc) as (d' & c & h' & -> & H & T'). rewrite to_usize_nat. cbn [bind]. eauto 10.
Qed.

(** ** Undo, redo and the rest *)

Lemma tracks_undo d m h : tracks (d, m) h -> block h = None ->
  exists d' m' h', m_undo undo_cmd d m here = Ok (d', m', true) /\ hstep h UndoCall h' /\ tracks (d', m') h'.
Proof.
  intros (G & O & us & rs & E & H) Hb. rewrite Hb in H. destruct H as (Op & L & U & Rl). unfold m_undo. cbn [here sid hstep]. rewrite E.
  destruct us as [|e us], (past h) as [|[k0 mk] before] eqn:Hp; cbn [ulist] in U; try easy.
  - eexists _, _, h. split; [reflexivity|]. split; [easy|]. split; [exact G|]. split; [exact O|]. exists [], rs. rewrite Hb, Hp. easy.
  - destruct U as (Em & d0 & d1 & C & G0 & Eq & N1 & U).
    destruct (undo_chain _ _ _ _ _ _ C Eq N1) as (x & X & Ex & Nx). pose proof (gchain_next _ _ _ _ _ C) as N2.
    assert (Xe : undo_entry undo_cmd d e = Ok (x, true)) by (destruct e; cbn [cmds undo_entry rev app] in *; exact X).
    rewrite Xe. cbn [bind]. eexists x, _, _. split; [reflexivity|]. split; [reflexivity|].
    assert (Nd : (d_next d0 <= d_next x)%N) by lia.
    split; [now apply (good_eq d0)|]. split; [exact O|]. exists us, (e :: rs). rewrite get_set. split; [easy|].
    cbn [block open level past now future]. rewrite Hb. split; [easy|]. split; [easy|]. split; [now apply (ulist_eq _ _ d0)|].
    cbn [rlist]. split; [easy|]. split; [eapply gchain_rchain; eauto|easy].
Qed.
Lemma tracks_redo d m h : tracks (d, m) h -> block h = None ->
  exists d' m' h', m_redo redo_cmd d m here = Ok (d', m', true) /\ hstep h RedoCall h' /\ tracks (d', m') h'.
Proof.
  intros (G & O & us & rs & E & H) Hb. rewrite Hb in H. destruct H as (Op & L & U & Rl). unfold m_redo. cbn [here sid hstep]. rewrite E.
  destruct rs as [|e rs], (future h) as [|[mk k1] later] eqn:Hf; cbn [rlist] in Rl; try easy.
  - eexists _, _, h. split; [reflexivity|]. split; [easy|]. split; [exact G|]. split; [exact O|]. exists us, []. rewrite Hb, Hf. easy.
  - destruct Rl as (Em & C & Rl). destruct (redo_chain _ _ _ _ C G) as (x & cs' & X & C' & G' & K).
    assert (Xe : exists e', redo_entry redo_cmd d e = Ok (x, e', true) /\ cmds e' = cs' /\ emark e' = emark e).
    { destruct e as [c|cs]; cbn [cmds redo_entry] in *; rewrite X; cbn [bind].
      - destruct cs' as [|c' [|? ?]]; cbn in K; try easy. exists (One c'). injection K as K. easy.
      - exists (Group cs'). easy. }
    destruct Xe as (e' & -> & Hc & He). cbn [bind]. eexists x, _, _. split; [reflexivity|]. split; [reflexivity|].
    split; [exact G'|]. split; [exact O|]. exists (e' :: us), rs. rewrite get_set. split; [easy|].
    cbn [block open level past now future]. rewrite Hb. split; [easy|]. split; [easy|]. split; [|easy].
    cbn [ulist]. split; [congruence|]. exists d, x. rewrite Hc. split; [easy|]. split; [easy|]. split; [apply doc_eq_refl|]. split; [lia|easy].
Qed.
Lemma good_import d k text : good d k -> good (import_plain_text d text) (plain_content text).
Proof.
  intros (ps0 & W0 & _). destruct (import_full _ _ text W0) as (W & F & Hr & A & C1 & C2 & C3).
  set (d' := import_plain_text d text) in *. rewrite <- unify_normalize in *. set (t := unify false text) in *.
  set (ls := split_lines t) in *. set (is_ := ids_from (d_next d) (length ls)) in *. set (ps := combine is_ ls) in *.
  assert (L : length is_ = length ls) by apply ids_from_length.
  assert (Sn : map snd ps = ls).
  { unfold ps. clear - L. clearbody is_ ls. revert ls L; induction is_ as [|i is_ IH]; intros [|l ls] L; cbn in *; try easy. f_equal. apply IH. lia. }
  assert (Lp : length ps = length ls) by (now rewrite <- (map_length snd), Sn).
  assert (I : items_of (d_runs d') ps = text_items t).
  { rewrite items_default; [|exact Hr|rewrite Sn; apply split_no_nl]. rewrite Sn. unfold ls. now rewrite split_join. }
  destruct (count_items (d_runs d') ps (wf_ne _ _ W)) as [K1 K2]. rewrite I in K1, K2.
  exists ps. split; [exact W|]. unfold plain_content. fold t. rewrite I, A, C1, C2, K1, K2, Lp, (sum_csum ls is_ L). easy.
Qed.

Lemma clear_get m us rs : get_stack m 1 = Some (us, rs) ->
  get_stack (m_clear m 1) 1 = Some ([], []) /\ open (m_clear m 1) = open m /\ level (m_clear m 1) = level m /\ owner (m_clear (C := cmd) m 1) = owner m.
Proof. intros E. unfold m_clear. rewrite E, get_set. easy. Qed.

Lemma tracks_step s h c : tracks s h -> call_fits h c -> exists s' h', s_step s c = Ok s' /\ hstep h c h' /\ tracks s' h'.
Proof.
  destruct s as [d m]. intros T F. destruct c as [e t|set q p a|q p a| | | | | |text]; cbn [s_step]; try easy.
  - destruct (tracks_edit _ _ _ _ T F) as (s' & q & h' & -> & H & T'). cbn [bind]. eauto.
  - destruct (tracks_undo _ _ _ T F) as (d' & m' & h' & -> & H & T'). cbn [bind]. eauto.
  - destruct (tracks_redo _ _ _ T F) as (d' & m' & h' & -> & H & T'). cbn [bind]. eauto.
  - eexists _, _. split; [reflexivity|]. split; [reflexivity|]. now apply tracks_begin.
  - destruct (tracks_end _ _ _ T) as (m' & -> & h' & H & T'). cbn [bind]. eauto.
  - cbn [call_fits] in F. destruct T as (G & O & us & rs & E & H). destruct (clear_get _ _ _ E) as (E1 & E2 & E3 & E4).
    rewrite F in H. destruct H as (Op & L & _).
    eexists _, _. split; [reflexivity|]. split; [reflexivity|]. split; [exact G|]. split; [unfold owned; now rewrite E4|].
    exists [], []. cbn [block past now future]. rewrite F, E2, E3. easy.
  - cbn [call_fits] in F. destruct T as (G & O & us & rs & E & H). destruct (clear_get _ _ _ E) as (E1 & E2 & E3 & E4).
    rewrite F in H. destruct H as (Op & L & _).
    eexists _, _. split; [reflexivity|]. split; [reflexivity|]. split; [eapply good_import; eauto|]. split; [unfold owned; now rewrite E4|].
    exists [], []. cbn [block past now future]. rewrite F, E2, E3. easy.
Qed.

Lemma session_theorem cs : forall s h, tracks s h -> calls_fit h cs ->
  exists s' h', s_run s cs = Ok s' /\ hrun h cs h' /\ tracks s' h'.
Proof.
  induction cs as [|c cs IH]; intros s h T F; cbn.
  - eauto.
  - destruct F as [F1 F2]. destruct (tracks_step _ _ _ T F1) as (s1 & h1 & -> & H1 & T1). cbn [bind].
    destruct (IH _ _ T1 (F2 _ H1)) as (s' & h' & E & H & T'). eauto 10.
Qed.
Lemma session_from_new cs : calls_fit first_history cs ->
  exists s h, s_run new_session cs = Ok s /\ hrun first_history cs h /\ at_history s h.
Proof.
  intros F. destruct (session_theorem cs _ _ tracks_new F) as (s & h & E & H & T). exists s, h. split; [easy|]. split; [easy|]. now apply tracks_at.
Qed.
