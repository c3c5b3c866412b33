(** Theorems about editing sessions, in the form the property files state them. *)
From Verif Require Import Base BaseFacts FormatRunsModel FormatRunsSpec FormatRunsFacts
  RopeModel RopeSpec RopeFacts DocModel DocSpec BlockFacts DocInv DocFacts DocAttr DocDelete DocBreak DocReplace
  DocImport DocFormat HistModel HistSpec DocReach DocHist PropSpec DocTheorems QueryTheorems UndoModel UndoFacts SessionModel SessionSpec SessionFacts SessionCmd SessionChain.

Lemma same_eq a b : doc_eq a b -> same_document a b.
Proof. intros []. now constructor. Qed.
Lemma reach_good d : reach d -> exists k, good d k.
Proof. intros R. destruct (reach_wf _ R) as [ps W]. eexists. exists ps. split; [exact W|reflexivity]. Qed.

(** ** One edit, undone and redone *)

Lemma entry_one t e d m k rs : good d k -> ready e k -> direct e (k_items k) -> open m = None -> get_stack m 1 = Some ([], rs) ->
  exists d' c, do_edit t e d = Ok (d', Z.of_nat (edit_cursor e (k_items k)), c)
    /\ get_stack (record m c) 1 = Some ([One c], []) /\ gchain (cmds (One c)) d d' k (after e k) /\ good d' (after e k).
Proof.
  intros G R D Op E. destruct (do_good t _ _ _ G R D) as (d' & c & X & G' & M & Rp & N & _). exists d', c. split; [exact X|].
  unfold record, m_add. rewrite Op. cbn [sid here]. rewrite E. cbn [fst]. rewrite get_set. split; [easy|]. split; [|easy].
  exists d', (after e k). easy.
Qed.
Lemma entry_two t e d m k rs p a : good d k -> ready e k -> ends e = (p, a) -> p <> a ->
  open m = None -> level m = 0 -> owned m -> get_stack m 1 = Some ([], rs) ->
  (match e with ERemove _ _ => False | _ => True end) ->
  exists d1 c1 d2 c2 m' np2,
    do_delete t (Z.of_nat p) (Z.of_nat a) d = Ok (d1, Z.of_nat (Nat.min p a), c1)
    /\ do_edit t (at_point e (Nat.min p a)) d1 = Ok (d2, Z.of_nat np2, c2)
    /\ m_end (record (record (fst (m_begin m here)) c1) c2) = Ok m'
    /\ get_stack m' 1 = Some ([Group [c1; c2]], []) /\ gchain [c1; c2] d d2 k (after e k) /\ good d2 (after e k).
Proof.
  intros G R He Hpa Op L O E Hne.
  assert (Hr : Nat.max p a <= length (k_items k)).
  { destruct R as [_ R]. destruct e; cbn in He, R; injection He as -> ->; easy. }
  assert (R1 : ready (ERemove p a) k) by (split; easy).
  destruct (do_good t _ _ _ G R1 Hpa) as (d1 & c1 & X1 & G1 & M1 & Rp1 & N1 & _).
  set (e2 := at_point e (Nat.min p a)).
  assert (R2 : ready e2 (after (ERemove p a) k)).
  { split; [destruct R as [R _]; unfold e2; destruct e; easy|]. destruct (lo_min _ _ _ Hr) as [L1 L2].
    assert (snd (edit_range e2) = Nat.min p a) as -> by (unfold e2; destruct e; cbn; now rewrite Nat.max_id).
    cbn [after k_items spec_edit]. unfold spec_delete. rewrite app_length, firstn_length, skipn_length. lia. }
  assert (D2 : direct e2 (k_items (after (ERemove p a) k))).
  { unfold e2. destruct e; cbn [at_point direct]; rewrite ?lo_same, ?hi_same; easy. }
  destruct (do_good t _ _ _ G1 R2 D2) as (d2 & c2 & X2 & G2 & M2 & Rp2 & N2 & _).
  unfold e2 in G2, Rp2. rewrite (after_split e p a k He Hr) in G2, Rp2.
  cbn [do_edit edit_cursor] in X1. exists d1, c1, d2, c2.
  unfold m_begin.
  assert (Cl : match owner m, here with None, _ => false | Some a, Some b => negb (a =? b)%N | Some _, None => true end = false).
  { destruct O as [-> | ->]; easy. }
  rewrite Cl, Op, L. cbn [fst sid here].
  unfold record, m_add. cbn [open stacks next_stack level owner sid here fst]. rewrite N.eqb_refl. cbn [fst open stacks next_stack level owner]. rewrite N.eqb_refl. cbn [fst].
  unfold m_end. cbn [level pred open owner stacks next_stack app sid]. unfold get_stack at 1. cbn [stacks here sid]. unfold get_stack in E. rewrite E.
  eexists _, _. split; [exact X1|]. split; [exact X2|]. split; [reflexivity|]. split; [now rewrite get_set|]. split; [|easy].
  exists d1, (after (ERemove p a) k). repeat (split; [easy|]). exists d2, (after e k). easy.
Qed.
Lemma edit_entry t e d m k rs : good d k -> ready e k -> no_change e = false ->
  open m = None -> level m = 0 -> owned m -> get_stack m 1 = Some ([], rs) ->
  exists d' m' q ent, s_edit t (d, m) e = Ok ((d', m'), Some q) /\ get_stack m' 1 = Some ([ent], [])
    /\ gchain (cmds ent) d d' k (after e k) /\ good d' (after e k).
Proof.
  intros G R Hnc Op L O E.
  pose proof (fun D => entry_one t e d m k rs G R D Op E) as Dir.
  pose proof (fun p a He Hpa => entry_two t e d m k rs p a G R He Hpa Op L O E) as Two.
  destruct e as [p a text|p a text x|p a|p a]; cbn [s_edit s_insert s_break s_remove]; cbn [direct do_edit at_point ends] in Dir, Two.
  - destruct (Nat.eq_dec (breaks (lo (k_items k) p a) (k_items k)) (breaks (hi (k_items k) p a) (k_items k))) as [D|D].
    + destruct (Dir D) as (d' & c & -> & H & C & G'). rewrite to_usize_nat. cbn [bind]. eauto 10.
    + assert (Hpa : p <> a) by (intros ->; now rewrite lo_same, hi_same in D).
      destruct (Two p a eq_refl Hpa I) as (d1 & c1 & d2 & c2 & m' & np2 & E1 & E2 & E3 & H & C & G').
      pose proof G as (ps & W & Ek). rewrite Ek in D. cbn [k_items] in D.
      destruct (across _ _ _ _ W D) as [Cr _]. unfold do_insert at 1, exec_insert at 1.
      rewrite eqb_Z, (proj2 (Nat.eqb_neq _ _) Hpa), Cr. cbn [bind]. rewrite E1, to_usize_nat. cbn [bind]. rewrite E2, E3. cbn [bind].
      rewrite to_usize_nat. cbn [bind]. eexists _, _, _, (Group [c1; c2]). eauto 10.
  - destruct (Nat.eq_dec (breaks (lo (k_items k) p a) (k_items k)) (breaks (hi (k_items k) p a) (k_items k))) as [D|D].
    + destruct (Dir D) as (d' & c & -> & H & C & G'). rewrite to_usize_nat. cbn [bind]. eauto 10.
    + assert (Hpa : p <> a) by (intros ->; now rewrite lo_same, hi_same in D).
      destruct (Two p a eq_refl Hpa I) as (d1 & c1 & d2 & c2 & m' & np2 & E1 & E2 & E3 & H & C & G').
      pose proof G as (ps & W & Ek). rewrite Ek in D. cbn [k_items] in D.
      destruct (across _ _ _ _ W D) as [_ Cr]. unfold do_insert_fmt at 1, exec_insert_fmt at 1.
      rewrite eqb_Z, (proj2 (Nat.eqb_neq _ _) Hpa), Cr. cbn [bind]. rewrite E1, to_usize_nat. cbn [bind]. rewrite E2, E3. cbn [bind].
      rewrite to_usize_nat. cbn [bind]. eexists _, _, _, (Group [c1; c2]). eauto 10.
  - destruct (Nat.eqb_spec p a) as [D|Hpa].
    + destruct (Dir D) as (d' & c & -> & H & C & G'). rewrite to_usize_nat. cbn [bind]. eauto 10.
    + destruct (Two p a eq_refl Hpa I) as (d1 & c1 & d2 & c2 & m' & np2 & E1 & E2 & E3 & H & C & G').
      rewrite E1, to_usize_nat. cbn [bind]. rewrite E2, E3. cbn [bind]. rewrite to_usize_nat. cbn [bind]. eexists _, _, _, (Group [c1; c2]). eauto 10.
  - cbn [no_change] in Hnc. rewrite Hnc. apply Nat.eqb_neq in Hnc. destruct (Dir Hnc) as (d' & c & -> & H & C & G'). rewrite to_usize_nat. cbn [bind]. eauto 10.
Qed.

(** Undo and redo of the only entry. *)
Lemma entry_round d d1 m1 ent k k1 rs : get_stack m1 1 = Some ([ent], rs) -> gchain (cmds ent) d d1 k k1 -> good d k ->
  exists d2 m2 d3 m3,
    s_step (d1, m1) UndoCall = Ok (d2, m2) /\ same_document d2 d /\ can_undo m2 here = false /\ can_redo m2 here = true
    /\ s_step (d2, m2) RedoCall = Ok (d3, m3) /\ shows d3 k1.
Proof.
  intros E C G. destruct (undo_chain _ _ _ _ _ d1 C (doc_eq_refl _) (N.le_refl _)) as (d2 & U & Eq & N2).
  assert (Xe : undo_entry undo_cmd d1 ent = Ok (d2, true)) by (destruct ent; cbn [cmds undo_entry rev app] in *; exact U).
  pose proof (gchain_next _ _ _ _ _ C) as N1. cbn [s_step]. unfold m_undo. cbn [here sid]. rewrite E, Xe. cbn [bind].
  assert (G2 : good d2 k) by (apply (good_eq d); [easy|easy|lia]).
  destruct (redo_chain _ _ _ _ (gchain_rchain _ _ _ _ _ C) G2) as (x & cs' & X & C' & G' & K).
  assert (Xr : exists e', redo_entry redo_cmd d2 ent = Ok (x, e', true)).
  { destruct ent as [c|cs]; cbn [cmds redo_entry] in *; rewrite X; cbn [bind].
    - destruct cs' as [|c' [|? ?]]; cbn in K; try easy. eauto.
    - eauto. }
  destruct Xr as (e' & Xr). eexists d2, _, x, _. split; [reflexivity|]. split; [now apply same_eq|].
  unfold can_undo, can_redo, m_redo. cbn [here sid]. rewrite get_set. cbn [N.eqb Pos.eqb]. split; [easy|]. split; [easy|].
  rewrite Xr. cbn [bind]. split; [reflexivity|]. now apply good_shows.
Qed.

Lemma edit_undo_theorem d e t its : reach d -> edit_ok e -> doc_items d = Ok its -> snd (edit_range e) <= length its ->
  no_change e = false ->
  exists d1 m1 d2 m2 d3 m3 k,
    s_step (d, new_history) (Edit e t) = Ok (d1, m1) /\ shows d1 k /\ k_items k = spec_edit e its
    /\ s_step (d1, m1) UndoCall = Ok (d2, m2) /\ same_document d2 d
    /\ s_step (d2, m2) RedoCall = Ok (d3, m3) /\ shows d3 k.
Proof.
  intros Hr Hok Hi Hin Hnc. destruct (reach_good _ Hr) as (k & G).
  assert (Ek : k_items k = its) by (destruct (good_shows _ _ G) as [H _]; congruence).
  assert (R : ready e k) by (split; [easy|now rewrite Ek]).
  destruct (edit_entry t e d new_history k [] G R Hnc eq_refl eq_refl (or_introl eq_refl) eq_refl)
    as (d1 & m1 & q & ent & E1 & S1 & C & G1).
  destruct (entry_round _ _ _ _ _ _ _ S1 C G) as (d2 & m2 & d3 & m3 & U & Sd & _ & _ & Rd & Sh).
  exists d1, m1, d2, m2, d3, m3, (after e k). cbn [s_step] in *. rewrite E1. cbn [bind].
  split; [easy|]. split; [now apply good_shows|]. split; [cbn; now rewrite Ek|]. easy.
Qed.

(** ** Formatting, undone and redone *)

Record alike (a b : doc) : Prop := {
  al_rs : d_rs a = d_rs b; al_blocks : d_blocks a = d_blocks b; al_f : d_fblocks a = d_fblocks b;
  al_o : d_order a = d_order b; al_c : d_chars a = d_chars b; al_n : d_nblocks a = d_nblocks b;
  al_runs : forall i, d_runs a i = d_runs b i; al_images : forall i, d_images a i = d_images b i
}.
Lemma alike_eq a b : alike a b -> doc_eq a b.
Proof. intros []. constructor; auto; now rewrite al_rs0. Qed.
Lemma alike_set a b i r im : alike a b -> alike (set_images (set_runs a i r) i im) (set_images (set_runs b i r) i im).
Proof. intros []. constructor; cbn; auto; intros j; unfold upd; destruct (N.eqb j i); auto. Qed.
Lemma format_blocks_alike m rs re bs : forall a b a' ivs, alike a b -> format_blocks m rs re bs a = Ok (a', ivs) ->
  exists b', format_blocks m rs re bs b = Ok (b', ivs) /\ alike a' b'.
Proof.
  induction bs as [|x bs IH]; intros a b a' ivs A E; cbn [format_blocks] in *.
  - injection E as <- <-. eauto.
  - unfold char_length in *. rewrite <- (al_rs _ _ A).
    destruct (block_char_length (d_rs a) (b_id x)) as [n| |]; cbn [bind] in *; try easy.
    destruct ((b_pos x + Z.of_nat n <=? rs)%Z || (re <=? b_pos x)%Z); [eauto|].
    destruct (block_char_to_byte_in_block (d_rs a) (b_id x) _) as [[u ?]| |]; cbn [bind] in *; try easy.
    destruct (block_char_to_byte_in_block (d_rs a) (b_id x) _) as [[v ?]| |]; cbn [bind] in *; try easy.
    destruct (v <=? u); [eauto|].
    set (a1 := set_images _ _ _) in E. set (b1 := set_images _ _ _).
    assert (A1 : alike a1 b1).
    { unfold a1, b1. cbn [d_images set_runs]. rewrite <- !(al_runs _ _ A), <- !(al_images _ _ A). now apply alike_set. }
    destruct (format_blocks m rs re bs a1) as [[a2 ivs2]| |] eqn:E2; cbn [bind] in E; try easy. injection E as <- <-.
    destruct (IH _ _ _ _ A1 E2) as (b2 & -> & A2). cbn [bind]. rewrite <- (al_runs _ _ A), <- (al_images _ _ A). eauto.
Qed.
Lemma get_multi_alike a b l : d_blocks a = d_blocks b -> get_multi a l = get_multi b l.
Proof. intros E. induction l as [|i l IH]; cbn; [easy|]. unfold get_block. now rewrite E, IH. Qed.
Lemma format_alike m a b p q a' ivs : alike a b -> format_text m a p q = Ok (a', ivs) ->
  exists b', format_text m b p q = Ok (b', ivs) /\ alike a' b'.
Proof.
  unfold format_text. intros A E. rewrite <- (al_f _ _ A), (get_multi_alike b a) by (symmetry; apply (al_blocks _ _ A)).
  destruct (_ =? _)%Z; [injection E as <- <-; eauto|]. eapply format_blocks_alike; eauto.
Qed.
Lemma exec_format_m st q : exists m, forall d p a, exec_format st q p a d = format_text m d p a.
Proof. destruct st; [exists (fun f => set_merge f q)|exists (fun f => merge_merge f q)]; easy. Qed.

Lemma format_undo_theorem d st q p a : reach d ->
  exists d1 m1 d2 m2 d3 m3,
    s_step (d, new_history) (Format st q p a) = Ok (d1, m1)
    /\ s_step (d1, m1) UndoCall = Ok (d2, m2) /\ same_document d2 d
    /\ s_step (d2, m2) RedoCall = Ok (d3, m3) /\ same_document d3 d1.
Proof.
  intros Hr. destruct (reach_wf _ Hr) as [ps W]. destruct (exec_format_m st q) as [m Hm].
  destruct (format_text_full m _ _ (Z.of_nat p) (Z.of_nat a) W) as (d1 & ivs & E & W1 & S & Eq & N & _).
  cbn [s_step]. unfold do_format. rewrite Hm, E. cbn [bind]. eexists d1, _, (apply_inverse d1 ivs), _.
  assert (Al : alike d (apply_inverse d1 ivs)).
  { pose proof (apply_inverse_sbr ivs d1 (sbr_images _ _ S)) as Si. pose proof (sbr_trans _ _ _ S Si) as St.
    constructor; try (symmetry; apply St).
    - intros i. symmetry. apply (de_runs _ _ Eq).
    - intros i. symmetry. apply (de_images _ _ Eq). }
  destruct (format_alike _ _ _ _ _ _ _ Al E) as (d3 & E3 & A3). eexists d3, _.
  split; [reflexivity|]. split; [reflexivity|]. split; [now apply same_eq|].
  split; [|apply same_eq, doc_eq_sym, alike_eq, A3].
  unfold record, m_add, m_redo. cbn [new_history m_create new_manager fst open get_stack stacks lookup update next_stack sid here N.eqb Pos.eqb set_stack redo_entry redo_each redo_cmd].
  rewrite Hm, E3. cbn [bind]. reflexivity.
Qed.
Lemma block_format_undo_theorem d q p a : reach d ->
  exists d1 m1 d2 m2 m3,
    s_step (d, new_history) (BlockFormat q p a) = Ok (d1, m1)
    /\ s_step (d1, m1) UndoCall = Ok (d2, m2) /\ same_document d2 d
    /\ s_step (d2, m2) RedoCall = Ok (d1, m3).
Proof.
  intros Hr. destruct (reach_wf _ Hr) as [ps W].
  destruct (set_block_format_full q _ _ (Z.of_nat p) (Z.of_nat a) W) as (d1 & E & W1 & _ & _ & _ & _ & N & _).
  cbn [s_step]. unfold do_block_format. rewrite E. cbn [bind]. eexists d1, _, (restore_snapshot d1 d), _, _.
  assert (Rs : restore_snapshot d1 d = d) by (unfold restore_snapshot; rewrite N; now destruct d).
  split; [reflexivity|]. split; [reflexivity|]. split; [rewrite Rs; apply same_eq, doc_eq_refl|].
  unfold record, m_add, m_redo. cbn [new_history m_create new_manager fst open get_stack stacks lookup update next_stack sid here N.eqb Pos.eqb set_stack redo_entry redo_each redo_cmd].
  rewrite Rs, E. cbn [bind]. reflexivity.
Qed.

(** ** Undoing and redoing n times *)

Lemma s_run_app cs : forall cs' s, s_run s (cs ++ cs') = let! s1 := s_run s cs in s_run s1 cs'.
Proof. induction cs as [|c cs IH]; intros cs' s; cbn; [easy|]. destruct (s_step s c); cbn [bind]; auto. Qed.
Lemma undos n : forall h, block h = None ->
  exists h', hrun h (repeat UndoCall n) h' /\ (forall h2, hrun h (repeat UndoCall n) h2 -> h2 = h') /\ block h' = None
    /\ exists l, l = Nat.min n (length (past h))
      /\ forall h2, hrun h' (repeat RedoCall l) h2 -> h2 = h.
Proof.
  induction n as [|n IH]; intros h Hb; cbn [repeat hrun].
  - exists h. split; [easy|]. split; [easy|]. split; [easy|]. exists 0. split; [easy|]. cbn. easy.
  - cbn [hstep]. destruct h as [pa nw fu bl]. cbn [past now future block] in *. subst bl. destruct pa as [|[k0 m0] pa].
    + destruct (IH (mk_history [] nw fu None) eq_refl) as (h' & H1 & H2 & H3 & l & L & H4). cbn [past length] in L.
      exists h'. split; [eauto|]. split; [intros h2 (h1 & -> & H); auto|]. split; [easy|]. exists l. split; [cbn [length]; lia|easy].
    + destruct (IH (mk_history pa k0 ((m0, nw) :: fu) None) eq_refl) as (h' & H1 & H2 & H3 & l & L & H4). cbn [past future length] in *.
      exists h'. split; [eauto|]. split; [intros h2 (h1 & -> & H); auto|]. split; [easy|]. exists (S l).
      split; [lia|]. intros h2 H. replace (S l) with (l + 1) in H by lia. rewrite repeat_app in H.
      assert (Ap : forall cs cs' a b, hrun a (cs ++ cs') b -> exists c, hrun a cs c /\ hrun c cs' b).
      { clear. induction cs as [|c cs IH]; intros cs' a b; cbn; [eauto|]. intros (h1 & S & H). destruct (IH _ _ _ H) as (x & X1 & X2). eauto. }
      apply Ap in H. destruct H as (h1 & K1 & K2). apply H4 in K1. subst h1. cbn in K2. destruct K2 as (h3 & -> & ->). easy.
Qed.
Lemma redos_stay n : forall h, block h = None -> future h = [] -> forall h2, hrun h (repeat RedoCall n) h2 -> h2 = h.
Proof. induction n as [|n IH]; intros h Hb Hf h2; cbn; [easy|]. rewrite Hf. intros (h1 & -> & H). auto. Qed.
Lemma fits_undo n : forall h, block h = None -> calls_fit h (repeat UndoCall n).
Proof.
  induction n as [|n IH]; intros h Hb; cbn; [easy|]. split; [easy|]. intros h'.
  destruct (past h) as [|[k m] pa]; intros ->; now apply IH.
Qed.
Lemma fits_redo n : forall h, block h = None -> calls_fit h (repeat RedoCall n).
Proof.
  induction n as [|n IH]; intros h Hb; cbn; [easy|]. split; [easy|]. intros h'.
  destruct (future h) as [|[k m] pa]; intros ->; now apply IH.
Qed.
Lemma shows_unique d k k' : shows d k -> shows d k' -> k = k'.
Proof. destruct k, k'. unfold shows. cbn. intros (A & B & C & D) (A' & B' & C' & D'). congruence. Qed.

Lemma hrun_redo_split n l : forall h h', hrun h (repeat RedoCall (n + l)) h' ->
  exists h1, hrun h (repeat RedoCall n) h1 /\ hrun h1 (repeat RedoCall l) h'.
Proof.
  induction n as [|n IH]; intros h h' H; cbn in *; [eauto|]. destruct H as (h1 & S & H). destruct (IH _ _ H) as (h2 & A & B). eauto.
Qed.
Lemma back_and_forth_theorem cs n s : calls_fit first_history cs -> s_run new_session cs = Ok s ->
  (forall h, hrun first_history cs h -> block h = None) -> can_redo (snd s) here = false ->
  exists s', s_run s (repeat UndoCall n ++ repeat RedoCall n) = Ok s' /\ (forall k, shows (fst s) k -> shows (fst s') k)
    /\ can_undo (snd s') here = can_undo (snd s) here /\ can_redo (snd s') here = false.
Proof.
  intros F E Hb Hr. destruct (session_theorem cs _ _ tracks_new F) as (s0 & h & E0 & H & T).
  rewrite E in E0. injection E0 as <-. specialize (Hb _ H). pose proof (tracks_at _ _ T) as (Sh & Cu & Cr).
  assert (Hf : future h = []) by (rewrite Hr in Cr; now destruct (future h)).
  destruct (session_theorem (repeat UndoCall n) _ _ T (fits_undo n h Hb)) as (s1 & h1 & E1 & H1 & T1).
  destruct (undos n h Hb) as (h' & U1 & U2 & U3 & l & L & U4). apply U2 in H1. subst h1.
  destruct (session_theorem (repeat RedoCall n) _ _ T1 (fits_redo n h' U3)) as (s2 & h2 & E2 & H2 & T2).
  exists s2. rewrite s_run_app, E1. cbn [bind]. split; [exact E2|].
  assert (h2 = h).
  { replace n with (l + (n - l)) in H2 by lia. apply hrun_redo_split in H2. destruct H2 as (h3 & A & B).
    apply U4 in A. subst h3. eapply redos_stay; eauto. }
  subst h2. pose proof (tracks_at _ _ T2) as (Sh2 & Cu2 & Cr2). split; [|split; congruence].
  intros k Hk. now rewrite (shows_unique _ _ _ Hk Sh).
Qed.
