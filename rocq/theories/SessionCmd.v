(** The commands of the undo stack: what links a command to the documents before
    and after it. *)
From Verif Require Import Base BaseFacts FormatRunsModel FormatRunsSpec FormatRunsFacts
  RopeModel RopeSpec RopeFacts DocModel DocSpec BlockFacts DocInv DocFacts DocAttr DocDelete DocBreak DocReplace
  DocImport DocFormat HistModel HistSpec DocReach DocHist PropSpec DocTheorems UndoModel UndoFacts SessionModel SessionSpec SessionFacts.

(** ** Two edits in one *)

Lemma last_fmt_chars l text : last_fmt (l ++ map (fun c => Chr c (last_fmt l)) text) = last_fmt l.
Proof.
  unfold last_fmt at 1. rewrite rev_app_distr, <- map_rev. destruct (rev text) as [|c r]; [|easy]. cbn.
  unfold last_fmt. easy.
Qed.
Lemma insert_insert n its text text' : n <= length its ->
  spec_insert (n + length text) text' (spec_insert n text its) = spec_insert n (text ++ text') its.
Proof.
  intros Hn. unfold spec_insert. set (f := last_fmt (firstn n its)).
  set (ins := map (fun c => Chr c f) text).
  assert (L : length (firstn n its ++ ins) = n + length text).
  { unfold ins. rewrite app_length, map_length, firstn_length. lia. }
  rewrite (app_assoc _ ins). rewrite firstn_exact by easy. rewrite skipn_exact by easy.
  unfold ins, f. rewrite last_fmt_chars. now rewrite map_app, <- !app_assoc.
Qed.
Lemma insert_length n its text : n <= length its -> length (spec_insert n text its) = length its + length text.
Proof. intros Hn. unfold spec_insert. rewrite !app_length, map_length, firstn_length, skipn_length. lia. Qed.
Lemma attrs_at {A} its p text (l : list A) : edit_attrs (EInsert p p text) its l = l.
Proof. unfold edit_attrs. cbn [edit_range]. rewrite Nat.min_id, Nat.max_id. apply attrs_point. Qed.

Lemma after_typing p text text' k :
  let q := edit_cursor (EInsert p p text) (k_items k) in
  after (EInsert q q text') (after (EInsert p p text) k) = after (EInsert p p (text ++ text')) k.
Proof.
  intros q. unfold after. cbn [k_items k_attrs k_chars k_paras]. rewrite !attrs_at.
  assert (I : spec_edit (EInsert q q text') (spec_edit (EInsert p p text) (k_items k)) = spec_edit (EInsert p p (text ++ text')) (k_items k)).
  { unfold q. cbn [spec_edit edit_cursor]. rewrite !lo_same, !hi_same, !spec_delete_none.
    set (n := Nat.min p _). assert (Hn : n <= length (k_items k)) by (unfold n; lia).
    rewrite insert_length by easy. rewrite Nat.min_l by lia. now apply insert_insert. }
  rewrite I. f_equal; lia.
Qed.

Lemma breaks_cut n s e its : n <= s -> s <= length its -> breaks n (spec_delete s e its) = breaks n its.
Proof.
  intros Hn Hs. unfold breaks, spec_delete. rewrite firstn_app, firstn_firstn, firstn_length.
  replace (n - Nat.min s (length its)) with 0 by lia. rewrite Nat.min_l by easy. cbn [firstn]. now rewrite app_nil_r.
Qed.
Lemma breaks_next n its : breaks (S n) its = breaks n its + length (filter is_break (firstn 1 (skipn n its))).
Proof.
  unfold breaks. replace (S n) with (n + 1) by lia. rewrite <- (firstn_skipn n its) at 1.
  rewrite firstn_app, firstn_firstn, firstn_length. replace (Nat.min (n + 1) n) with n by lia.
  rewrite filter_app, app_length. f_equal. f_equal. f_equal.
  destruct (Nat.le_ge_cases n (length its)).
  - f_equal. lia.
  - now rewrite skipn_all2, !firstn_nil by easy.
Qed.
Lemma skipn_add {A} n m (l : list A) : skipn n (skipn m l) = skipn (n + m) l.
Proof. revert l. induction m; intros l; [now rewrite Nat.add_0_r|]. destruct l; [now rewrite !skipn_nil|].
  replace (n + S m) with (S (n + m)) by lia. cbn [skipn]. apply IHm. Qed.
Lemma skipn_past {A} n m j (l : list A) : n <= m ->
  skipn (n + j) (firstn n l ++ skipn m l) = skipn (m + j) l.
Proof.
  intros Hnm. rewrite skipn_app, firstn_length. destruct (Nat.le_ge_cases n (length l)) as [H|H].
  - rewrite Nat.min_l by easy. rewrite skipn_all2 by (rewrite firstn_length; lia). cbn [app].
    replace (n + j - n) with j by lia. rewrite skipn_add. f_equal. lia.
  - rewrite !(skipn_all2 l) by lia. rewrite skipn_nil, app_nil_r. rewrite skipn_all2; [easy|]. rewrite firstn_length. lia.
Qed.
Lemma firstn_cut {A} n m j (l : list A) : n <= m -> m <= j -> firstn n (firstn m l ++ skipn j l) = firstn n l.
Proof.
  intros H Hj. destruct (Nat.le_ge_cases m (length l)) as [L|L].
  - rewrite firstn_app, firstn_firstn, firstn_length, Nat.min_l by easy. replace (n - Nat.min m (length l)) with 0 by lia.
    cbn. now rewrite app_nil_r.
  - rewrite (firstn_all2 l L), (skipn_all2 l) by lia. now rewrite app_nil_r.
Qed.
Lemma breaks_mono n m its : n <= m -> breaks n its <= breaks m its.
Proof.
  intros H. unfold breaks. rewrite <- (firstn_skipn n (firstn m its)), firstn_firstn, Nat.min_l by easy.
  rewrite filter_app, app_length. lia.
Qed.

(** Deleting [s..e) and then [s'..e') is deleting [s'..e''). *)
Lemma after_two p a p' a' p2 a2 k :
  Nat.max p a <= length (k_items k) ->
  Nat.max p' a' <= length (spec_delete (Nat.min p a) (Nat.max p a) (k_items k)) ->
  Nat.min p' a' <= Nat.min p a -> Nat.min p a <= Nat.max p' a' ->
  Nat.min p2 a2 = Nat.min p' a' -> Nat.max p2 a2 = Nat.max p a + (Nat.max p' a' - Nat.min p a) ->
  after (ERemove p' a') (after (ERemove p a) k) = after (ERemove p2 a2) k.
Proof.
  intros H1 H2 H3 H4 H5 H6. unfold after. cbn [k_items k_attrs k_chars k_paras spec_edit].
  set (its := k_items k) in *. destruct (lo_min its p a H1) as [-> ->].
  set (s := Nat.min p a) in *. set (e := Nat.max p a) in *.
  destruct (lo_min _ p' a' H2) as [L2 L3].
  assert (Hse : s <= e) by (unfold s, e; lia).
  assert (Hl : length (spec_delete s e its) = length its - (e - s)).
  { unfold spec_delete. rewrite app_length, firstn_length, skipn_length. lia. }
  assert (H7 : Nat.max p2 a2 <= length its) by lia.
  destruct (lo_min its p2 a2 H7) as [-> ->]. rewrite H5, H6.
  assert (I : spec_delete (Nat.min p' a') (Nat.max p' a') (spec_delete s e its)
              = spec_delete (Nat.min p' a') (e + (Nat.max p' a' - s)) its).
  { unfold spec_delete. f_equal.
    - apply firstn_cut; lia.
    - replace (Nat.max p' a') with (s + (Nat.max p' a' - s)) at 1 by lia. now apply skipn_past. }
  rewrite L2, L3, I. f_equal; [|lia|lia].
  unfold edit_attrs. cbn [edit_range].
  destruct (min_max_lo its p a) as [-> ->]. destruct (min_max_lo its p2 a2) as [-> ->].
  destruct (min_max_lo (spec_delete s e its) p' a') as [-> ->]. rewrite L2, L3.
  destruct (lo_min its p a H1) as [-> ->]. destruct (lo_min its p2 a2 H7) as [-> ->]. rewrite H5, H6.
  fold s e. rewrite (breaks_cut (Nat.min p' a')) by lia.
  set (j := Nat.max p' a' - s) in *. replace (Nat.max p' a') with (s + j) by lia.
  assert (B : breaks (s + j) (spec_delete s e its) + breaks e its = breaks s its + breaks (e + j) its).
  { clearbody j. clear - Hse H1. induction j as [|j IH]; [rewrite !Nat.add_0_r, breaks_cut by lia; lia|].
    rewrite !Nat.add_succ_r, !breaks_next.
    assert (E : skipn (s + j) (spec_delete s e its) = skipn (e + j) its) by (now apply skipn_past). rewrite E. lia. }
  pose proof (breaks_mono s e its Hse). pose proof (breaks_mono e (e + j) its ltac:(lia)).
  pose proof (breaks_mono (Nat.min p' a') s its H3).
  f_equal.
  - apply firstn_cut; lia.
  - replace (S (breaks (s + j) (spec_delete s e its))) with (S (breaks s its) + (breaks (e + j) its - breaks e its)) by lia.
    rewrite skipn_past by lia. f_equal. lia.
Qed.

(** ** Commands *)

(** The request a command repeats, and the data it kept about the result. *)
Definition request (c : cmd) (e : edit) (q : nat) : Prop :=
  match c, e with
  | CInsert p a text np t over u, EInsert p' a' text' =>
      p = Z.of_nat p' /\ a = Z.of_nat a' /\ text = text' /\ np = Z.of_nat q /\ over = negb (p' =? a')
      /\ (p' = a' -> exists su, u = USimple su)
  | CInsertFmt p a text x _, EInsertFmt p' a' text' x' => p = Z.of_nat p' /\ a = Z.of_nat a' /\ text = text' /\ x = x'
  | CDelete p a np _ _ _ _, ERemove p' a' => p = Z.of_nat p' /\ a = Z.of_nat a' /\ np = Z.of_nat q
  | CBreak p _, EBreak p' a' => p = Z.of_nat p' /\ p' = a'
  | _, _ => False
  end.
Definition replay (c : cmd) (k k' : content) : Prop :=
  exists e, request c e (edit_cursor e (k_items k)) /\ ready e k /\ direct e (k_items k) /\ k' = after e k.
Definition made (c : cmd) (d0 d : doc) : Prop :=
  match c with
  | CInsert _ _ _ np _ _ u => undoes u (Z.to_nat np) d0 d
  | CInsertFmt _ _ _ _ u => exists q, undoes u q d0 d
  | CDelete _ _ _ _ _ _ snap | CBreak _ snap => doc_eq snap d0
  | _ => False
  end.
Definition cmark (c : cmd) : mark :=
  match c with
  | CInsert _ _ _ np t over _ => if over then Replaced (Z.to_nat np) t else Typed (Z.to_nat np) t
  | CDelete p a np _ t single _ => if single then Erased (Z.to_nat np) (a <? p)%Z t else Other
  | _ => Other
  end.

Definition do_edit (t : N) (e : edit) (d : doc) : res (doc * Z * cmd) :=
  match e with
  | EInsert p a text => do_insert t (Z.of_nat p) (Z.of_nat a) text d
  | EInsertFmt p a text x => do_insert_fmt (Z.of_nat p) (Z.of_nat a) text x d
  | EBreak p _ => do_break (Z.of_nat p) d
  | ERemove p a => do_delete t (Z.of_nat p) (Z.of_nat a) d
  end.

Lemma eqb_Z p a : (Z.of_nat p =? Z.of_nat a)%Z = (p =? a).
Proof. destruct (Nat.eqb_spec p a); lia. Qed.
Lemma ltb_Z p a : (Z.of_nat p <? Z.of_nat a)%Z = (p <? a).
Proof. destruct (Nat.ltb_spec p a); lia. Qed.
Lemma single_Z p a : (Z.abs (Z.of_nat p - Z.of_nat a) =? 1)%Z = (Nat.max p a - Nat.min p a =? 1).
Proof. destruct (Nat.eqb_spec (Nat.max p a - Nat.min p a) 1); lia. Qed.

Lemma do_good t e d k : good d k -> ready e k -> direct e (k_items k) ->
  exists d' c, do_edit t e d = Ok (d', Z.of_nat (edit_cursor e (k_items k)), c)
    /\ good d' (after e k) /\ made c d d' /\ replay c k (after e k) /\ (d_next d <= d_next d')%N
    /\ cmark c = mark_of e t (k_items k).
Proof.
  intros G R D. destruct e as [p a text|p a text x|p a|p a]; cbn [do_edit].
  - destruct (exec_insert_good _ _ _ _ _ G R D) as (d' & u & E & G' & U & N & Hs).
    unfold do_insert. rewrite E. cbn [bind]. eexists d', _. split; [reflexivity|]. split; [exact G'|].
    split; [cbn [made]; now rewrite Nat2Z.id|]. split; [|split; [exact N|]].
    + exists (EInsert p a text). cbn [request]. rewrite eqb_Z. split; [|easy]. repeat (split; [easy|]). exact Hs.
    + cbn [cmark mark_of]. rewrite eqb_Z, Nat2Z.id. cbn [direct] in D. rewrite D, Nat.eqb_refl. cbn [edit_cursor].
      destruct (p =? a); easy.
  - destruct (exec_fmt_good _ _ _ _ _ _ G R D) as (d' & u & q & E & G' & U & N).
    unfold do_insert_fmt. rewrite E. cbn [bind]. eexists d', _. split; [reflexivity|]. split; [exact G'|].
    split; [cbn [made]; eauto|]. split; [|split; [exact N|easy]].
    exists (EInsertFmt p a text x). cbn [request]. easy.
  - cbn [direct] in D. subst a. destruct R as [_ R]. cbn [edit_range snd] in R.
    destruct (exec_break_good _ _ p G ltac:(lia)) as (d' & i & E & G' & N).
    unfold do_break. rewrite E. cbn [bind]. eexists d', _. cbn [edit_cursor]. rewrite lo_same, Nat.min_l by lia.
    split; [reflexivity|]. split; [exact G'|]. split; [apply doc_eq_refl|]. split; [|split; [exact N|easy]].
    exists (EBreak p p). split; [easy|]. split; [|easy]. split; [easy|]. cbn [edit_range snd]. lia.
  - cbn [direct] in D. destruct (exec_delete_good _ _ _ _ G R D) as (d' & cut & E & G' & N).
    unfold do_delete. rewrite E. cbn [bind]. eexists d', _. cbn [edit_cursor].
    split; [reflexivity|]. split; [exact G'|]. split; [apply doc_eq_refl|]. split; [|split; [exact N|]].
    + exists (ERemove p a). easy.
    + cbn [cmark mark_of]. rewrite single_Z, Nat2Z.id, ltb_Z. easy.
Qed.

Lemma undo_good c d0 d x : made c d0 d -> doc_eq x d -> (d_next d <= d_next x)%N ->
  exists x', undo_cmd x c = Ok x' /\ doc_eq x' d0 /\ d_next x' = d_next x.
Proof.
  assert (S : forall s, doc_eq s d0 -> exists x', Ok (restore_snapshot x s) = Ok x' /\ doc_eq x' d0 /\ d_next x' = d_next x).
  { intros s E. eexists. split; [reflexivity|]. split; [|easy]. destruct E. constructor; assumption. }
  assert (I : forall u q, undoes u q d0 d -> doc_eq x d -> (d_next d <= d_next x)%N ->
              exists x', undo_ins x u = Ok x' /\ doc_eq x' d0 /\ d_next x' = d_next x).
  { intros [su|s] q U E N; cbn [undoes undo_ins] in *; [|auto]. eapply inserted_undo, inserted_eq; eassumption. }
  intros M E N. destruct c; cbn [made undo_cmd] in *; try easy; eauto. destruct M as [q M]. eauto.
Qed.

Lemma redo_good c k k' x : replay c k k' -> good x k ->
  exists x' c', redo_cmd x c = Ok (x', c') /\ good x' k' /\ made c' x x' /\ replay c' k k'
    /\ cmark c' = cmark c /\ (d_next x <= d_next x')%N.
Proof.
  intros (e & Q & R & D & ->) G.
  destruct c as [p a text np t over u|p a text y u|p a np cut t single snap|p snap| |], e as [p' a' text'|p' a' text' y'|p' a'|p' a'];
    cbn [request] in Q; try easy; cbn [redo_cmd].
  - destruct Q as (-> & -> & -> & -> & -> & _). destruct (exec_insert_good _ _ _ _ _ G R D) as (d' & u' & E & G' & U & N & Hs).
    rewrite E. cbn [bind]. eexists d', _. split; [reflexivity|]. split; [exact G'|].
    split; [cbn [made]; now rewrite Nat2Z.id|]. split; [|easy]. exists (EInsert p' a' text'). easy.
  - destruct Q as (-> & -> & -> & ->). destruct (exec_fmt_good _ _ _ _ _ _ G R D) as (d' & u' & q & E & G' & U & N).
    rewrite E. cbn [bind]. eexists d', _. split; [reflexivity|]. split; [exact G'|].
    split; [cbn [made]; eauto|]. split; [|easy]. exists (EInsertFmt p' a' text' y'). easy.
  - destruct Q as (-> & -> & ->). destruct (exec_delete_good _ _ _ _ G R D) as (d' & cut' & E & G' & N).
    rewrite E. cbn [bind]. eexists d', _. split; [reflexivity|]. split; [exact G'|]. split; [apply doc_eq_refl|].
    split; [|easy]. exists (ERemove p' a'). easy.
  - destruct Q as (-> & <-). destruct (exec_break_good _ _ p' G) as (d' & i & E & G' & N).
    { destruct R as [_ R]. cbn [edit_range snd] in R. lia. }
    rewrite E. cbn [bind]. eexists d', _. split; [reflexivity|]. split; [exact G'|]. split; [apply doc_eq_refl|].
    split; [|easy]. exists (EBreak p' p'). easy.
Qed.

(** The next edit is not typing that continues a replaced selection. *)
Definition apart (m : mark) (e : edit) (t : N) : Prop :=
  match m, e with
  | Replaced q t0, EInsert p a _ => p = a -> p = q -> (2000 < t - t0)%N
  | _, _ => True
  end.

Lemma merge_good c d0 d k0 k t e d' q c' cc :
  good d k -> made c d0 d -> replay c k0 k -> ready e k -> direct e (k_items k) -> apart (cmark c) e t ->
  do_edit t e d = Ok (d', q, c') -> merge_cmd c c' = Some cc ->
  made cc d0 d' /\ replay cc k0 (after e k) /\ cmark cc = mark_of e t (k_items k) /\ joins (cmark c) e t.
Proof.
  intros G M (e0 & Q & R0 & D0 & ->) R D Ap E Hm.
  destruct c as [p a text np t0 over u|p a text y u|p a np cut t0 single snap|p snap| |], e0 as [p0 a0 text0|p0 a0 text0 y0|p0 a0|p0 a0];
    cbn [request] in Q; try easy; cbn [merge_cmd] in Hm.
  - destruct Q as (-> & -> & -> & -> & -> & Hs).
    destruct e as [p' a' text'|p' a' text' x'|p' a'|p' a']; cbn [do_edit] in E.
    2: { unfold do_insert_fmt in E. destruct (exec_insert_fmt _ _ _ _ _) as [[[? ?] ?]| |]; cbn in E; try easy. injection E as <- <- <-. easy. }
    2: { unfold do_break in E. destruct (insert_block _ _) as [[[? ?] ?]| |]; cbn in E; try easy. injection E as <- <- <-. easy. }
    2: { unfold do_delete in E. destruct (delete_text _ _ _) as [[[? ?] ?]| |]; cbn in E; try easy. injection E as <- <- <-. easy. }
    unfold do_insert in E. destruct (exec_insert _ _ _ _) as [[[d1 np1] u1]| |] eqn:X; cbn [bind] in E; try easy.
    injection E as -> -> <-. cbv beta iota in Hm.
    destruct (can_merge_insert _ _ _ _ _ _ _) eqn:CM; [|easy]. injection Hm as <-.
    unfold can_merge_insert in CM. rewrite !andb_true_iff in CM. destruct CM as ((((T & O) & P) & _) & _).
    rewrite negb_involutive, eqb_Z in O. apply Nat.eqb_eq in O. subst a'.
    apply Z.eqb_eq in P. apply Nat2Z.inj in P.
    destruct (Nat.eqb_spec p0 a0) as [<-|Hpa].
    2: { cbn [negb cmark apart] in Ap. rewrite Nat2Z.id in Ap. specialize (Ap eq_refl P). apply N.leb_le in T. lia. }
    destruct (Hs eq_refl) as [su ->]. cbn [made undoes] in M. rewrite Nat2Z.id in M.
    unfold exec_insert in X. rewrite Z.eqb_refl in X. destruct (insert_text_simple _ _ _) as [[[d2 np2] u2]| |] eqn:X2; cbn [bind] in X; try easy.
    injection X as -> -> <-. rewrite P in X2. destruct (inserted_twice _ _ _ _ _ _ _ _ M X2) as (uu & Hw & I).
    rewrite Hw. set (q0 := edit_cursor (EInsert p0 p0 text0) (k_items k0)) in *. subst p'.
    assert (Hq : q = Z.of_nat (q0 + length text')).
    { destruct M as (pre & b & tt & post & i & s & z & W & W1 & Hi & _ & _ & _ & _ & _ & _ & Hq0).
      destruct (op_inserted _ _ q0 text' W1) as (d3 & u3 & E3 & _). rewrite X2 in E3. injection E3 as _ -> _.
      f_equal. f_equal. rewrite ctotal_mid. unfold ins_text. rewrite !app_length, firstn_length, skipn_length. lia. }
    subst q. assert (Hc : edit_cursor (EInsert p0 p0 (text0 ++ text')) (k_items k0) = q0 + length text').
    { unfold q0. cbn [edit_cursor]. rewrite app_length. lia. }
    assert (L : lo (k_items (after (EInsert p0 p0 text0) k0)) q0 q0 = q0).
    { rewrite lo_same. destruct R as [_ R]. cbn [edit_range snd] in R. rewrite Nat.max_id in R. lia. }
    split; [|split; [|split]].
    + cbn [made undoes]. now rewrite Nat2Z.id.
    + exists (EInsert p0 p0 (text0 ++ text')). cbn [request]. rewrite Hc, Nat.eqb_refl. split; [|split; [|split]].
      * repeat (split; [easy|]). eauto.
      * destruct R0 as [R0 R1]. split; easy.
      * cbn [direct]. now rewrite lo_same, hi_same.
      * apply after_typing.
    + cbn [negb cmark mark_of]. rewrite Nat.eqb_refl, L, Nat2Z.id. easy.
    + cbn [negb cmark joins]. rewrite Nat2Z.id. repeat (split; [easy|]). now apply N.leb_le.
  - destruct Q as (-> & -> & ->).
    destruct e as [p' a' text'|p' a' text' x'|p' a'|p' a']; cbn [do_edit] in E.
    1: { unfold do_insert in E. destruct (exec_insert _ _ _ _) as [[[? ?] ?]| |]; cbn in E; try easy. injection E as <- <- <-. easy. }
    1: { unfold do_insert_fmt in E. destruct (exec_insert_fmt _ _ _ _ _) as [[[? ?] ?]| |]; cbn in E; try easy. injection E as <- <- <-. easy. }
    1: { unfold do_break in E. destruct (insert_block _ _) as [[[? ?] ?]| |]; cbn in E; try easy. injection E as <- <- <-. easy. }
    unfold do_delete in E. destruct (delete_text _ _ _) as [[[d1 np1] cut1]| |] eqn:X; cbn [bind] in E; try easy.
    injection E as -> -> <-. cbv beta iota in Hm.
    destruct (can_merge_delete _ _ _ _ _ _ _ _ _) eqn:CM; [|easy]. injection Hm as <-.
    unfold can_merge_delete in CM. rewrite !andb_true_iff in CM. destruct CM as ((((((T & Sg) & O) & Dir) & P) & _) & _).
    rewrite single_Z in O. apply Nat.eqb_eq in O. apply eqb_prop in Dir. rewrite !ltb_Z in *. subst single.
    destruct R as [_ R]. destruct R0 as [_ R0]. cbn [edit_range snd direct] in R, R0, D, D0. cbn [edit_cursor] in *.
    cbn [after k_items spec_edit] in R. destruct (lo_min _ _ _ R0) as [L1 L2]. rewrite L1, L2 in R.
    assert (Hl : length (spec_delete (Nat.min p0 a0) (Nat.max p0 a0) (k_items k0)) = length (k_items k0) - (Nat.max p0 a0 - Nat.min p0 a0)).
    { unfold spec_delete. rewrite app_length, firstn_length, skipn_length. lia. }
    assert (Hp1 : q = Z.of_nat (Nat.min p' a')).
    { destruct G as (ps & W & _). destruct (op_delete _ _ (Z.of_nat p') (Z.of_nat a') W) as (d3 & ps3 & E3 & _).
      rewrite X in E3. injection E3 as _ -> _. lia. }
    subst q.
    assert (Hn : exists a2, (if (a0 <? p0)%nat then Z.of_nat a0 - 1 else Z.of_nat a0 + 1)%Z = Z.of_nat a2
                 /\ Nat.min p0 a2 = Nat.min p' a' /\ Nat.max p0 a2 = Nat.max p0 a0 + (Nat.max p' a' - Nat.min p0 a0)
                 /\ Nat.min p' a' <= Nat.min p0 a0 /\ Nat.min p0 a0 <= Nat.max p' a' /\ p0 <> a2 /\ (a2 <? p0) = (a' <? p')).
    { destruct (Nat.ltb_spec a0 p0) as [Ha|Ha], (Nat.ltb_spec a' p') as [Hb|Hb]; try easy.
      - exists (a0 - 1). destruct (Nat.ltb_spec (a0 - 1) p0); repeat split; lia.
      - exists (a0 + 1). destruct (Nat.ltb_spec (a0 + 1) p0); repeat split; lia. }
    destruct Hn as (a2 & -> & N1 & N2 & N3 & N4 & N5 & N6).
    split; [exact M|]. split; [|split].
    + exists (ERemove p0 a2). cbn [request edit_cursor]. rewrite N1. split; [easy|]. split; [|split; [exact N5|]].
      * split; [easy|]. cbn [edit_range snd]. lia.
      * apply after_two; try lia; easy.
    + cbn [cmark mark_of]. rewrite Nat2Z.id, ltb_Z, N6, (proj2 (Nat.eqb_eq _ _) O). easy.
    + cbn [cmark joins]. rewrite Nat2Z.id, ltb_Z. split; [easy|]. split; [easy|]. split; [|now apply N.leb_le].
      rewrite Dir in *. destruct (a' <? p'); lia.
Qed.
