(** Walks of undos and redos over breaks, paragraph formats, new lists, pastes
    and inserted Markdown and HTML. *)
From Verif Require Import Base BaseFacts FormatRunsModel FormatRunsSpec FormatRunsFacts
  RopeModel RopeSpec RopeFacts DocModel DocSpec BlockFacts DocInv DocFacts DocAttr DocImport DocFresh DocReach DocTheorems QueryModel QuerySpec PropSpec QueryTheorems
  HistModel UndoModel UndoFacts SessionModel ListModel ListDocModel FragmentModel FragmentText FragmentSpec FragmentLists FragmentTheorems
  ImportModel ImportSpec ImportFacts MdInsertModel MdInsertSpec MdInsertRope MdInsertFacts MdInsertTheorems
  HtmlInsertModel HtmlInsertSpec HtmlInsertFacts HtmlInsertTheorems RichModel RichSpec RichFacts RichTheorems InsertUndoSpec InsertUndoFacts.

(** ** Numbers of lists only grow *)

Lemma make_list_next L e : (l_next L <= l_next (fst (make_list L e)))%N.
Proof. destruct e as [e|]; cbn; lia. Qed.
Lemma place_lists_next fbs : forall L g, (l_next L <= l_next (fst (place_lists L g fbs)))%N.
Proof.
  induction fbs as [|fb fbs IH]; intros L g; cbn [place_lists]; [cbn; lia|].
  destruct (fb_list fb) as [e|].
  - destruct (try_reuse g (l_style e) (Z.to_nat (l_indent e))) as [g1 [i|]].
    + specialize (IH L g1). destruct (place_lists L g1 fbs). exact IH.
    + cbn [new_list]. match goal with |- context [place_lists ?x ?y fbs] => specialize (IH x y); destruct (place_lists x y fbs) end. cbn in *. lia.
  - specialize (IH L (reset g)). destruct (place_lists L (reset g) fbs). exact IH.
Qed.
Lemma markdown_lists L p a es L' np k : insert_markdown_at L p a es = Ok (L', np, k) -> (l_next L <= l_next L')%N.
Proof.
  unfold insert_markdown_at, insert_parsed. destruct (negb _); [easy|]. intros H. next_bind H. next_pair. next_bind H.
  destruct (flatten_to_blocks es) as [|first [|g rest]]; [easy| |].
  - destruct (is_inline first).
    + next_bind H. next_pair. injection H as <- _ _. cbn. lia.
    + pose proof (make_list_next L (list_of first)) as M. destruct (make_list L (list_of first)). next_bind H. next_pair. injection H as <- _ _. exact M.
  - match type of H with context [place_lists ?x ?y ?z] => pose proof (place_lists_next z x y) as M; destruct (place_lists x y z) end.
    next_bind H. next_pair. injection H as <- _ _. exact M.
Qed.
Lemma html_lists L p a es L' np k : insert_html_at L p a es = Ok (L', np, k) -> (l_next L <= l_next L')%N.
Proof.
  unfold insert_html_at, insert_parsed_html. destruct (negb _); [easy|]. intros H. next_bind H. next_pair. next_bind H.
  destruct (flatten_to_blocks es) as [|first [|g rest]]; [easy| |].
  - destruct (is_inline first).
    + next_bind H. next_pair. injection H as <- _ _. cbn. lia.
    + next_bind H. pose proof (make_list_next L (list_of first)) as M. destruct (make_list L (list_of first)).
      destruct (is_nil _); next_bind H; next_pair; injection H as <- _ _; exact M.
  - next_bind H. match type of H with context [place_lists ?x ?y ?z] => pose proof (place_lists_next z x y) as M; destruct (place_lists x y z) end.
    next_bind H. next_pair. injection H as <- _ _. exact M.
Qed.
Lemma fragment_lists L p a data L' np k : insert_fragment L p a data = Ok (L', np, k) -> (l_next L <= l_next L')%N.
Proof.
  unfold insert_fragment. destruct data as [[|first others]|]; try easy. destruct (negb _); [easy|]. intros H. next_bind H. next_pair. next_bind H.
  assert (Mk : forall e, (l_next L <= l_next (fst (make_list L e)))%N) by (intros e; apply make_list_next).
  destruct others as [|g others].
  - destruct (is_inline_only first).
    + next_bind H. next_pair. injection H as <- _ _. cbn. lia.
    + next_bind H. next_bind H. destruct x0.
      * unfold paste_one_over in H. destruct (frag_block_state first) as [fr fi]. specialize (Mk (fb_list first)).
        destruct (make_list L (fb_list first)) as [L1 l]. next_bind H. next_pair. next_bind H. next_bind H. injection H as <- _ _. exact Mk.
      * unfold paste_one_split in H. destruct (frag_block_state first) as [fr fi]. next_bind H. specialize (Mk (fb_list first)).
        destruct (make_list L (fb_list first)) as [L1 l]. cbn [create_block_at] in H. next_bind H. next_bind H. injection H as <- _ _. exact Mk.
  - unfold paste_many in H. next_bind H. next_bind H.
    match type of H with match ?e with _ => _ end = _ => destruct e as [[head hr] hi] end.
    match type of H with context [place_lists ?x ?y ?z] => pose proof (place_lists_next z x y) as M; destruct (place_lists x y z) as [L1 lids] end.
    match type of H with match ?e with _ => _ end = _ => destruct e as [[[d2 made] c1] pos] end.
    match type of H with match ?e with _ => _ end = _ => destruct e as [[tail tr] ti] end.
    match type of H with match ?e with _ => _ end = _ => destruct e as [d3 made'] end.
    next_bind H. next_bind H. injection H as <- _ _. exact M.
Qed.
Lemma step_lists L its c L' np : inserts c its -> execute L (request_of c) = Ok (L', np) -> (l_next L <= l_next L')%N.
Proof.
  intros H E. destruct c; try easy; cbn [request_of execute] in E; next_bind E; next_pair; injection E as <- _;
    [cbn; lia|cbn; lia|unfold create_list in E0; cbn [new_list] in E0; next_bind E0; injection E0 as <- _; cbn; lia|eapply fragment_lists; eassumption|eapply markdown_lists; eassumption|eapply html_lists; eassumption].
Qed.

(** ** Calls at the end of a list *)

Lemma all_insert_app d c t : forall its, all_insert (d ++ c :: t) its -> inserts c (after_insertions d its).
Proof. induction d as [|x d IH]; intros its H; [apply H|]. destruct H as [_ H]. now apply IH in H. Qed.
Lemma looks_snoc d c : forall its old, looks_all (d ++ [c]) its old = looks_after c (after_insertions d its) (looks_all d its old).
Proof. induction d as [|x d IH]; intros its old; [reflexivity|]. cbn [app looks_all]. now rewrite IH. Qed.
Lemma paras_snoc d c : forall its, paras_all (d ++ [c]) its = (paras_all d its + paras_more c (after_insertions d its))%Z.
Proof. induction d as [|x d IH]; intros its; [cbn; lia|]. cbn [app paras_all]. rewrite IH. cbn [after_insertions fold_left]. unfold after_insertions. lia. Qed.
Lemma chars_snoc d c : forall its, chars_all (d ++ [c]) its = (chars_all d its + chars_more c (after_insertions d its))%Z.
Proof. induction d as [|x d IH]; intros its; [cbn [app chars_all after_insertions fold_left]; lia|]. cbn [app chars_all]. rewrite IH. cbn [after_insertions fold_left]. unfold after_insertions. lia. Qed.

(** ** What is kept during a walk *)

Section Walk.
Context (L : ldoc) (its : list item).

(** [S] is what the document is after the calls [d], up to numbers. *)
Record is_after (d : list rcall) (S : ldoc) : Prop := {
  ia_good : good S (after_insertions d its);
  ia_looks : looks S = looks_all d its (looks L);
  ia_paras : d_nblocks (l_doc S) = (d_nblocks (l_doc L) + paras_all d its)%Z;
  ia_chars : d_chars (l_doc S) = (d_chars (l_doc L) + chars_all d its)%Z;
  ia_first : d = [] -> same_rich S L
}.
(** Numbers in [S] are not given again in [X]. *)
Definition below (S X : ldoc) : Prop := (d_next (l_doc S) <= d_next (l_doc X))%N /\ (forall l, (l_next X <= l)%N -> get_list S l = None).
Lemma below_up S X Y : below S X -> (d_next (l_doc X) <= d_next (l_doc Y))%N -> (l_next X <= l_next Y)%N -> below S Y.
Proof. intros [A B] C D. split; [lia|]. intros l Hl. apply B. lia. Qed.

Lemma after_step d c S : is_after d S -> inserts c (after_insertions d its) ->
  exists S' np, (forall s, r_step s c = simply s (request_of c)) /\ execute S (request_of c) = Ok (S', np) /\ is_after (d ++ [c]) S'
   /\ below S S' /\ (d_next (l_doc S) <= d_next (l_doc S'))%N /\ (l_next S <= l_next S')%N.
Proof.
  intros [A1 A2 A3 A4 A5] Hc. destruct (step_ok S _ c A1 Hc) as (S' & np & B0 & _ & B1 & B2 & B3 & B4 & B5 & B6 & B7).
  exists S', np. split; [exact B0|]. split; [exact B1|].
  assert (Ea : after_insertions (d ++ [c]) its = after_insertion (after_insertions d its) c) by (unfold after_insertions; now rewrite fold_left_app).
  split; [constructor|].
  - rewrite Ea. exact B2.
  - rewrite looks_snoc, <- A2. exact B5.
  - rewrite paras_snoc, B6, A3. lia.
  - rewrite chars_snoc, B7, A4. lia.
  - intros H. now destruct d.
  - split; [|split; [exact B3|now apply (step_lists S _ c S' np Hc)]]. split; [exact B3|].
    intros l Hl. destruct (get_list S l) as [e|] eqn:G; [|easy]. apply B4 in G. rewrite (good_numbered _ _ B2) in G by exact Hl. discriminate.
Qed.
Lemma after_restore d S X : is_after d S -> below S X -> is_after d (restore X S).
Proof.
  intros [A1 A2 A3 A4 A5] [B1 B2]. constructor.
  - destruct A1 as [(ps & W & F & E) N T]. constructor.
    + exists ps. split; [|split; [exact F|exact E]]. destruct W. constructor; try assumption. intros b Hb. cbn. specialize (wf_next b Hb). lia.
    + intros l Hl. exact (B2 l Hl).
    + exact T.
  - exact A2.
  - exact A3.
  - exact A4.
  - intros H. destruct (A5 H) as [C1 C2]. split; [|exact C2]. destruct C1. constructor; assumption.
Qed.

(** The commands to undo after the calls [done], the last one first, and those
    to redo. *)
Inductive past (X : ldoc) : list rcall -> list (entry rcmd) -> Prop :=
| past_nil : past X [] []
| past_cons c done S es : past X done es -> is_after (rev done) S -> below S X ->
    past X (c :: done) (One (mk_rcmd (request_of c) S) :: es).
Definition to_redo (c : rcall) (e : entry rcmd) : Prop := exists S, e = One (mk_rcmd (request_of c) S).
Lemma past_up X Y done es : past X done es -> (d_next (l_doc X) <= d_next (l_doc Y))%N -> (l_next X <= l_next Y)%N -> past Y done es.
Proof. induction 1 as [|c done S es P IH A B]; intros C D; constructor; [now apply IH|exact A|now apply (below_up S X)]. Qed.

Record kept (us : list (entry rcmd)) (s : rsession) (done todo : list rcall) : Prop := {
  k_after : is_after (rev done) (fst s);
  k_idle : idle (snd s);
  k_stack : exists p f rs, get_stack (snd s) 1 = Some (p ++ us, f ++ rs) /\ past (fst s) done p /\ Forall2 to_redo todo f
}.

Lemma kept_undo us s c done todo : kept us s (c :: done) todo ->
  exists s', r_step s RUndo = Ok (s', true) /\ kept us s' done (c :: todo).
Proof.
  intros [A I (p & f & rs & G & P & F)]. destruct s as [X m]. cbn [fst snd] in *.
  inversion P as [|? ? S es P' AS B E1 E2]; subst. cbn [app] in G.
  destruct (undo_step S m _ _ _ X G I) as (m' & R & I' & G'); [intros x; reflexivity|].
  exists (restore X S, m'). split; [exact R|]. constructor; [now apply after_restore|exact I'|].
  exists es, (One (mk_rcmd (request_of c) S) :: f), rs. cbn [fst snd app]. split; [exact G'|]. split.
  - apply (past_up X); [exact P'|cbn; lia|cbn; lia].
  - constructor; [now exists S|exact F].
Qed.
Lemma kept_redo us s c done todo : kept us s done (c :: todo) -> inserts c (after_insertions (rev done) its) ->
  exists s', r_step s RRedo = Ok (s', true) /\ kept us s' (c :: done) todo.
Proof.
  intros [A I (p & f & rs & G & P & F)] Hc. destruct s as [X m]. cbn [fst snd] in *.
  inversion F as [|? e ? f' (S & ->) F']; subst. cbn [app] in G.
  destruct (after_step _ c X A Hc) as (X' & np & _ & E & A' & B & N1 & N2).
  destruct (redo_any _ _ _ _ _ _ _ _ I G E) as (m' & R & I' & G').
  exists (X', m'). split; [exact R|]. constructor; [exact A'|exact I'|].
  exists (One (mk_rcmd (request_of c) X) :: p), f', rs. cbn [fst snd app]. split; [exact G'|]. split; [|exact F'].
  constructor; [now apply (past_up X)|exact A|exact B].
Qed.
Lemma kept_do us s c done : kept us s done [] -> inserts c (after_insertions (rev done) its) ->
  exists s', r_step s c = Ok (s', true) /\ kept us s' (c :: done) [].
Proof.
  intros [A I (p & f & rs & G & P & F)] Hc. destruct s as [X m]. cbn [fst snd] in *.
  destruct (after_step _ c X A Hc) as (X' & np & S & E & A' & B & N1 & N2).
  destruct (perform (X, m) (request_of c)) as [[[X1 m1] o]| |] eqn:Ep; [|unfold perform in Ep; now rewrite E in Ep|unfold perform in Ep; now rewrite E in Ep].
  assert (Eo : X1 = X' /\ o = Some np) by (unfold perform in Ep; rewrite E in Ep; injection Ep; auto). destruct Eo as [-> ->].
  destruct (perform_push _ _ _ _ _ _ _ _ I G Ep) as (I1 & G1 & _).
  exists (X', m1). split; [rewrite S; unfold simply; now rewrite Ep|]. constructor; [exact A'|exact I1|].
  exists (One (mk_rcmd (request_of c) X) :: p), [], []. cbn [fst snd app]. split; [exact G1|]. split; [|constructor].
  constructor; [now apply (past_up X)|exact A|exact B].
Qed.

Lemma kept_run us s0 d : kept us s0 [] [] -> forall t, all_insert (d ++ t) its ->
  exists s, r_run s0 d = Ok (s, repeat true (length d)) /\ kept us s (rev d) [].
Proof.
  intros K. induction d as [|c d IH] using rev_ind; intros t H; [exists s0; now split|].
  rewrite <- app_assoc in H. cbn [app] in H. destruct (IH (c :: t) H) as (s & R & Ks).
  destruct (kept_do us s c (rev d) Ks) as (s' & R' & K'); [rewrite rev_involutive; eapply all_insert_app; eassumption|].
  exists s'. split.
  - rewrite run_app, R. cbn [bind r_run]. rewrite R'. cbn [bind]. rewrite app_length. cbn [length].
    now rewrite repeat_app.
  - now rewrite rev_app_distr.
Qed.

Lemma kept_walk us cs w : all_insert cs its -> forall s done todo j, rev done ++ todo = cs -> kept us s done todo ->
  walks (length cs) (length done) w = Some j ->
  exists s' done' todo', r_run s w = Ok (s', repeat true (length w)) /\ rev done' ++ todo' = cs /\ length done' = j /\ kept us s' done' todo'.
Proof.
  intros H. induction w as [|x w IH]; intros s done todo j Ec K W.
  - injection W as <-. exists s, done, todo. split; [reflexivity|]. split; [exact Ec|]. split; [reflexivity|exact K].
  - destruct x; try discriminate; cbn [walks] in W.
    + destruct done as [|c done]; [discriminate|]. cbn [length] in W.
      destruct (kept_undo us s c done todo K) as (s1 & R & K1).
      destruct (IH s1 done (c :: todo) j) as (s2 & d2 & t2 & R2 & X & Y & Z); [rewrite <- Ec; cbn [rev]; now rewrite <- app_assoc|exact K1|exact W|].
      exists s2, d2, t2. split; [|split; [exact X|split; [exact Y|exact Z]]]. cbn [r_run length repeat]. rewrite R. cbn [bind]. now rewrite R2.
    + destruct (Nat.ltb_spec (length done) (length cs)) as [Hl|Hl]; [|discriminate].
      destruct todo as [|c todo]; [exfalso; rewrite <- Ec, app_length, rev_length in Hl; cbn in Hl; lia|].
      destruct (kept_redo us s c done todo K) as (s1 & R & K1); [eapply all_insert_app; rewrite Ec; exact H|].
      destruct (IH s1 (c :: done) todo j) as (s2 & d2 & t2 & R2 & X & Y & Z); [rewrite <- Ec; cbn [rev]; now rewrite <- app_assoc|exact K1|exact W|].
      exists s2, d2, t2. split; [|split; [exact X|split; [exact Y|exact Z]]]. cbn [r_run length repeat]. rewrite R. cbn [bind]. now rewrite R2.
Qed.
End Walk.

Lemma walk_theorem L m its cs w j : idle m -> tidy (l_doc L) -> lists_numbered L -> lists_exist L -> doc_items (l_doc L) = Ok its -> all_insert cs its ->
  walks (length cs) (length cs) w = Some j ->
  let now_ := firstn j cs in
  exists s s0 s', r_run (L, m) cs = Ok (s, repeat true (length cs)) /\ r_run (L, m) now_ = Ok (s0, repeat true (length now_))
   /\ r_run s w = Ok (s', repeat true (length w))
   /\ doc_items (l_doc (fst s')) = Ok (after_insertions now_ its) /\ fresh_positions (l_doc (fst s'))
   /\ looks (fst s') = looks (fst s0) /\ d_nblocks (l_doc (fst s')) = d_nblocks (l_doc (fst s0))
   /\ d_chars (l_doc (fst s')) = d_chars (l_doc (fst s0))
   /\ (j = 0 -> same_rich (fst s') L).
Proof.
  intros I T N X E H W now_. destruct (idle_stack_ex _ I) as (us & rs & G).
  assert (Gd : good L its).
  { destruct (tidy_facts _ T) as (_ & ps & W0 & F). rewrite (doc_items_wf _ _ W0) in E. injection E as <-.
    constructor; [now exists ps|exact N|now apply exist_there]. }
  assert (K0 : kept L its us (L, m) [] []).
  { constructor; [|exact I|exists [], [], rs; split; [exact G|split; constructor]].
    constructor; [exact Gd|reflexivity|cbn; lia|cbn; lia|intros _; split; [constructor; reflexivity|reflexivity]]. }
  destruct (kept_run L its us (L, m) cs K0 []) as (s & R & K); [now rewrite app_nil_r|].
  destruct (kept_run L its us (L, m) now_ K0 (skipn j cs)) as (s0 & R0 & Ks0); [unfold now_; now rewrite firstn_skipn|].
  destruct (kept_walk L its us cs w H s (rev cs) [] j) as (s' & done & todo & R' & Ed & Ej & K').
  { now rewrite rev_involutive, app_nil_r. } { exact K. } { now rewrite rev_length. }
  assert (En : rev done = now_).
  { unfold now_. rewrite <- Ed, <- Ej, <- (rev_length done), firstn_app, firstn_all, Nat.sub_diag, app_nil_r. reflexivity. }
  destruct K' as [A' _ _]. destruct Ks0 as [A0 _ _]. rewrite En in A'. rewrite rev_involutive in A0.
  destruct (good_items _ _ (ia_good _ _ _ _ A')) as [D F].
  exists s, s0, s'. repeat (split; [assumption|]). split; [|split; [|split]].
  - now rewrite (ia_looks _ _ _ _ A'), (ia_looks _ _ _ _ A0).
  - now rewrite (ia_paras _ _ _ _ A'), (ia_paras _ _ _ _ A0).
  - now rewrite (ia_chars _ _ _ _ A'), (ia_chars _ _ _ _ A0).
  - intros ->. apply (ia_first _ _ _ _ A'). reflexivity.
Qed.
