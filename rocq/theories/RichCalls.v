(** With a history, the calls of RichModel do what they do without one. *)
From Verif Require Import Base FormatRunsModel RopeModel DocModel HistModel UndoModel SearchModel SessionModel PropSpec ListModel ListDocModel FragmentModel ImageModel ImportModel
  MdInsertModel HtmlInsertModel RichModel RichSpec RichFacts RichCallSpec.

Lemma perform_does L m r : match execute L r with
  | Ok (L', np) => exists m', perform (L, m) r = Ok ((L', m'), Some np)
  | Err => perform (L, m) r = Ok ((L, m), None)
  | Panic => perform (L, m) r = Panic
  end.
Proof. unfold perform. destruct (execute L r) as [[L' np]| |]; eauto. Qed.
Lemma simply_does {A} L m r (e : res A) (f : A -> ldoc) L' ok :
  match e with Ok x => exists z, execute L r = Ok (f x, z) | Err => execute L r = Err | Panic => True end ->
  or_same L f e = Ok (L', ok) -> exists m', simply (L, m) r = Ok ((L', m'), ok).
Proof.
  intros E H. pose proof (perform_does L m r) as P. unfold simply. destruct e; cbn [or_same] in H; [|injection H as <- <-|easy].
  - injection H as <- <-. destruct E as [z E]. rewrite E in P. destruct P as [m' ->]. cbn. eauto.
  - rewrite E in P. rewrite P. cbn. eauto.
Qed.
Lemma over_does L m p a f us rs : idle m -> get_stack m 1 = Some (us, rs) ->
  (if p =? a then
     match execute L (f (Z.of_nat p)) with
     | Ok (L', _) => exists m', perform_over (L, m) p a f = Ok ((L', m'), true)
     | Err => exists m', perform_over (L, m) p a f = Ok ((L, m'), false) | Panic => True end
   else
     match delete_text (l_doc L) (Z.of_nat p) (Z.of_nat a) with
     | Ok (d1, np, _) =>
         match to_usize np with
         | Ok q =>
             match execute (with_doc L d1) (f (Z.of_nat q)) with
             | Ok (L', _) => exists m', perform_over (L, m) p a f = Ok ((L', m'), true)
             | Err => exists m', perform_over (L, m) p a f = Ok ((with_doc L d1, m'), false) | Panic => True end
         | _ => True
         end
     | Err => exists m', perform_over (L, m) p a f = Ok ((L, m'), false)
     | Panic => True
     end).
Proof.
  intros [O Lv Ow St] G. unfold perform_over. destruct (Nat.eqb_spec p a) as [<-|Hne].
  - pose proof (perform_does L m (f (Z.of_nat p))) as P. destruct (execute L (f (Z.of_nat p))) as [[L' np]| |]; [|rewrite P; cbn; eauto|easy].
    destruct P as [m' ->]. cbn. eauto.
  - cbn [fst snd].
    assert (Hb : m_begin m here = (mk_manager (stacks m) (next_stack m) (Some ([], 1%N)) 1 here, true)).
    { unfold m_begin. rewrite O, Lv. destruct Ow as [-> | ->]; reflexivity. }
    rewrite Hb. cbn [fst]. unfold perform at 1 3 5. cbn [execute].
    destruct (delete_text (l_doc L) (Z.of_nat p) (Z.of_nat a)) as [[[d1 n] t]| |] eqn:E; cbn [bind]; [|eauto|easy].
    destruct (to_usize n) as [q| |] eqn:Eq; cbn [bind]; [|easy|easy].
    unfold m_add. cbn [open sid here N.eqb Pos.eqb fst stacks next_stack level UndoModel.owner app]. unfold perform.
    destruct (execute (with_doc L d1) (f (Z.of_nat q))) as [[L2 n']| |] eqn:E2; cbn [bind]; [|eauto|easy].
    unfold m_add. cbn [open sid here N.eqb Pos.eqb fst snd stacks next_stack level UndoModel.owner app].
    unfold m_end. cbn [level pred open UndoModel.owner sid here stacks next_stack]. unfold get_stack in *. cbn [stacks sid here]. rewrite G. cbn [bind]. eauto.
Qed.

Lemma alone_theorem L m c L' ok : idle m -> alone L c = Ok (L', ok) -> exists m', r_step (L, m) c = Ok ((L', m'), ok).
Proof.
  intros I H. assert (G : exists us rs, get_stack m 1 = Some (us, rs)).
  { destruct I as [_ _ _ St]. destruct (get_stack m 1) as [[us rs]|]; [eauto|easy]. }
  destruct G as (us & rs & G). destruct c; cbn [alone r_step] in *; try easy;
    try (pose proof (over_does L m p a QBreak us rs I G) as P);
    try (eapply simply_does; [|exact H]; cbn [execute]).
  - unfold cursor_insert_block in H. destruct (p =? a); cbn [bind] in H.
    + cbn [execute] in P. destruct (insert_block (l_doc L) (Z.of_nat p)) as [[[d2 np] x]| |]; cbn [bind] in *; try easy.
      destruct (to_usize np); cbn in H; [|easy|easy]. injection H as <- <-. exact P.
    + destruct (delete_text (l_doc L) (Z.of_nat p) (Z.of_nat a)) as [[[d1 n] t]| |]; cbn [bind] in *; try easy.
      destruct (to_usize n) as [q| |]; cbn [bind] in *; try easy. cbn [execute with_doc l_doc] in P.
      destruct (insert_block d1 (Z.of_nat q)) as [[[d2 np] x]| |]; cbn [bind] in *; try easy.
      destruct (to_usize np); cbn in H; [|easy|easy]. injection H as <- <-. exact P.
  - destruct (set_block_format q (l_doc L) (Z.of_nat p) (Z.of_nat a)); cbn; eauto.
  - destruct (create_list L (Z.of_nat p) (Z.of_nat a) st) as [[]| |]; cbn; eauto.
  - destruct (insert_list L (Z.of_nat p) st) as [[[] ?]| |]; cbn; eauto.
  - destruct (add_block_to_list L i l); cbn; eauto.
  - destruct (remove_block_from_list L i); cbn; eauto.
  - destruct (set_list_format L l q); cbn; eauto.
  - clear P. pose proof (over_does L m p a (fun q => QPaste q (df_data f)) us rs I G) as P.
    unfold cursor_insert_fragment in H. destruct (p =? a); cbn [bind] in H.
    + cbn [execute] in P. destruct (insert_fragment L (Z.of_nat p) (Z.of_nat p) (df_data f)) as [[[d2 np] x]| |]; cbn [bind] in *; try easy.
      * destruct (to_usize np); cbn in H; [|easy|easy]. injection H as <- <-. exact P.
      * injection H as <- <-. exact P.
    + destruct (delete_text (l_doc L) (Z.of_nat p) (Z.of_nat a)) as [[[d1 n] t]| |]; cbn [bind] in *; try easy; [|injection H as <- <-; exact P].
      destruct (to_usize n) as [q| |]; cbn [bind] in *; try easy. cbn [execute with_doc l_doc] in P. unfold with_doc in P.
      destruct (insert_fragment _ (Z.of_nat q) (Z.of_nat q) (df_data f)) as [[[d2 np] x]| |]; cbn [bind] in *; try easy.
      * destruct (to_usize np); cbn in H; [|easy|easy]. injection H as <- <-. exact P.
      * injection H as <- <-. exact P.
  - clear P. pose proof (over_does L m p a (fun q => QImage q name (Z.of_nat w) (Z.of_nat h)) us rs I G) as P.
    unfold cursor_insert_image in H. destruct (p =? a); cbn [bind] in H.
    + cbn [execute] in P. destruct (insert_image (l_doc L) (Z.of_nat p) (Z.of_nat p) name (Z.of_nat w) (Z.of_nat h)) as [[[d2 np] x]| |]; cbn [bind] in *; try easy.
      * destruct (to_usize np); cbn in H; [|easy|easy]. injection H as <- <-. exact P.
      * injection H as <- <-. destruct L. exact P.
    + destruct (delete_text (l_doc L) (Z.of_nat p) (Z.of_nat a)) as [[[d1 n] t]| |]; cbn [bind] in *; try easy; [|injection H as <- <-; destruct L; exact P].
      destruct (to_usize n) as [q| |]; cbn [bind] in *; try easy. cbn [execute with_doc l_doc] in P. unfold with_doc in P.
      destruct (insert_image d1 (Z.of_nat q) (Z.of_nat q) name (Z.of_nat w) (Z.of_nat h)) as [[[d2 np] x]| |]; cbn [bind] in *; try easy.
      * destruct (to_usize np); cbn in H; [|easy|easy]. injection H as <- <-. exact P.
      * injection H as <- <-. exact P.
  - destruct (replace_text g (l_doc L) query text o all) as [[[] ?]| |]; cbn; eauto.
  - destruct (insert_markdown_at L (Z.of_nat p) (Z.of_nat a) es) as [[[] ?]| |]; cbn; eauto.
  - destruct (insert_html_at L (Z.of_nat p) (Z.of_nat a) es) as [[[] ?]| |]; cbn; eauto.
Qed.

Lemma all_alone_theorem cs : forall L m L', idle m -> all_alone L cs = Ok L' ->
  exists m', r_run (L, m) cs = Ok ((L', m'), repeat true (length cs)).
Proof.
  induction cs as [|c cs IH]; intros L m L' I H; cbn [all_alone] in H; [injection H as <-; cbn; eauto|].
  destruct (alone L c) as [[L1 ok]| |] eqn:E; cbn [bind] in H; try easy. destruct ok; [|easy].
  destruct (alone_theorem L m c L1 true I E) as [m1 E1].
  assert (C : changes c) by (destruct c; try exact Logic.I; discriminate E).
  assert (G : exists us rs, get_stack m 1 = Some (us, rs)).
  { destruct I as [_ _ _ St]. destruct (get_stack m 1) as [[us rs]|]; [eauto|easy]. }
  destruct G as (us & rs & G). destruct (step_push L m c us rs L1 m1 I G C E1) as (e & I1 & _).
  destruct (IH L1 m1 L' I1 H) as [m' E2]. exists m'. cbn [r_run length repeat]. rewrite E1. cbn [bind]. rewrite E2. reflexivity.
Qed.
Lemma alone_changes cs : forall L L', all_alone L cs = Ok L' -> Forall changes cs.
Proof.
  induction cs as [|c cs IH]; intros L L' H; [constructor|]. cbn [all_alone] in H.
  destruct (alone L c) as [[L1 ok]| |] eqn:E; cbn [bind] in H; try easy. destruct ok; [|easy].
  constructor; [destruct c; try exact Logic.I; discriminate E|eauto].
Qed.
Lemma run_alone_theorem L m cs L' : idle m -> all_alone L cs = Ok L' ->
  exists m' s2, r_run (L, m) cs = Ok ((L', m'), repeat true (length cs))
   /\ r_run (L', m') (repeat RUndo (length cs)) = Ok (s2, repeat true (length cs)) /\ same_rich (fst s2) L.
Proof.
  intros I H. destruct (all_alone_theorem cs L m L' I H) as [m' E]. exists m'.
  destruct (undo_all_theorem (L, m) cs (L', m') I (alone_changes _ _ _ H) E) as (s2 & A & B & _). eauto.
Qed.
