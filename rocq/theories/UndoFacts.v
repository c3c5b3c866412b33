(** Facts on the undo manager. *)
From Coq Require Import List NArith Bool Lia. Import ListNotations.
From Verif Require Import Base UndoModel UndoSpec.

Section Facts.
Context {W C : Type} (undo_c : W -> C -> res W) (redo_c : W -> C -> res (W * C)) (merge_c : C -> C -> option C).
Notation step := (mstep undo_c redo_c merge_c).
Notation run := (mrun undo_c redo_c merge_c).
Implicit Types (m : manager C) (s : N) (os : list (mop W C)).

Lemma lookup_update l k (x : stack C) j : lookup (update l k x) j = if (k =? j)%N then Some x else lookup l j.
Proof.
  induction l as [|[k' x'] l IH]; cbn; [now destruct (k =? j)%N|].
  destruct (N.eqb_spec k' k) as [->|Hk]; cbn; [now destruct (k =? j)%N|].
  rewrite IH. destruct (N.eqb_spec k' j) as [->|]; [|easy]. now rewrite (proj2 (N.eqb_neq k j)) by congruence.
Qed.
Lemma get_set m k x j : get_stack (set_stack m k x) j = if (k =? j)%N then Some x else get_stack m j.
Proof. apply lookup_update. Qed.
Lemma run_app os1 : forall os2 z, run z (os1 ++ os2) = let! z1 := run z os1 in run z1 os2.
Proof. induction os1 as [|o os1 IH]; intros os2 z; cbn; [easy|]. destruct (step z o); cbn [bind]; auto. Qed.

(** Inside a group. *)
Lemma inside s os : forall depth w cs m w' new, balanced s depth os -> actions w os = Ok (w', new) ->
  open m = Some (cs, s) -> level m = S depth -> owner m = Some s ->
  exists m', run (w, m) os = Ok (w', m') /\ open m' = Some (cs ++ new, s) /\ level m' = 1 /\ owner m' = Some s
   /\ stacks m' = stacks m /\ next_stack m' = next_stack m.
Proof.
  induction os as [|o os IH]; intros depth w cs m w' new B A Ho Hl Hw.
  - cbn in *. injection A as <- <-. subst depth. rewrite app_nil_r. exists m. auto 10.
  - destruct o; try (now destruct B); cbn [balanced actions] in B, A.
    + destruct B as [-> B]. cbn [mrun mstep bind]. unfold m_begin. rewrite Hw, Ho, N.eqb_refl. cbn [negb fst].
      refine (IH (S depth) w cs (mk_manager _ _ _ _ _) w' new B A _ _ _); cbn; congruence.
    + destruct depth as [|k]; [easy|]. cbn [mrun mstep]. unfold m_end. rewrite Hl. cbn [pred bind].
      refine (IH k w cs (mk_manager _ _ _ _ _) w' new B A _ _ _); cbn; congruence.
    + destruct B as [-> B]. cbn [mrun mstep]. destruct (f w) as [[w1 c]| |]; try easy.
      * destruct (actions w1 os) as [[w2 cs2]| |] eqn:A2; cbn [bind] in A; try easy. injection A as <- <-.
        unfold m_add. rewrite Ho. cbn [sid]. rewrite N.eqb_refl. cbn [fst bind].
        destruct (IH depth w1 (cs ++ [c]) (mk_manager (stacks m) (next_stack m) (Some (cs ++ [c], s)) (level m) (owner m)) w2 cs2 B A2)
          as (m' & R & H1 & H2 & H3 & H4 & H5); cbn; auto. rewrite <- app_assoc in H1. exists m'. auto 10.
      * cbn [bind]. now apply (IH depth).
Qed.
Lemma group_theorem s os w m w' cs us rs :
  idle m -> (owner m = None \/ owner m = Some s) -> get_stack m s = Some (us, rs) ->
  balanced s 0 os -> actions w os = Ok (w', cs) ->
  exists m', run (w, m) (BeginGroup (Some s) :: os ++ [EndGroup]) = Ok (w', m')
   /\ get_stack m' s = Some (match cs with [] => (us, rs) | _ => (Group cs :: us, []) end)
   /\ idle m' /\ owner m' = Some s /\ (forall k, k <> s -> same_stack m m' k).
Proof.
  intros [Ho Hl] Hw Hs B A. cbn [mrun mstep bind].
  assert (E : m_begin m (Some s) = (mk_manager (stacks m) (next_stack m) (Some ([], s)) 1 (Some s), true)).
  { unfold m_begin. rewrite Ho, Hl. destruct Hw as [-> | ->]; [easy|]. now rewrite N.eqb_refl. }
  rewrite E. cbn [fst]. rewrite run_app.
  destruct (inside s os 0 w [] (mk_manager (stacks m) (next_stack m) (Some ([], s)) 1 (Some s)) w' cs B A eq_refl eq_refl eq_refl)
    as (m1 & -> & H1 & H2 & H3 & H4 & H5). cbn [bind mrun mstep]. cbn in H1.
  assert (G : forall k, get_stack m1 k = get_stack m k) by (intros k; unfold get_stack; now rewrite H4).
  unfold m_end. rewrite H2, H1, H3. cbn [pred sid].
  destruct cs as [|c cs]; cbn [bind]; [|rewrite G, Hs; cbn [bind]].
  - eexists. split; [reflexivity|]. unfold same_stack, get_stack, idle in *. cbn. rewrite G. auto 6.
  - eexists. split; [reflexivity|]. unfold same_stack, idle. rewrite get_set, N.eqb_refl. cbn. repeat split.
    intros k Hk. unfold get_stack, set_stack. cbn. rewrite lookup_update, (proj2 (N.eqb_neq s k)) by congruence. exact (G k).
Qed.

(** Undoing a group undoes its commands, newest first. *)
Lemma undo_each_all w cs w0 : undone undo_c w cs w0 -> undo_each undo_c w cs = Ok (w0, true).
Proof.
  revert w. induction cs as [|c cs IH]; intros w; cbn; [now intros ->|]. intros (w1 & -> & H). now apply IH.
Qed.
Lemma undo_group_theorem s w m w0 cs us rs : get_stack m s = Some (Group cs :: us, rs) -> undone undo_c w (rev cs) w0 ->
  exists m', m_undo undo_c w m (Some s) = Ok (w0, m', true) /\ get_stack m' s = Some (us, Group cs :: rs)
   /\ (forall k, k <> s -> same_stack m m' k).
Proof.
  intros Hs U. unfold m_undo. cbn [sid]. rewrite Hs. cbn [undo_entry]. rewrite (undo_each_all _ _ _ U). cbn [bind].
  eexists. split; [reflexivity|]. unfold same_stack. rewrite get_set, N.eqb_refl. split; [easy|].
  intros k Hk. now rewrite get_set, (proj2 (N.eqb_neq s k)) by congruence.
Qed.

(** Cancelling. *)
Lemma cancel_theorem s os w m w' cs w0 :
  idle m -> (owner m = None \/ owner m = Some s) -> balanced s 0 os -> actions w os = Ok (w', cs) -> undone undo_c w' (rev cs) w0 ->
  exists m', run (w, m) (BeginGroup (Some s) :: os ++ [CancelGroup]) = Ok (w0, m') /\ idle m' /\ owner m' = None
   /\ (forall k, same_stack m m' k).
Proof.
  intros [Ho Hl] Hw B A U. cbn [mrun mstep bind].
  assert (E : m_begin m (Some s) = (mk_manager (stacks m) (next_stack m) (Some ([], s)) 1 (Some s), true)).
  { unfold m_begin. rewrite Ho, Hl. destruct Hw as [-> | ->]; [easy|]. now rewrite N.eqb_refl. }
  rewrite E. cbn [fst]. rewrite run_app.
  destruct (inside s os 0 w [] (mk_manager (stacks m) (next_stack m) (Some ([], s)) 1 (Some s)) w' cs B A eq_refl eq_refl eq_refl)
    as (m1 & -> & H1 & H2 & H3 & H4 & H5). cbn [bind mrun mstep]. cbn in H1.
  unfold m_cancel. rewrite H1, (undo_each_all _ _ _ U), H2. cbn [bind pred].
  eexists. split; [reflexivity|]. split; [easy|]. split; [easy|]. intros k. unfold same_stack, get_stack. cbn. now rewrite H4.
Qed.
(** Deleting a stack. *)
Lemma lookup_filter_gone l k : lookup (filter (fun x : N * stack C => negb (fst x =? k)%N) l) k = None.
Proof. induction l as [|[k' x] l IH]; cbn; [easy|]. destruct (N.eqb_spec k' k) as [->|Hk]; cbn; [easy|]. now rewrite (proj2 (N.eqb_neq k' k)). Qed.
Lemma delete_theorem m k m' ok : m_delete m k = (m', ok) ->
  (ok = true <-> k <> 0%N /\ get_stack m k <> None) /\ (ok = true -> get_stack m' k = None) /\ (ok = false -> m' = m).
Proof.
  unfold m_delete. destruct (N.eqb_spec k 0) as [->|Hk]; [intros [= <- <-]; split; [split; [easy|tauto]|]; easy|].
  destruct (get_stack m k) eqn:G; intros [= <- <-]; (split; [split|split]); try easy. intros _. apply lookup_filter_gone.
Qed.

(** An operation on one stack leaves the others alone. *)
Lemma lookup_filter l k j : k <> j -> lookup (filter (fun x : N * stack C => negb (fst x =? k)%N) l) j = lookup l j.
Proof.
  intros H. induction l as [|[k' x] l IH]; cbn; [easy|]. destruct (N.eqb_spec k' k) as [->|]; cbn.
  - rewrite IH. now rewrite (proj2 (N.eqb_neq k j)).
  - now rewrite IH.
Qed.
Lemma others_theorem w m o w' m' k : step (w, m) o = Ok (w', m') -> about k o ->
  (o = EndGroup -> sid (owner m) = k) -> (forall j x, get_stack m j = Some x -> (j < next_stack m)%N) ->
  forall j, j <> k -> get_stack m j <> None -> same_stack m m' j.
Proof.
  intros E A He Hn j Hj Hex. unfold same_stack.
  assert (Q : forall x, get_stack (set_stack m k x) j = get_stack m j) by (intros x; rewrite get_set; now rewrite (proj2 (N.eqb_neq k j)) by congruence).
  destruct o; cbn [mstep about] in E, A; subst.
  - destruct (m_undo _ _ _ _) as [[[w1 m1] b]| |] eqn:U; cbn [bind] in E; try easy. injection E as <- <-.
    unfold m_undo in U. destruct (get_stack m (sid o)) as [[[|e us] rs]|]; try (injection U as <- <- <-; easy).
    destruct (undo_entry _ _ _) as [[w1' ok]| |]; cbn [bind] in U; try easy. injection U as <- <- <-. destruct ok; auto.
  - destruct (m_redo _ _ _ _) as [[[w1 m1] b]| |] eqn:U; cbn [bind] in E; try easy. injection E as <- <-.
    unfold m_redo in U. destruct (get_stack m (sid o)) as [[us [|e rs]]|]; try (injection U as <- <- <-; easy).
    destruct (redo_entry _ _ _) as [[[w1' e'] ok]| |]; cbn [bind] in U; try easy. injection U as <- <- <-. destruct ok; auto.
  - injection E as <- <-. unfold m_begin. destruct (match owner m with None => false | Some a => _ end); easy.
  - destruct (m_end m) as [m1| |] eqn:U; cbn [bind] in E; try easy. injection E as <- <-. unfold m_end in U.
    destruct (pred (level m)); [|injection U as <-; easy]. destruct (open m) as [[[|c cs] kk]|]; try (injection U as <-; easy).
    destruct (get_stack m (sid (owner m))) as [[us rs]|] eqn:G; try easy. injection U as <-. rewrite get_set.
    rewrite (proj2 (N.eqb_neq (sid (owner m)) j)); [easy|]. rewrite (He eq_refl). congruence.
  - unfold m_cancel in E. destruct (open m) as [[cs kk]|]; [|injection E as <- <-; easy].
    destruct (undo_each _ _ _) as [[w1 b]| |]; cbn [bind] in E; try easy. injection E as <- <-. easy.
  - destruct (f w) as [[w1 c]| |]; try easy; [|injection E as <- <-; easy]. injection E as <- <-. unfold m_add.
    destruct (open m) as [[cs kk]|]; [destruct (kk =? sid o)%N; easy|].
    destruct (get_stack m (sid o)) as [[us rs]|] eqn:G; [|easy]. destruct us as [|top below]; [apply Q|]. destruct (merge_entry _ _ _); apply Q.
  - injection E as <- <-. unfold m_clear. destruct (get_stack m k); [apply Q|easy].
  - easy.
  - injection E as <- <-. cbn. unfold get_stack. cbn. rewrite lookup_update.
    destruct (N.eqb_spec (next_stack m) j) as [<-|]; [|easy]. destruct (get_stack m (next_stack m)) eqn:G; [|easy]. specialize (Hn _ _ G). lia.
  - injection E as <- <-. unfold m_delete. destruct (k =? 0)%N; [easy|]. destruct (get_stack m k); [|easy]. unfold get_stack. cbn.
    apply lookup_filter. congruence.
Qed.
End Facts.

Section Reach.
Context {W C : Type} (undo_c : W -> C -> res W) (redo_c : W -> C -> res (W * C)) (merge_c : C -> C -> option C).
Definition known (m : manager C) : Prop := forall j x, get_stack m j = Some x -> (j < next_stack m)%N.
Lemma known_set m k x : known m -> get_stack m k <> None -> known (set_stack m k x).
Proof.
  intros K Hk j y. rewrite get_set. destruct (N.eqb_spec k j) as [<-|]; [|apply K]. intros _.
  destruct (get_stack m k) eqn:E; [|easy]. exact (K _ _ E).
Qed.
Lemma known_step s o s' : known (snd s) -> mstep undo_c redo_c merge_c s o = Ok s' -> known (snd s').
Proof.
  destruct s as [w m]. cbn [snd]. intros K E. destruct o; cbn [mstep] in E.
  - unfold m_undo in E. destruct (get_stack m (sid o)) as [[[|e us] rs]|] eqn:G; cbn [bind] in E; try (injection E as <-; easy).
    destruct (undo_entry _ _ _) as [[w1' ok]| |]; cbn [bind] in E; try easy. injection E as <-. destruct ok; [|easy]. apply known_set; [easy|congruence].
  - unfold m_redo in E. destruct (get_stack m (sid o)) as [[us [|e rs]]|] eqn:G; cbn [bind] in E; try (injection E as <-; easy).
    destruct (redo_entry _ _ _) as [[[w1' e'] ok]| |]; cbn [bind] in E; try easy. injection E as <-. apply known_set; [easy|congruence].
  - injection E as <-. unfold m_begin. destruct (match owner m with None => false | Some a => _ end); easy.
  - destruct (m_end m) as [m1| |] eqn:U; cbn [bind] in E; try easy. injection E as <-. unfold m_end in U.
    destruct (pred (level m)); [|injection U as <-; easy]. destruct (open m) as [[[|c cs] kk]|]; try (injection U as <-; easy).
    destruct (get_stack m (sid (owner m))) as [[us rs]|] eqn:G; try easy. injection U as <-.
    intros j y. unfold get_stack, set_stack. cbn. rewrite lookup_update. destruct (N.eqb_spec (sid (owner m)) j) as [<-|]; [|apply K]. intros _. exact (K _ _ G).
  - unfold m_cancel in E. destruct (open m) as [[cs kk]|]; [|injection E as <-; easy].
    destruct (undo_each _ _ _) as [[w1 b]| |]; cbn [bind] in E; try easy. injection E as <-. easy.
  - destruct (f w) as [[w1 c]| |]; try easy; [|injection E as <-; easy]. injection E as <-. unfold m_add.
    destruct (open m) as [[cs kk]|]; [destruct (kk =? sid o)%N; easy|].
    destruct (get_stack m (sid o)) as [[us rs]|] eqn:G; [|easy].
    destruct us as [|top below]; [|destruct (merge_entry _ _ _)]; (apply known_set; [easy|congruence]).
  - injection E as <-. unfold m_clear. destruct (get_stack m k) eqn:G; [|easy]. apply known_set; [easy|congruence].
  - injection E as <-. intros j y. unfold m_clear_all, get_stack. cbn. intros H. revert K H. unfold known, get_stack.
    induction (stacks m) as [|[k z] l IH]; cbn; [easy|]. intros K H. destruct (k =? j)%N eqn:Ej; [specialize (K j z); rewrite Ej in K; now apply K|].
    destruct (lookup l j) eqn:El; [specialize (K j s); rewrite Ej in K; now apply K|].
    exfalso. clear -H El. induction l as [|[k' z'] l IH']; cbn in *; [easy|]. destruct (k' =? j)%N; [easy|]. now apply IH'.
  - injection E as <-. cbn. intros j y. unfold get_stack. cbn. rewrite lookup_update.
    destruct (N.eqb_spec (next_stack m) j) as [<-|]; [lia|]. intros H. specialize (K _ _ H). lia.
  - injection E as <-. unfold m_delete. destruct (k =? 0)%N; [easy|]. destruct (get_stack m k); [|easy]. intros j y. unfold get_stack. cbn.
    intros H. apply (K j y). revert H. unfold get_stack. destruct (N.eqb_spec k j) as [<-|]; [|now rewrite lookup_filter].
    intros H. exfalso. revert H. induction (stacks m) as [|[k' z'] l IH']; cbn; [easy|].
    destruct (N.eqb_spec k' k); cbn; [easy|]. now rewrite (proj2 (N.eqb_neq k' k)).
Qed.
Lemma known_run os : forall s s', known (snd s) -> mrun undo_c redo_c merge_c s os = Ok s' -> known (snd s').
Proof.
  induction os as [|o os IH]; intros s s' K E; cbn in E; [injection E as <-; easy|].
  destruct (mstep _ _ _ s o) eqn:Es; cbn [bind] in E; try easy. eapply IH; [|exact E]. eapply known_step; eauto.
Qed.
Lemma known_new : known (@new_manager C).
Proof. intros j x. unfold get_stack, new_manager. cbn [stacks lookup next_stack]. destruct (N.eqb_spec 0 j) as [<-|]; [lia|easy]. Qed.
Lemma separate_theorem w0 os w m o w' m' k j :
  mrun undo_c redo_c merge_c (w0, new_manager) os = Ok (w, m) ->
  mstep undo_c redo_c merge_c (w, m) o = Ok (w', m') -> about k o -> (o = EndGroup -> sid (owner m) = k) ->
  j <> k -> get_stack m j <> None -> get_stack m' j = get_stack m j.
Proof.
  intros R E A He Hj Hex. pose proof (known_run os (w0, new_manager) (w, m) known_new R) as K.
  exact (others_theorem undo_c redo_c merge_c w m o w' m' k E A He K j Hj Hex).
Qed.
End Reach.
