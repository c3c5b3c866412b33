(** Proofs about the modified flag, the properties and the resources. *)
From Verif Require Import Base FormatRunsModel RopeModel DocModel DocSpec HistModel HistSpec UndoModel SessionModel SessionSpec SessionFacts SessionChain SessionTheorems StateModel StateSpec.
From Coq Require Import Permutation Lia.

(** ** Properties *)
Definition entity_of (s : sight) : entity := mk_entity (s_title s) (s_direction s) (s_wrap s) (fst (s_real s)) (snd (s_real s)).
Definition with_real (s : sight) (r : Z * Z) : sight := mk_sight (s_title s) (s_direction s) (s_wrap s) r.
Fixpoint u_link (us : list pcmd) (past : list sight) (s : sight) : Prop :=
  match us, past with
  | [], [] => True
  | PText (e, r) real :: us, b :: past => e = entity_of b /\ r = s_real b /\ s = with_real b real /\ u_link us past b
  | PEntity o :: us, b :: past => o = entity_of b /\ s_real b = s_real s /\ u_link us past b
  | _, _ => False
  end.
Fixpoint r_link (rs : list pcmd) (future : list sight) (s : sight) : Prop :=
  match rs, future with
  | [], [] => True
  | PText _ real :: rs, f :: future => f = with_real s real /\ r_link rs future f
  | PEntity o :: rs, f :: future => o = entity_of f /\ s_real f = s_real s /\ r_link rs future f
  | _, _ => False
  end.
Definition p_inv (d : pdoc) (h : hist sight) : Prop :=
  p_entity d = entity_of (h_now h) /\ p_real d = s_real (h_now h)
  /\ u_link (p_undo d) (h_past h) (h_now h) /\ r_link (p_redo d) (h_future h) (h_now h).
Lemma counted_of s r : counted_to (entity_of s) (s_real s) r = entity_of (with_real s r).
Proof. unfold counted_to, entity_of, with_real; cbn. f_equal; lia. Qed.
Lemma p_inv_step d h c : is_import c = false -> p_inv d h -> p_inv (p_step d c) (p_hist h c).
Proof.
  intros Hc (He & Hr & Hu & Hf). destruct d as [e r us rs], h as [past s fut]; cbn in *.
  destruct c; try discriminate Hc; cbn.
  - subst. split; [reflexivity|]. split; [reflexivity|]. cbn. repeat split; auto.
  - subst. split; [reflexivity|]. split; [reflexivity|]. cbn. repeat split; auto.
  - subst. split; [reflexivity|]. split; [reflexivity|]. cbn. repeat split; auto.
  - subst. unfold p_inv; cbn -[counted_to with_real entity_of].
    rewrite counted_of. split; [reflexivity|]. split; [reflexivity|]. repeat split; auto.
  - subst. unfold p_inv; cbn. repeat split.
  - destruct us as [|[[e0 r0] real|o] us], past as [|b past]; cbn in Hu; try contradiction.
    + unfold p_inv; cbn; auto.
    + destruct Hu as (-> & -> & -> & Hu). unfold p_inv; cbn -[with_real]. repeat split; auto.
    + destruct Hu as (-> & Hb & Hu). unfold p_inv; cbn. subst. repeat split; auto; congruence.
  - destruct rs as [|[[e0 r0] real|o] rs], fut as [|f fut]; cbn in Hf; try contradiction.
    + unfold p_inv; cbn; auto.
    + destruct Hf as (-> & Hf). subst. unfold p_inv; cbn -[counted_to with_real entity_of]. rewrite counted_of. repeat split; auto.
    + destruct Hf as (-> & Hb & Hf). unfold p_inv; cbn. subst. repeat split; auto; congruence.
  - subst. unfold p_inv; cbn. repeat split; auto.
Qed.
Lemma p_inv_new real : p_inv (p_new real) (p_first real).
Proof. unfold p_inv; cbn. repeat split. Qed.
Lemma p_inv_run cs : forall d h, Forall (fun c => is_import c = false) cs -> p_inv d h -> p_inv (fold_left p_step cs d) (fold_left p_hist cs h).
Proof.
  induction cs as [|c cs IH]; intros d h Hc Hi; cbn; [exact Hi|]. inversion Hc; subst. apply IH; auto. apply p_inv_step; auto.
Qed.
Lemma u_link_nonempty us past s : u_link us past s -> nonempty us = nonempty past.
Proof. destruct us as [|[[? ?] ?|?] ?], past; cbn; intuition. Qed.
Lemma r_link_nonempty rs fut s : r_link rs fut s -> nonempty rs = nonempty fut.
Proof. destruct rs as [|[[? ?] ?|?] ?], fut; cbn; intuition. Qed.
Lemma properties_theorem cs real : Forall (fun c => is_import c = false) cs ->
  let d := fold_left p_step cs (p_new real) in
  let h := fold_left p_hist cs (p_first real) in
  p_sees d = h_now h /\ p_stats d = s_real (h_now h)
  /\ nonempty (p_undo d) = nonempty (h_past h) /\ nonempty (p_redo d) = nonempty (h_future h).
Proof.
  intros Hc d h. destruct (p_inv_run cs _ _ Hc (p_inv_new real)) as (He & Hr & Hu & Hf).
  fold d h in He, Hr, Hu, Hf. unfold p_sees, p_stats. rewrite He, Hr.
  split; [destruct (h_now h); reflexivity|]. split; [cbn; destruct (s_real (h_now h)); reflexivity|].
  split; [eapply u_link_nonempty; exact Hu|eapply r_link_nonempty; exact Hf].
Qed.

(** ** Resources *)
Definition pair_of (r : resource) : str * list N := (r_name r, r_data r).
Definition pairs (l : list resource) := map pair_of l.
Lemma str_eqb_true a b : str_eqb a b = true <-> a = b.
Proof. unfold str_eqb. destruct (list_eq_dec N.eq_dec a b); split; congruence. Qed.
Lemma cache_get_remove l n m i : cache_get (cache_remove l n) m = Some i -> m <> n /\ cache_get l m = Some i.
Proof.
  unfold cache_get, cache_remove. induction l as [|[a j] l IH]; cbn; [discriminate|].
  destruct (str_eqb a n) eqn:E; cbn.
  - intro H. destruct (IH H) as [H1 H2]. split; [exact H1|]. apply str_eqb_true in E as ->.
    destruct (str_eqb n m) eqn:E2; [apply str_eqb_true in E2; congruence|exact H2].
  - destruct (str_eqb a m) eqn:E2; cbn.
    + intro H. split; [|exact H]. apply str_eqb_true in E2 as ->. intro; subst.
      assert (str_eqb n n = true) by (apply str_eqb_true; reflexivity). congruence.
    + intro H. apply IH in H. exact H.
Qed.
Lemma cache_get_put l n i m j : cache_get (cache_put l n i) m = Some j -> m = n /\ j = i \/ m <> n /\ cache_get l m = Some j.
Proof.
  unfold cache_put, cache_get at 1; cbn. destruct (str_eqb n m) eqn:E; cbn.
  - intro H. left. apply str_eqb_true in E. injection H. auto.
  - intro H. right. apply (cache_get_remove l n m j). exact H.
Qed.
Lemma cache_put_same l n i : cache_get (cache_put l n i) n = Some i.
Proof. unfold cache_get; cbn. assert (E : str_eqb n n = true) by (apply str_eqb_true; reflexivity). rewrite E. reflexivity. Qed.
Lemma cache_put_other l n i m : m <> n -> cache_get (cache_put l n i) m = cache_get l m.
Proof.
  intro H. unfold cache_get; cbn. assert (E : str_eqb n m = false) by (destruct (str_eqb n m) eqn:E; [apply str_eqb_true in E; congruence|reflexivity]). rewrite E.
  f_equal. unfold cache_remove. induction l as [|[a j] l IH]; cbn; [reflexivity|].
  destruct (str_eqb a n) eqn:E1; cbn.
  - apply str_eqb_true in E1 as ->. rewrite E. exact IH.
  - destruct (str_eqb a m); [reflexivity|exact IH].
Qed.

(** The data of the last resource with a name, and when it is the only one. *)
Lemma latest_skip (name : str) (l : list (str * list N)) : ~ In name (map fst l) -> forall o,
  fold_left (fun (found : option (list N)) (x : str * list N) => if list_eq_dec N.eq_dec (fst x) name then Some (snd x) else found) l o = o.
Proof.
  induction l as [|x l IH]; intros H o; cbn; [reflexivity|].
  match goal with |- context [list_eq_dec ?a ?b ?c] => destruct (list_eq_dec a b c) as [E|E] end.
  - destruct H. left. exact E.
  - apply IH. intro H1. apply H. right. exact H1.
Qed.
Lemma latest_none name l : ~ In name (map fst l) -> latest name l = None.
Proof. intro H. apply latest_skip. exact H. Qed.
Lemma latest_snoc name l x : latest name (l ++ [x]) = if list_eq_dec N.eq_dec (fst x) name then Some (snd x) else latest name l.
Proof. unfold latest. rewrite fold_left_app. reflexivity. Qed.
Lemma latest_only l : forall r, In r l -> NoDup (map r_name l) -> latest (r_name r) (pairs l) = Some (r_data r).
Proof.
  induction l as [|x l IH] using rev_ind; intros r Hr Hn; [destruct Hr|].
  unfold pairs in *. rewrite map_app in *. cbn [map] in *. rewrite latest_snoc; cbn [pair_of fst snd].
  assert (Hl : NoDup (map r_name l)) by (apply NoDup_remove_1 in Hn; rewrite app_nil_r in Hn; exact Hn).
  apply NoDup_remove_2 in Hn. rewrite app_nil_r in Hn.
  apply in_app_iff in Hr as [Hr|[->|[]]].
  - destruct (list_eq_dec N.eq_dec (r_name x) (r_name r)) as [E|E].
    + destruct Hn. rewrite E. apply in_map. exact Hr.
    + apply IH; assumption.
  - destruct (list_eq_dec N.eq_dec (r_name r) (r_name r)); congruence.
Qed.

Fixpoint ru_link (us : list rcmd) (past : list (list resource)) (s : list resource) : Prop :=
  match us, past with
  | [], [] => True
  | RAdd r _ :: us, b :: past => s = b ++ [r] /\ ~ In (r_id r) (map r_id b) /\ ru_link us past b
  | ROther sn :: us, b :: past => s = b /\ (sn = None \/ sn = Some b) /\ ru_link us past b
  | _, _ => False
  end.
Fixpoint rr_link (rs : list rcmd) (future : list (list resource)) (s : list resource) : Prop :=
  match rs, future with
  | [], [] => True
  | RAdd r sn :: rs, f :: future => sn = Some f /\ f = s ++ [r] /\ ~ In (r_id r) (map r_id s) /\ rr_link rs future f
  | ROther sn :: rs, f :: future => f = s /\ rr_link rs future f
  | _, _ => False
  end.
(** [K]: all resources ever made. *)
Definition from (K : list resource) (l : list resource) : Prop := incl l K /\ NoDup (map r_id l) /\ NoDup (map r_name l).
Record r_inv (K : list resource) (d : rdoc) (h : hist (list (str * list N))) := mk_r_inv {
  ri_ids : NoDup (map r_id K); ri_names : NoDup (map r_name K);
  ri_next : forall r, In r K -> (r_id r < r_next d)%N;
  ri_hist : exists past fut, ru_link (r_undo d) past (r_store d) /\ rr_link (r_redo d) fut (r_store d)
    /\ h = mk_hist (map pairs past) (pairs (r_store d)) (map pairs fut)
    /\ Forall (from K) (r_store d :: past ++ fut);
  ri_cache : forall n i, cache_get (r_cache d) n = Some i -> exists r, In r K /\ r_id r = i /\ r_name r = n
}.
Lemma NoDup_map_inj {A B} (f : A -> B) l x y : NoDup (map f l) -> In x l -> In y l -> f x = f y -> x = y.
Proof.
  induction l as [|a l IH]; intros H Hx Hy E; [destruct Hx|]. inversion H as [|? ? Hn Hd]; subst.
  destruct Hx as [->|Hx], Hy as [->|Hy]; auto.
  - destruct Hn. rewrite E. apply in_map; exact Hy.
  - destruct Hn. rewrite <- E. apply in_map; exact Hx.
Qed.
Lemma get_right K d h all name : r_inv K d h -> Permutation all (r_store d) ->
  snd (get_resource d all name) = latest name (h_now h).
Proof.
  intros [Hi Hm Hx (past & fut & Hu & Hr & -> & Hf) Hc] Hp. cbn [h_now].
  inversion Hf as [|? ? (Hin & Hsi & Hsn) _]; subst.
  assert (Hscan : forall d0 : rdoc, snd (match find (fun r => str_eqb (r_name r) name) all with
    | Some r => (mk_rdoc (r_store d0) (r_next d0) (cache_put (r_cache d0) name (r_id r)) (r_undo d0) (r_redo d0), Some (r_data r))
    | None => (d0, None) end) = latest name (pairs (r_store d))).
  { intro d0. destruct (find _ all) as [r|] eqn:E; cbn.
    - apply find_some in E as [E1 E2]. apply str_eqb_true in E2 as <-. symmetry. apply latest_only; [|exact Hsn].
      eapply Permutation_in; [exact Hp|exact E1].
    - symmetry. apply latest_none. intro H. unfold pairs in H. rewrite map_map in H. apply in_map_iff in H as (r & E1 & E2).
      apply Permutation_sym in Hp. pose proof (find_none _ _ E r (Permutation_in _ Hp E2)) as E3. cbn in E3, E1.
      assert (str_eqb (r_name r) name = true) by (apply str_eqb_true; exact E1). congruence. }
  unfold get_resource. destruct (cache_get (r_cache d) name) as [i|] eqn:E.
  - destruct (res_get (r_store d) i) as [r|] eqn:E1; [|apply (Hscan (mk_rdoc (r_store d) (r_next d) (cache_remove (r_cache d) name) (r_undo d) (r_redo d)))].
    cbn. unfold res_get in E1. apply find_some in E1 as [E1 E2]. apply N.eqb_eq in E2.
    destruct (Hc _ _ E) as (r' & E3 & E4 & E5).
    assert (r' = r) as -> by (eapply (NoDup_map_inj r_id); [exact Hi|exact E3|apply Hin; exact E1|congruence]).
    rewrite <- E5. symmetry. apply latest_only; assumption.
  - apply Hscan.
Qed.
Lemma from_more K r l : from K l -> from (K ++ [r]) l.
Proof. intros (H1 & H2 & H3). split; [|auto]. apply incl_appl. exact H1. Qed.
Lemma filter_last l r : ~ In (r_id r) (map r_id l) -> filter (fun x => negb (N.eqb (r_id x) (r_id r))) (l ++ [r]) = l.
Proof.
  intro H. rewrite filter_app. cbn. rewrite N.eqb_refl; cbn. rewrite app_nil_r. induction l as [|x l IH]; cbn; [reflexivity|].
  cbn in H. destruct (N.eqb_spec (r_id x) (r_id r)) as [E|E]; [destruct H; left; exact E|]. cbn. f_equal. apply IH. intuition.
Qed.
Lemma NoDup_snoc {A} (l : list A) x : NoDup l -> ~ In x l -> NoDup (l ++ [x]).
Proof.
  intros H Hx. induction l as [|a l IH]; cbn; [repeat constructor; intros []|].
  inversion H; subst. constructor.
  - rewrite in_app_iff. cbn. intros [H4|[->|[]]]; [contradiction|]. apply Hx. left; reflexivity.
  - apply IH; [assumption|]. intro H4. apply Hx. right; exact H4.
Qed.
Definition made_by (c : rcall) (d : rdoc) : list resource := match c with Add n x => [mk_resource (r_next d) n x] | _ => [] end.
Lemma r_inv_step K d h c : r_inv K d h -> match c with Get all _ => Permutation all (r_store d) | _ => True end ->
  (match c with Add n _ => ~ In n (map r_name K) | _ => True end) ->
  r_inv (K ++ made_by c d) (r_step d c) (r_hist h c).
Proof.
  intros HI Hall Hnew. pose proof HI as [Hi Hm Hx (past & fut & Hu & Hr & -> & Hf) Hc].
  inversion Hf as [|? ? (Hin & Hsi & Hsn) Hf']; subst. apply Forall_app in Hf' as [Hfp Hff].
  destruct c as [n x|all n|b| | |]; cbn [made_by]; try rewrite app_nil_r.
  - set (r := mk_resource (r_next d) n x) in *.
    assert (Hid : ~ In (r_id r) (map r_id K)).
    { intro H. apply in_map_iff in H as (r' & E & H). apply Hx in H. cbn in E. lia. }
    constructor.
    + rewrite map_app. apply NoDup_snoc; assumption.
    + rewrite map_app. apply NoDup_snoc; assumption.
    + intros r' H. apply in_app_iff in H as [H|[<-|[]]]; cbn; [apply Hx in H; lia|lia].
    + exists (r_store d :: past), []. cbn. split; [split; [reflexivity|split; [|exact Hu]]|].
      { intro H. apply Hid. apply in_map_iff in H as (r' & E & H). apply in_map_iff. exists r'. split; [exact E|apply Hin; exact H]. }
      split; [exact I|]. split; [unfold pairs; rewrite map_app; reflexivity|]. rewrite app_nil_r.
      constructor; [|constructor].
      * split; [apply incl_app; [apply incl_appl; exact Hin|apply incl_appr, incl_refl]|]. rewrite !map_app. cbn. split; apply NoDup_snoc; auto.
        -- intro H. apply Hid. apply in_map_iff in H as (r' & E & H). apply in_map_iff. exists r'. split; [exact E|apply Hin; exact H].
        -- intro H. apply Hnew. apply in_map_iff in H as (r' & E & H). apply in_map_iff. exists r'. split; [exact E|apply Hin; exact H].
      * apply from_more. split; auto.
      * eapply Forall_impl; [|exact Hfp]. intros; apply from_more; assumption.
    + cbn. intros m i E. apply cache_get_put in E as [[-> ->]|[_ E]].
      * exists r. split; [apply in_app_iff; right; left; reflexivity|split; reflexivity].
      * destruct (Hc _ _ E) as (r' & H1 & H2). exists r'. split; [apply in_app_iff; left; exact H1|exact H2].
  - cbn [r_step r_hist]. 
    assert (Hscan : forall c0, (forall m i, cache_get c0 m = Some i -> exists r, In r K /\ r_id r = i /\ r_name r = m) ->
      r_inv K (fst (match find (fun r => str_eqb (r_name r) n) all with
        | Some r => (mk_rdoc (r_store d) (r_next d) (cache_put c0 n (r_id r)) (r_undo d) (r_redo d), Some (r_data r))
        | None => (mk_rdoc (r_store d) (r_next d) c0 (r_undo d) (r_redo d), None) end)) (mk_hist (map pairs past) (pairs (r_store d)) (map pairs fut))).
    { intros c0 H0. destruct (find _ all) as [r|] eqn:E; cbn [fst]; constructor; auto; cbn; try (exists past, fut; auto; fail).
      intros m i H. apply cache_get_put in H as [[-> ->]|[_ H]]; [|auto].
      apply find_some in E as [E1 E2]. apply str_eqb_true in E2. exists r. split; [|auto]. apply Hin. eapply Permutation_in; eauto. }
    unfold get_resource. destruct (cache_get (r_cache d) n) as [i|] eqn:E.
    + destruct (res_get (r_store d) i) as [r|] eqn:E1.
      * exact HI.
      * apply (Hscan (cache_remove (r_cache d) n)). intros m j H. apply cache_get_remove in H as [_ H]. auto.
    + destruct d. apply Hscan. exact Hc.
  - constructor; auto. cbn. exists (r_store d :: past), []. split; [split; [reflexivity|split; [destruct b; auto|exact Hu]]|].
    split; [exact I|]. split; [reflexivity|]. rewrite app_nil_r. repeat constructor; auto.
  - cbn [r_step r_hist]. unfold r_undo_call, h_undo; cbn [h_past h_now h_future].
    destruct (r_undo d) as [|[r sn|sn] us] eqn:Eu, past as [|b past]; cbn in Hu; try contradiction; cbn [map].
    + constructor; auto. exists [], fut. rewrite Eu. cbn. auto.
    + destruct Hu as (Hs & Hn & Hu). constructor; auto. cbn. exists past, (r_store d :: fut).
      rewrite Hs. rewrite filter_last by exact Hn. split; [exact Hu|]. split; [cbn; rewrite Hs in Hr; auto|]. split; [reflexivity|].
      inversion Hfp; subst. constructor; [assumption|]. apply Forall_app. split; [assumption|]. constructor; [|assumption]. rewrite <- Hs. split; auto.
    + destruct Hu as (Hs & Hn & Hu). constructor; auto. cbn. exists past, (r_store d :: fut). 
      assert (Hb : match sn with Some s => s | None => r_store d end = b) by (destruct Hn as [->| ->]; congruence). rewrite Hb.
      split; [exact Hu|]. split; [cbn; rewrite Hs in *; auto|]. split; [reflexivity|].
      inversion Hfp; subst. constructor; [assumption|]. apply Forall_app. split; [assumption|]. constructor; [|assumption]. split; auto.
  - cbn [r_step r_hist]. unfold r_redo_call, h_redo; cbn [h_past h_now h_future].
    destruct (r_redo d) as [|[r sn|sn] rs] eqn:Er, fut as [|f fut]; cbn in Hr; try contradiction; cbn [map].
    + constructor; auto. exists past, []. rewrite Er. cbn. auto.
    + destruct Hr as (-> & Hs & Hn & Hr). constructor; auto. cbn. exists (r_store d :: past), fut.
      split; [auto|]. split; [exact Hr|]. split; [reflexivity|]. inversion Hff; subst. constructor; [assumption|]. 
      constructor; [split; auto|]. apply Forall_app. auto.
    + destruct Hr as (-> & Hr). constructor; auto. cbn. exists (r_store d :: past), fut.
      split; [split; [reflexivity|split; [destruct sn; auto|exact Hu]]|]. split; [exact Hr|]. split; [reflexivity|].
      inversion Hff; subst. constructor; [split; auto|]. constructor; [split; auto|]. apply Forall_app. auto.
  - constructor; auto. cbn. exists [], []. cbn. repeat split; auto. constructor; [split; auto|constructor].
Qed.
Lemma r_inv_new next : r_inv [] (r_new next) r_first.
Proof. constructor; cbn; try constructor; try easy. exists [], []. cbn. repeat split; auto. repeat constructor. easy. Qed.
Lemma r_inv_run cs : forall K d h, r_inv K d h -> orders_fit d cs -> NoDup (map r_name K ++ added cs) ->
  exists K', r_inv K' (fold_left r_step cs d) (fold_left r_hist cs h).
Proof.
  induction cs as [|c cs IH]; intros K d h HI Ho Hn; cbn; [exists K; exact HI|].
  destruct Ho as [Ho1 Ho2]. apply (IH (K ++ made_by c d)).
  - apply r_inv_step; auto. destruct c; auto. cbn in Hn. apply NoDup_remove_2 in Hn. intro H. apply Hn. apply in_app_iff. left; exact H.
  - exact Ho2.
  - rewrite map_app. destruct c; cbn in *; try rewrite app_nil_r; auto. rewrite <- app_assoc. exact Hn.
Qed.
Lemma resources_theorem cs next all name : NoDup (added cs) -> orders_fit (r_new next) cs ->
  let d := fold_left r_step cs (r_new next) in
  Permutation all (r_store d) -> snd (get_resource d all name) = latest name (h_now (fold_left r_hist cs r_first)).
Proof.
  intros Hn Ho d Hp. destruct (r_inv_run cs [] _ _ (r_inv_new next) Ho Hn) as (K & HI). eapply get_right; eauto.
Qed.

(** Without undo and redo, names may be given again. *)
Record l_inv (d : rdoc) (h : hist (list (str * list N))) := mk_l_inv {
  li_now : h_now h = pairs (r_store d);
  li_ids : NoDup (map r_id (r_store d)); li_next : forall r, In r (r_store d) -> (r_id r < r_next d)%N;
  li_cache : forall n, match cache_get (r_cache d) n with
    | Some i => exists r, In r (r_store d) /\ r_id r = i /\ latest n (pairs (r_store d)) = Some (r_data r)
    | None => ~ In n (map r_name (r_store d))
    end
}.
Lemma find_id l r : In r l -> NoDup (map r_id l) -> res_get l (r_id r) = Some r.
Proof.
  unfold res_get. induction l as [|x l IH]; intros H Hn; [destruct H|]. cbn. inversion Hn; subst.
  destruct (N.eqb_spec (r_id x) (r_id r)) as [E|E].
  - destruct H as [->|H]; [reflexivity|]. destruct H2. rewrite E. apply in_map; exact H.
  - destruct H as [->|H]; [congruence|]. apply IH; auto.
Qed.
Lemma l_get d h all name : l_inv d h -> Permutation all (r_store d) ->
  snd (get_resource d all name) = latest name (h_now h) /\ fst (get_resource d all name) = d.
Proof.
  intros [Hh Hi Hx Hc] Hp. specialize (Hc name). unfold get_resource. destruct (cache_get (r_cache d) name) as [i|].
  - destruct Hc as (r & H1 & <- & H2). rewrite (find_id _ _ H1 Hi). cbn. rewrite Hh, H2. auto.
  - destruct (find _ all) as [r|] eqn:E.
    + destruct Hc. apply find_some in E as [E1 E2]. apply str_eqb_true in E2 as <-. apply in_map. eapply Permutation_in; eauto.
    + cbn. split; [|reflexivity]. rewrite Hh. symmetry. apply latest_none. unfold pairs. rewrite map_map. exact Hc.
Qed.
Ltac dec_if := match goal with |- context [list_eq_dec ?a ?b ?c] => destruct (list_eq_dec a b c) end.
Lemma l_step d h c : l_inv d h -> back_or_forth c = false -> match c with Get all _ => Permutation all (r_store d) | _ => True end ->
  l_inv (r_step d c) (r_hist h c).
Proof.
  intros HI Hc Hall. destruct c as [n x|all n|b| | |]; try discriminate Hc.
  - destruct HI as [Hh Hi Hx Hca]. constructor; cbn -[latest pairs].
    + rewrite Hh. unfold pairs. rewrite map_app. reflexivity.
    + rewrite map_app. apply NoDup_snoc; [exact Hi|]. cbn. intro H. apply in_map_iff in H as (r & E & H). apply Hx in H. lia.
    + intros r H. apply in_app_iff in H as [H|[<-|[]]]; cbn; [apply Hx in H; lia|lia].
    + intro m. destruct (list_eq_dec N.eq_dec n m) as [<-|E].
      * rewrite cache_put_same. exists (mk_resource (r_next d) n x). split; [apply in_app_iff; right; left; reflexivity|]. split; [reflexivity|].
        unfold pairs. rewrite map_app. cbn [map]. rewrite latest_snoc. cbn [fst snd pair_of r_name r_data]. dec_if; congruence.
      * rewrite cache_put_other by congruence. specialize (Hca m). destruct (cache_get (r_cache d) m) as [i|].
        -- destruct Hca as (r & H1 & H2 & H3). exists r. split; [apply in_app_iff; left; exact H1|]. split; [exact H2|].
           unfold pairs. rewrite map_app. cbn [map]. rewrite latest_snoc. cbn [fst snd pair_of r_name r_data]. dec_if; [congruence|exact H3].
        -- rewrite map_app, in_app_iff. cbn. intuition.
  - cbn [r_step r_hist]. destruct (l_get d h all n HI Hall) as [_ ->]. exact HI.
  - destruct HI. constructor; auto.
  - destruct HI. constructor; auto.
Qed.
Lemma resources_again_theorem cs next all name : Forall (fun c => back_or_forth c = false) cs -> orders_fit (r_new next) cs ->
  let d := fold_left r_step cs (r_new next) in
  Permutation all (r_store d) -> snd (get_resource d all name) = latest name (h_now (fold_left r_hist cs r_first)).
Proof.
  intros Hc Ho d Hp. assert (HI : l_inv d (fold_left r_hist cs r_first)); [|apply (l_get _ _ all name HI Hp)].
  unfold d. clear Hp d. assert (H0 : l_inv (r_new next) r_first) by (constructor; cbn; try constructor; easy).
  revert H0 Hc Ho. generalize (r_new next), r_first. clear. induction cs as [|c cs IH]; intros d h H0 Hc Ho; cbn; [exact H0|].
  inversion Hc; subst. destruct Ho. apply IH; auto. apply l_step; auto.
Qed.

(** ** The modified flag *)
Lemma marks_edit e t s s' q : s_edit t s e = Ok (s', Some q) -> no_change e = false -> marks s (Edit e t) = Ok true.
Proof.
  intros H Hn. destruct e as [p a text|p a text x|p a|p a]; cbn [marks]; try (rewrite H; reflexivity).
  cbn in Hn. rewrite Hn, H. reflexivity.
Qed.
Lemma marks_still e t s : no_change e = true -> marks s (Edit e t) = Ok false.
Proof. destruct e; cbn; try discriminate. intros ->. reflexivity. Qed.
Lemma n_step_do n h c : tracks (n_session n) h -> call_fits h c ->
  exists n' h', n_step n (Do c) = Ok n' /\ hstep h c h' /\ tracks (n_session n') h'
    /\ (n_modified n = true -> n_modified n' = true)
    /\ (kept (Do c) -> now h' = now h \/ n_modified n' = true).
Proof.
  intros Ht Hf. destruct (tracks_step _ _ _ Ht Hf) as (s' & h' & Hs & Hh & Ht').
  assert (Hm : exists b, marks (n_session n) c = Ok b /\ (kept (Do c) -> now h' = now h \/ b = true)).
  { destruct c; try (exists false; split; [reflexivity|]; intro Hk; try contradiction).
    - destruct (no_change e) eqn:E.
      + exists false. split; [apply marks_still; exact E|]. intros _. left. cbn in Hh. rewrite E in Hh. subst. reflexivity.
      + exists true. destruct (tracks_edit t e _ _ Ht Hf) as (s2 & q & h2 & He & _). split; [eapply marks_edit; eauto|auto].
    - contradiction.
    - contradiction.
    - left. cbn in Hh. subst. reflexivity.
    - left. cbn in Hh. destruct (block h) as [[[[|[|m]] k0] []]|]; subst; reflexivity.
    - left. cbn in Hh. subst. reflexivity. }
  destruct Hm as (b & Hb & Hk). exists (mk_noted s' (n_modified n || b) (n_told n)), h'.
  cbn [n_step]. rewrite Hb; cbn [bind]. rewrite Hs; cbn [bind]. split; [reflexivity|]. split; [exact Hh|]. split; [exact Ht'|].
  cbn. split; [intros ->; reflexivity|]. intro H. destruct (Hk H) as [H1|H1]; [left; exact H1|right]. rewrite H1. apply orb_true_r.
Qed.
Lemma n_run_tracks cs : forall n h, tracks (n_session n) h -> calls_fit h (calls_of cs) ->
  exists n' h', n_run n cs = Ok n' /\ tracks (n_session n') h' /\ hrun h (calls_of cs) h'
    /\ (Forall kept cs -> (n_modified n = true -> n_modified n' = true) /\ (now h' = now h \/ n_modified n' = true)).
Proof.
  induction cs as [|[c|b] cs IH]; intros n h Ht Hf.
  - exists n, h. split; [reflexivity|]. split; [exact Ht|]. split; [reflexivity|]. auto.
  - destruct Hf as [Hf1 Hf2]. destruct (n_step_do n h c Ht Hf1) as (n1 & h1 & H1 & H2 & H3 & H4 & H5).
    destruct (IH n1 h1 H3 (Hf2 _ H2)) as (n2 & h2 & H6 & H7 & H8 & H9). exists n2, h2. cbn [n_run]. rewrite H1; cbn [bind].
    split; [exact H6|]. split; [exact H7|]. split; [exists h1; auto|]. intro Hk. inversion Hk as [|? ? Hk1 Hk2]; subst.
    destruct (H9 Hk2) as [H11 H12]. split; [auto|]. destruct H12 as [H12|H12]; [|auto]. destruct (H5 Hk1) as [H13|H13]; [|auto]. left. congruence.
  - cbn [calls_of] in *. cbn [n_run n_step].
    destruct (Bool.eqb (n_modified n) b) eqn:E; cbn [bind].
    + destruct (IH n h Ht Hf) as (n2 & h2 & H6 & H7 & H8 & H9). exists n2, h2. do 3 (split; [assumption|]). intro Hk. inversion Hk; subst. auto.
    + destruct (IH (mk_noted (n_session n) b (n_told n ++ [b])) h Ht Hf) as (n2 & h2 & H6 & H7 & H8 & H9). exists n2, h2. do 3 (split; [assumption|]).
      intro Hk. inversion Hk as [|? ? Hk1 Hk2]; subst. destruct b; [|contradiction]. destruct (H9 Hk2) as [H10 H11]. cbn in H10. auto.
Qed.
Lemma calls_of_app a b : calls_of (a ++ b) = calls_of a ++ calls_of b.
Proof. induction a as [|[c|x] a IH]; cbn; congruence. Qed.
Lemma calls_fit_app a : forall b h, calls_fit h (a ++ b) -> calls_fit h a /\ forall h', hrun h a h' -> calls_fit h' b.
Proof.
  induction a as [|c a IH]; intros b h H; cbn in *; [split; [exact I|intros h' ->; exact H]|].
  destruct H as [H1 H2]. split.
  - split; [exact H1|]. intros h' Hh. apply (IH b h' (H2 _ Hh)).
  - intros h' (h1 & Hh & Hr). apply (IH b h1 (H2 _ Hh)). exact Hr.
Qed.
Lemma modified_theorem cs1 cs2 : calls_fit first_history (calls_of (cs1 ++ cs2)) -> Forall kept cs2 ->
  exists n1 n2 k1 k2, n_run new_noted cs1 = Ok n1 /\ n_run n1 cs2 = Ok n2
    /\ shows (fst (n_session n1)) k1 /\ shows (fst (n_session n2)) k2
    /\ (k1 <> k2 -> n_modified n2 = true).
Proof.
  rewrite calls_of_app. intros Hf Hk. apply calls_fit_app in Hf as [Hf1 Hf2].
  destruct (n_run_tracks cs1 new_noted first_history tracks_new Hf1) as (n1 & h1 & H1 & H2 & H3 & _).
  destruct (n_run_tracks cs2 n1 h1 H2 (Hf2 _ H3)) as (n2 & h2 & H4 & H5 & H6 & H7).
  exists n1, n2, (now h1), (now h2). do 2 (split; [assumption|]).
  split; [apply (tracks_at _ _ H2)|]. split; [apply (tracks_at _ _ H5)|]. intro Hn. destruct (H7 Hk) as [_ [H8|H8]]; [congruence|exact H8].
Qed.
Lemma modified_format_theorem n c n' : (match c with Format _ _ _ _ | BlockFormat _ _ _ => True | _ => False end) ->
  n_step n (Do c) = Ok n' -> n_session n' <> n_session n -> n_modified n' = true.
Proof.
  intros Hc H Hd. destruct n as [[d m] b told]. destruct c; try contradiction; cbn [n_step marks n_session fst s_step n_modified n_told] in *.
  - destruct (do_format _ _ _ _ _) as [[d' c]| |]; cbn in H; try discriminate; injection H as <-; cbn in *; [apply orb_true_r|congruence].
  - destruct (do_block_format _ _ _ _) as [[d' c]| |]; cbn in H; try discriminate; injection H as <-; cbn in *; [apply orb_true_r|congruence].
Qed.
Lemma modified_stays cs : forall n n', n_run n cs = Ok n' -> n_modified n = true -> ~ In (SetModified false) cs -> n_modified n' = true.
Proof.
  induction cs as [|[c|b] cs IH]; intros n n' H Hm Hn; cbn [n_run n_step] in H; [injection H as <-; exact Hm| |].
  - destruct (marks (n_session n) c) as [b| |]; cbn in H; try discriminate.
    destruct (s_step (n_session n) c) as [s| |]; cbn in H; try discriminate.
    eapply IH; [exact H|cbn; rewrite Hm; reflexivity|]. intro; apply Hn; right; assumption.
  - destruct b; [|destruct Hn; left; reflexivity]. rewrite Hm in H; cbn in H. eapply IH; [exact H|exact Hm|]. intro; apply Hn; right; assumption.
Qed.
Lemma marks_asks s c : marks s c = Ok true -> asks (Do c).
Proof.
  destruct c; cbn; try discriminate; auto. destruct e; cbn; auto. destruct (p =? a); cbn; [discriminate|auto].
Qed.
Lemma modified_asked cs : forall n n', n_run n cs = Ok n' -> n_modified n = false -> n_modified n' = true -> Exists asks cs.
Proof.
  induction cs as [|[c|b] cs IH]; intros n n' H Hm Hn; cbn [n_run n_step] in H; [injection H as <-; congruence| |].
  - destruct (marks (n_session n) c) as [b| |] eqn:E; cbn in H; try discriminate.
    destruct (s_step (n_session n) c) as [s| |]; cbn in H; try discriminate. destruct b.
    + left. eapply marks_asks; exact E.
    + right. eapply IH; [exact H|cbn; rewrite Hm; reflexivity|exact Hn].
  - destruct b; [left; reflexivity|right]. rewrite Hm in H; cbn in H. eapply IH; eauto.
Qed.
Definition news (l : list bool) : Prop := forall i b, nth_error l i = Some b -> nth_error (false :: l) i <> Some b.
Lemma news_snoc l b : news l -> heard l <> b -> news (l ++ [b]).
Proof.
  intros H Hb i c Hi Hc. destruct (Nat.lt_ge_cases i (length l)) as [E|E].
  - rewrite nth_error_app1 in Hi by exact E. apply (H i c Hi). rewrite <- Hc. symmetry.
    change (false :: l ++ [b]) with ((false :: l) ++ [b]). apply nth_error_app1. cbn. lia.
  - rewrite nth_error_app2 in Hi by exact E. destruct (i - length l) as [|k] eqn:Ek; [|destruct k; discriminate]. injection Hi as <-.
    assert (i = length l) as -> by lia. change (false :: l ++ [b]) with ((false :: l) ++ [b]) in Hc. rewrite nth_error_app1 in Hc by (cbn; lia).
    apply Hb. unfold heard. destruct l as [|x l] using rev_ind; [cbn in *; congruence|]. rewrite last_last.
    change (false :: l ++ [x]) with ((false :: l) ++ [x]) in Hc. rewrite app_length in Hc; cbn [length] in Hc.
    rewrite nth_error_app2 in Hc by (cbn; lia). replace (length l + 1 - length (false :: l)) with 0 in Hc by (cbn; lia). cbn in Hc. congruence.
Qed.
Lemma told_theorem cs : forall n n', n_run n cs = Ok n' -> Forall (fun c => match c with SetModified _ => True | _ => ~ asks c end) cs ->
  heard (n_told n) = n_modified n -> news (n_told n) -> heard (n_told n') = n_modified n' /\ news (n_told n').
Proof.
  induction cs as [|[c|b] cs IH]; intros n n' H Hc Hh Hw; cbn [n_run n_step] in H; [injection H as <-; auto| |]; inversion Hc; subst.
  - destruct (marks (n_session n) c) as [b| |] eqn:E; cbn in H; try discriminate.
    destruct (s_step (n_session n) c) as [s| |]; cbn in H; try discriminate. destruct b; [destruct H2; eapply marks_asks; exact E|].
    eapply IH; [exact H|assumption| |]; cbn; [rewrite orb_false_r; exact Hh|exact Hw].
  - destruct (Bool.eqb (n_modified n) b) eqn:E; cbn in H.
    + eapply IH; eauto.
    + eapply IH; [exact H|assumption| |]; cbn.
      * unfold heard. apply last_last.
      * apply news_snoc; [exact Hw|]. intro Hb. rewrite Hh in Hb. rewrite Hb in E. rewrite Bool.eqb_reflx in E. discriminate.
Qed.
