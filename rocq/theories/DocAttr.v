(** Paragraph attributes (list membership and block format), refreshed
    positions and removal of merged paragraphs. *)
From Verif Require Import Base BaseFacts FormatRunsModel FormatRunsSpec FormatRunsFacts
  RopeModel RopeSpec RopeFacts DocModel DocSpec BlockFacts DocInv DocFacts.
From Coq Require Import Permutation.

(** ** Attributes *)

Definition same_attr (d d' : doc) : Prop := forall i, attr d' i = attr d i.

Lemma same_attr_refl d : same_attr d d. Proof. easy. Qed.
Lemma same_attr_trans a b c : same_attr a b -> same_attr b c -> same_attr a c.
Proof. intros H1 H2 i. now rewrite H2, H1. Qed.
Lemma same_attr_blocks d d' : d_blocks d' = d_blocks d -> same_attr d d'.
Proof. intros H i. unfold attr, get_block. now rewrite H. Qed.

Lemma find_put bs b i :
  In (b_id b) (map b_id bs) ->
  find_block (put_block bs b) i =
  if N.eqb (b_id b) i then option_map (fun x => set_b_list b (b_list x)) (find_block bs (b_id b))
  else find_block bs i.
Proof.
  induction bs as [|x bs IH]; cbn [map In put_block find_block]; [easy|]. intros H.
  destruct (N.eqb_spec (b_id x) (b_id b)) as [E|E]; cbn [find_block].
  - cbn [set_b_list b_id option_map]. rewrite E. now destruct (N.eqb_spec (b_id b) i).
  - rewrite IH by tauto. destruct (N.eqb_spec (b_id b) i) as [E1|E1]; [|easy].
    destruct (N.eqb_spec (b_id x) i) as [E2|E2]; [congruence|easy].
Qed.

Lemma attr_update d b :
  attr d (b_id b) = Some (b_list b, b_fmt b) -> same_attr d (update_block d b).
Proof.
  intros H i. unfold attr, get_block in *. cbn [d_blocks update_block set_blocks].
  rewrite find_put.
  - destruct (N.eqb_spec (b_id b) i) as [<-|]; [|easy].
    destruct (find_block (d_blocks d) (b_id b)) as [x|]; [|easy].
    cbn in *. rewrite H. injection H as H1 H2. now rewrite H1.
  - destruct (find_block (d_blocks d) (b_id b)) as [x|] eqn:E; [|easy].
    apply find_block_some in E. destruct E as [<- E]. now apply in_map.
Qed.

Lemma attr_update_multi d bs :
  (forall b, In b bs -> attr d (b_id b) = Some (b_list b, b_fmt b)) -> same_attr d (update_multi d bs).
Proof.
  revert d; induction bs as [|b bs IH]; intros d H; [apply same_attr_refl|].
  assert (M : same_attr d (update_block d b)) by (apply attr_update, H; now left).
  eapply same_attr_trans; [exact M|]. apply IH. intros x Hx. rewrite M. apply H. now right.
Qed.

Lemma get_multi_attr d is_ b : In b (get_multi d is_) -> attr d (b_id b) = Some (b_list b, b_fmt b).
Proof.
  induction is_ as [|i is_ IH]; cbn [get_multi]; [easy|].
  destruct (get_block d i) as [x|] eqn:E; [|easy].
  intros [<-|H]; [|auto]. unfold attr. pose proof (find_block_some _ _ _ E) as [-> _].
  now rewrite E.
Qed.


(** ** List membership *)

Lemma meta_set_list d i l : meta d (set_block_list d i l).
Proof.
  constructor; try reflexivity. cbn [set_block_list set_blocks d_blocks]. rewrite map_map. apply map_ext.
  intros b. now destruct (N.eqb (b_id b) i).
Qed.
Lemma get_set_list d i l j : get_block (set_block_list d i l) j
  = option_map (fun b => if N.eqb j i then set_b_list b l else b) (get_block d j).
Proof.
  unfold get_block. cbn [set_block_list set_blocks d_blocks]. induction (d_blocks d) as [|b bs IH]; [easy|].
  cbn [map find_block]. destruct (N.eqb_spec (b_id b) i) as [<-|H]; cbn [set_b_list b_id].
  - destruct (N.eqb_spec (b_id b) j) as [<-|H']; [now rewrite N.eqb_refl|exact IH].
  - destruct (N.eqb_spec (b_id b) j) as [<-|H']; [|exact IH]. cbn [option_map].
    now destruct (N.eqb_spec (b_id b) i).
Qed.

Lemma para_attrs_same d d' : same_attr d d' -> d_order d' = d_order d -> para_attrs d' = para_attrs d.
Proof. intros H E. unfold para_attrs. rewrite E. now apply map_ext. Qed.


Lemma filter_brk_styled off t runs : filter is_break (styled_from off t runs) = [].
Proof. revert off; induction t; intros; cbn; auto. Qed.
Lemma filter_brk_ipre R l : length (filter is_break (ipre R l)) = length l.
Proof.
  induction l as [|[b t] l IH]; [easy|].
  rewrite ipre_cons, filter_app. unfold styled at 1. rewrite filter_brk_styled. cbn. now rewrite IH.
Qed.
Lemma breaks_items R pre b t post i :
  i <= length t -> breaks (cpre pre + i) (items_of R (pre ++ (b, t) :: post)) = length pre.
Proof.
  intros Hi. unfold breaks. rewrite firstn_items by easy. rewrite filter_app. unfold styled.
  now rewrite filter_brk_styled, app_nil_r, filter_brk_ipre.
Qed.

(** ** Positions in a list of ids *)

Lemma pos_of_id_mid pre i post : ~ In i pre -> pos_of_id i (pre ++ i :: post) = Some (length pre).
Proof.
  induction pre as [|x pre IH]; cbn [app pos_of_id In length]; intros H.
  - now rewrite N.eqb_refl.
  - destruct (N.eqb_spec x i); [tauto|]. now rewrite IH by tauto.
Qed.
Lemma index_of_ids i bs : index_of_block i bs = pos_of_id i (map b_id bs).
Proof.
  induction bs as [|b bs IH]; cbn [index_of_block map pos_of_id]; [easy|].
  now rewrite IH.
Qed.
Lemma index_of_paras bs (pre post : list para) b t :
  map b_id bs = map fst (pre ++ (b, t) :: post) -> NoDup (map fst (pre ++ (b, t) :: post)) ->
  index_of_block b bs = Some (length pre).
Proof.
  intros E N. rewrite index_of_ids, E. apply nodup_mid in N. destruct N as [N _].
  rewrite map_app. cbn [map fst]. rewrite pos_of_id_mid by easy. now rewrite map_length.
Qed.

(** ** Refreshing the stored positions *)

Definition pos_of (d : doc) (i : id) : option Z := option_map b_pos (get_block d i).

(** Stored positions after a batch of updates. *)
Lemma pos_update e b i : In (b_id b) (map b_id (d_blocks e)) ->
  pos_of (update_block e b) i = if N.eqb (b_id b) i then Some (b_pos b) else pos_of e i.
Proof.
  intros H. unfold pos_of, get_block. cbn [update_block d_blocks set_blocks]. rewrite find_put by easy.
  destruct (N.eqb_spec (b_id b) i); [|easy].
  destruct (find_block_in _ _ H) as (x & -> & _). reflexivity.
Qed.

Lemma pos_update_multi l : forall e i, NoDup (map b_id l) ->
  (forall y, In y l -> In (b_id y) (map b_id (d_blocks e))) ->
  pos_of (update_multi e l) i = match find_block l i with Some y => Some (b_pos y) | None => pos_of e i end.
Proof.
  induction l as [|y l IH]; intros e i ND H; [easy|].
  change (update_multi e (y :: l)) with (update_multi (update_block e y) l).
  inversion ND as [|? ? N1 N2]; subst. rewrite IH; [|easy|].
  - cbn [find_block]. destruct (N.eqb_spec (b_id y) i) as [<-|N].
    + rewrite find_block_none by easy. rewrite pos_update by (apply H; now left). now rewrite N.eqb_refl.
    + destruct (find_block l i); [easy|]. rewrite pos_update by (apply H; now left). now rewrite (proj2 (N.eqb_neq _ _) N).
  - intros z Hz. cbn [update_block d_blocks set_blocks]. rewrite put_ids by (apply H; now left). apply H. now right.
Qed.

Lemma get_multi_get d is_ b : In b (get_multi d is_) -> get_block d (b_id b) = Some b.
Proof.
  induction is_ as [|i is_ IH]; cbn [get_multi]; [easy|]. destruct (get_block d i) as [x|] eqn:E; [|auto].
  intros [<-|H]; [|auto]. pose proof (find_block_some _ _ _ E) as [-> _]. exact E.
Qed.

(** Shifting the positions of the paragraphs in [l]. *)

Fixpoint para_starts (n : Z) (l : list para) : list Z :=
  match l with [] => [] | (_, t) :: rest => n :: para_starts (n + Z.of_nat (length t) + 1)%Z rest end.

Lemma map_set_head done b rest b' :
  b_id b' = b_id b -> NoDup (map b_id (done ++ b :: rest)) ->
  map (fun x => if N.eqb (b_id x) (b_id b) then b' else x) (done ++ b :: rest) = done ++ b' :: rest.
Proof.
  intros E N. rewrite map_app in *. cbn [map] in *. apply NoDup_remove_2 in N. rewrite in_app_iff in N.
  rewrite N.eqb_refl. f_equal; [|f_equal].
  - rewrite <- (map_id done) at 2. apply map_ext_in. intros x Hx.
    destruct (N.eqb_spec (b_id x) (b_id b)) as [E'|]; [|easy].
    exfalso. apply N. left. rewrite <- E'. now apply in_map.
  - rewrite <- (map_id rest) at 2. apply map_ext_in. intros x Hx.
    destruct (N.eqb_spec (b_id x) (b_id b)) as [E'|]; [|easy].
    exfalso. apply N. right. rewrite <- E'. now apply in_map.
Qed.

Lemma find_head done b rest :
  NoDup (map b_id (done ++ b :: rest)) -> find_block (done ++ b :: rest) (b_id b) = Some b.
Proof.
  intros N. rewrite map_app in N. cbn [map] in N. apply NoDup_remove_2 in N. rewrite in_app_iff in N.
  induction done as [|x done IH]; cbn [app find_block].
  - now rewrite N.eqb_refl.
  - destruct (N.eqb_spec (b_id x) (b_id b)) as [E|E]; [exfalso; apply N; left; now left|].
    apply IH. intros [H|H]; apply N; [left; now right|now right].
Qed.

Lemma refresh_wf d ps : wf d ps -> forall l done rest running,
  incl l ps -> map b_id rest = map fst l -> NoDup (map b_id (done ++ rest)) ->
  exists rest' todo,
    refresh_positions d (map fst l) running (done ++ rest) = Ok (done ++ rest', todo)
    /\ map b_id rest' = map fst l /\ map b_pos rest' = para_starts running l
    /\ (forall b, In b todo -> exists x, In x rest /\ b_id b = b_id x /\ b_list b = b_list x /\ b_fmt b = b_fmt x)
    /\ (forall b, In b rest' -> exists x, In x rest /\ b_id b = b_id x /\ b_list b = b_list x /\ b_fmt b = b_fmt x)
    /\ NoDup (map b_id todo) /\ (forall b, In b todo -> In b rest') /\ (forall b, In b rest' -> In b todo \/ In b rest).
Proof.
  intros W. induction l as [|[i t] l IH]; intros done rest running Hl Hids N.
  - destruct rest; [|discriminate]. exists [], []. cbn. repeat split; try easy. constructor.
  - destruct rest as [|b rest]; [discriminate|]. cbn [map fst] in Hids. injection Hids as Hb Hids.
    cbn [map fst refresh_positions].
    rewrite <- Hb, (find_head _ _ _ N).
    rewrite Hb, (wf_length_in _ _ i t W (Hl _ (or_introl eq_refl))). cbn [bind].
    assert (Hl' : incl l ps) by (intros x Hx; apply Hl; now right).
    destruct (b_pos b =? running)%Z eqn:Ep.
    + destruct (IH (done ++ [b]) rest (running + Z.of_nat (length t) + 1)%Z Hl' Hids)
        as (rest' & todo & E & H1 & H2 & H3 & H4 & H5 & H6 & H7).
      { now rewrite <- app_assoc. }
      rewrite <- !app_assoc in E. cbn [app] in E. rewrite E.
      exists (b :: rest'), todo. split; [easy|]. cbn [map para_starts].
      repeat split; [congruence|f_equal; [lia|easy]| | |exact H5|intros x Hx; right; now apply H6|].
      * intros x Hx. destruct (H3 _ Hx) as (y & Hy & ?). exists y. split; [now right|easy].
      * intros x [<-|Hx]; [exists b; split; [now left|easy]|].
        destruct (H4 _ Hx) as (y & Hy & ?). exists y. split; [now right|easy].
      * intros x [<-|Hx]; [right; now left|]. destruct (H7 _ Hx); [now left|right; now right].
    + rewrite <- Hb. rewrite map_set_head by easy. rewrite Hb.
      destruct (IH (done ++ [set_b_pos b running]) rest (running + Z.of_nat (length t) + 1)%Z Hl' Hids)
        as (rest' & todo & E & H1 & H2 & H3 & H4 & H5 & H6 & H7).
      { rewrite <- app_assoc. cbn [app]. rewrite map_app in *. exact N. }
      rewrite <- !app_assoc in E. cbn [app] in E. rewrite E. cbn [bind].
      exists (set_b_pos b running :: rest'), (set_b_pos b running :: todo).
      split; [easy|]. cbn [map para_starts].
      repeat split; [cbn; congruence|f_equal; easy| | | | |].
      * intros x [<-|Hx]; [exists b; split; [now left|easy]|].
        destruct (H3 _ Hx) as (y & Hy & ?). exists y. split; [now right|easy].
      * intros x [<-|Hx]; [exists b; split; [now left|easy]|].
        destruct (H4 _ Hx) as (y & Hy & ?). exists y. split; [now right|easy].
      * constructor; [|exact H5]. cbn [b_id set_b_pos]. intros Hx. apply in_map_iff in Hx. destruct Hx as (y & Ey & Hy).
        destruct (H3 _ Hy) as (z & Hz & Ez & _). rewrite map_app in N. cbn [map] in N. apply NoDup_remove_2 in N. apply N.
        rewrite in_app_iff. right. rewrite <- Ey, Ez. now apply in_map.
      * intros x [<-|Hx]; [now left|right; now apply H6].
      * intros x [<-|Hx]; [left; now left|]. destruct (H7 _ Hx); [left; now right|right; now right].
Qed.

Lemma starts_sorted bs n l : map b_pos bs = para_starts n l -> sorted_pos bs.
Proof.
  revert n bs; induction l as [|[i t] l IH]; intros n [|b bs]; cbn [map para_starts]; try easy.
  intros [= H1 H2]. pose proof (IH _ _ H2) as S. destruct bs as [|b' bs]; [easy|].
  cbn [sorted_pos]. split; [|easy]. destruct l as [|[i' t'] l]; [discriminate|].
  cbn [map para_starts] in H2. injection H2 as H2 _. lia.
Qed.

Lemma update_multi_chars d bs : d_chars (update_multi d bs) = d_chars d.
Proof.
  revert d; induction bs as [|b l IH]; intros d; [easy|].
  unfold update_multi in *. cbn [fold_left]. now rewrite IH.
Qed.
Lemma update_multi_nblocks d bs : d_nblocks (update_multi d bs) = d_nblocks d.
Proof.
  revert d; induction bs as [|b l IH]; intros d; [easy|].
  unfold update_multi in *. cbn [fold_left]. now rewrite IH.
Qed.

Lemma start_of_mid pre q t post : forall n, nth_error (para_starts n (pre ++ (q, t) :: post)) (length pre) = Some (n + Z.of_nat (cpre pre))%Z.
Proof.
  induction pre as [|[i u] pre IH]; intros n; cbn [app para_starts length nth_error].
  - f_equal. cbn. lia.
  - rewrite IH. f_equal. rewrite cpre_cons. lia.
Qed.

Lemma nodup_id_inj bs (x y : block) : NoDup (map b_id bs) -> In x bs -> In y bs -> b_id x = b_id y -> x = y.
Proof.
  induction bs as [|b bs IH]; cbn [map]; [easy|]. intros N Hx Hy E. inversion N as [|? ? N1 N2]; subst.
  destruct Hx as [<-|Hx], Hy as [<-|Hy]; [easy| | |now apply IH].
  - exfalso. apply N1. rewrite E. now apply in_map.
  - exfalso. apply N1. rewrite <- E. now apply in_map.
Qed.

(** The first part of [delete_text]: fresh positions, and the block list in
    display order. *)
Lemma refresh_full d ps :
  wf d ps ->
  exists bs todo,
    refresh_positions d (d_order d) 0 (get_multi d (collect_block_ids d)) = Ok (bs, todo)
    /\ sort_blocks bs = bs /\ map b_id bs = map fst ps /\ map b_pos bs = para_starts 0 ps
    /\ meta d (update_multi d todo) /\ same_attr d (update_multi d todo)
    /\ d_chars (update_multi d todo) = d_chars d /\ d_nblocks (update_multi d todo) = d_nblocks d
    /\ (forall b, In b bs -> attr d (b_id b) = Some (b_list b, b_fmt b))
    /\ (forall pre q t post, ps = pre ++ (q, t) :: post -> pos_of (update_multi d todo) q = Some (Z.of_nat (cpre pre))).
Proof.
  intros W. pose proof (wf_multi _ _ W) as M.
  set (g := get_multi d (collect_block_ids d)) in *.
  destruct (refresh_wf _ _ W ps [] g 0%Z) as (bs & todo & E & H1 & H2 & H3 & H4 & H5 & H6 & H7).
  - intros x H; exact H.
  - exact M.
  - cbn [app]. rewrite M. eapply wf_nodup, W.
  - cbn [app] in E. rewrite <- (wf_order _ _ W) in E.
    assert (Hattr : forall b, In b g -> attr d (b_id b) = Some (b_list b, b_fmt b)).
    { intros b Hb. now apply get_multi_attr in Hb. }
    assert (Hids : forall b, In b g -> In (b_id b) (map b_id (d_blocks d))).
    { intros b Hb. apply get_multi_in in Hb. apply in_map. tauto. }
    exists bs, todo. split; [easy|]. split; [eapply sort_id, starts_sorted, H2|].
    split; [easy|]. split; [easy|]. split; [|split; [|split; [|split; [|split]]]].
    + apply meta_update_multi. intros i Hi. apply in_map_iff in Hi. destruct Hi as (b & <- & Hb).
      destruct (H3 _ Hb) as (x & Hx & -> & _). now apply Hids.
    + apply attr_update_multi. intros b Hb. destruct (H3 _ Hb) as (x & Hx & -> & -> & ->). now apply Hattr.
    + apply update_multi_chars.
    + apply update_multi_nblocks.
    + intros b Hb. destruct (H4 _ Hb) as (x & Hx & -> & -> & ->). now apply Hattr.
    + intros pre q t post ->.
      assert (Hn : nth_error (map b_id bs) (length pre) = Some q).
      { rewrite H1, map_app, nth_error_app2; rewrite map_length; [|easy]. now rewrite Nat.sub_diag. }
      assert (Hp : nth_error (map b_pos bs) (length pre) = Some (Z.of_nat (cpre pre))).
      { rewrite H2. clear. pose proof (start_of_mid pre q t post 0%Z). now rewrite Z.add_0_l in H. }
      rewrite !nth_error_map in *. destruct (nth_error bs (length pre)) as [b|] eqn:Eb; [|easy].
      cbn [option_map] in Hn, Hp. injection Hn as Hn. injection Hp as Hp. apply nth_error_In in Eb.
      rewrite pos_update_multi; [|exact H5|].
      2:{ intros y Hy. destruct (H3 _ Hy) as (x & Hx & -> & _). now apply Hids. }
      assert (NDb : NoDup (map b_id bs)) by (rewrite H1; eapply wf_nodup, W).
      destruct (in_dec N.eq_dec q (map b_id todo)) as [Hq|Hq].
      * destruct (find_block_in _ _ Hq) as (y & -> & Iy & Hy). rewrite <- Hp. f_equal. f_equal.
        eapply nodup_id_inj; [exact NDb|now apply H6|exact Eb|congruence].
      * rewrite find_block_none by easy. destruct (H7 _ Eb) as [Hb|Hb].
        -- exfalso. apply Hq. rewrite <- Hn. now apply in_map.
        -- apply get_multi_get in Hb. rewrite Hn in Hb. unfold pos_of. rewrite Hb. cbn. now rewrite Hp.
Qed.

(** ** Dropping merged paragraphs *)

Definition among (gone : list id) (i : id) : bool := existsb (N.eqb i) gone.
Definition keep (gone : list id) (l : list id) : list id := filter (fun i => negb (among gone i)) l.

Lemma among_spec gone i : among gone i = true <-> In i gone.
Proof.
  unfold among. rewrite existsb_exists. split.
  - intros (x & H & E). apply N.eqb_eq in E. now subst.
  - intros H. exists i. split; [easy|apply N.eqb_refl].
Qed.
Lemma among_false gone i : among gone i = false <-> ~ In i gone.
Proof. rewrite <- among_spec. destruct (among gone i); split; congruence. Qed.

Lemma keep_disjoint gone l : (forall i, In i l -> ~ In i gone) -> keep gone l = l.
Proof.
  induction l as [|x l IH]; intros H; [easy|]. cbn [keep filter]. 
  assert (E : among gone x = false) by (apply among_false, H; now left).
  rewrite E. cbn [negb]. f_equal. apply IH. intros; apply H; now right.
Qed.
Lemma keep_self gone l : incl l gone -> keep gone l = [].
Proof.
  induction l as [|x l IH]; intros H; [easy|]. cbn [keep filter].
  assert (E : among gone x = true) by (apply among_spec, H; now left).
  rewrite E. cbn [negb]. apply IH. intros y Hy; apply H; now right.
Qed.
Lemma keep_app gone a b : keep gone (a ++ b) = keep gone a ++ keep gone b.
Proof. apply filter_app. Qed.
Lemma keep_mid a g c : NoDup (a ++ g ++ c) -> keep g (a ++ g ++ c) = a ++ c.
Proof.
  intros N. rewrite !keep_app, (keep_self g g) by (intros x H; exact H). cbn [app]. f_equal; apply keep_disjoint.
  - intros i Hi Hg. eapply nodup_app_disj; [exact N|exact Hi|]. rewrite in_app_iff. now left.
  - intros i Hi Hg. apply nodup_app_r in N. eapply nodup_app_disj; [exact N|exact Hg|exact Hi].
Qed.

Lemma keep_perm g l l' : Permutation l l' -> Permutation (keep g l) (keep g l').
Proof.
  induction 1 as [|x l l' P IH|x y l|l1 l2 l3 P1 IH1 P2 IH2]; cbn [keep filter]; auto.
  - destruct (negb _); auto.
  - destruct (negb (among g x)), (negb (among g y)); auto. constructor.
  - etransitivity; eauto.
Qed.

Lemma without_keep i gone l : keep gone (without i l) = keep (i :: gone) l.
Proof.
  induction l as [|x l IH]; [easy|]. cbn [without keep filter among existsb].
  destruct (N.eqb_spec x i) as [E|E]; cbn [negb orb].
  - exact IH.
  - cbn [keep filter]. fold (among gone x). destruct (negb (among gone x)); [f_equal|]; exact IH.
Qed.

Lemma blocks_keep gone bs :
  map b_id (filter (fun b => negb (among gone (b_id b))) bs) = keep gone (map b_id bs).
Proof.
  induction bs as [|b bs IH]; [easy|]. cbn [filter map keep].
  destruct (negb (among gone (b_id b))); cbn [map]; [f_equal|]; exact IH.
Qed.

Lemma find_filter gone bs i :
  ~ In i gone -> find_block (filter (fun b => negb (among gone (b_id b))) bs) i = find_block bs i.
Proof.
  intros H. apply among_false in H. induction bs as [|b bs IH]; [easy|]. cbn [filter find_block].
  destruct (N.eqb_spec (b_id b) i) as [E|E].
  - rewrite E, H. cbn [negb find_block]. subst. now rewrite N.eqb_refl.
  - destruct (negb (among gone (b_id b))); [|easy]. cbn [find_block].
    destruct (N.eqb_spec (b_id b) i); [easy|exact IH].
Qed.

Lemma remove_merged_ok gone : forall d,
  (forall i, In i gone -> rope_remove_block (d_rs d) i = Ok (d_rs d)) ->
  exists d', remove_merged d gone = Ok d'
    /\ d_rs d' = d_rs d
    /\ d_blocks d' = filter (fun b => negb (among gone (b_id b))) (d_blocks d)
    /\ (forall k, d_runs d' k = if among gone k then [] else d_runs d k)
    /\ (forall k, d_images d' k = if among gone k then [] else d_images d k)
    /\ d_fblocks d' = keep gone (d_fblocks d)
    /\ keep gone (d_order d') = keep gone (d_order d)
    /\ d_chars d' = d_chars d /\ d_nblocks d' = d_nblocks d /\ d_next d' = d_next d.
Proof.
  induction gone as [|i gone IH]; intros d H.
  - exists d. cbn [remove_merged among existsb negb].
    assert (Hf : forall l : list block, filter (fun _ => true) l = l).
    { induction l as [|x l IHl]; cbn; [easy|]. now rewrite IHl. }
    repeat split; try easy; try (now rewrite Hf); try (symmetry; now apply keep_disjoint).
  - cbn [remove_merged]. cbn [d_rs set_images set_runs].
    rewrite (H i (or_introl eq_refl)). cbn [bind].
    set (d1 := remove_block _ i).
    destruct (IH d1) as (d' & E & H1 & H2 & H3 & H4 & H5 & H6 & H7 & H8 & H9).
    { intros k Hk. cbn. apply H. now right. }
    exists d'. split; [exact E|]. split; [exact H1|]. split; [|split; [|split; [|split; [|split]]]].
    + rewrite H2. cbn. clear. induction (d_blocks d) as [|b bs IH]; [easy|].
      cbn [filter among existsb]. destruct (N.eqb (b_id b) i); cbn [negb orb filter]; [exact IH|].
      unfold among in *. destruct (negb (existsb (N.eqb (b_id b)) gone)); [f_equal|]; exact IH.
    + intros k. rewrite H3. cbn. unfold upd. unfold among. destruct (N.eqb k i); cbn [orb]; [|easy].
      now destruct (existsb _ _).
    + intros k. rewrite H4. cbn. unfold upd. unfold among. destruct (N.eqb k i); cbn [orb]; [|easy].
      now destruct (existsb _ _).
    + rewrite H5. apply without_keep.
    + assert (G : keep gone (d_order d1) = keep gone (d_order d) \/
                  keep gone (d_order d1) = keep (i :: gone) (d_order d)).
      { cbn. destruct (existsb _ _); [right; apply without_keep|now left]. }
      assert (K : forall l, keep (i :: gone) l = without i (keep gone l)).
      { induction l as [|x l IHl]; [easy|].
        change (keep (i :: gone) (x :: l))
          with (if negb (N.eqb x i || among gone x) then x :: keep (i :: gone) l else keep (i :: gone) l).
        change (keep gone (x :: l)) with (if negb (among gone x) then x :: keep gone l else keep gone l).
        rewrite IHl. destruct (among gone x), (N.eqb x i) eqn:Ex; cbn [negb orb without filter];
          rewrite ?Ex; easy. }
      assert (WW : forall l, without i (without i l) = without i l).
      { induction l as [|x l IHl]; [easy|]. cbn [without filter].
        destruct (N.eqb x i) eqn:Ex; cbn [negb filter]; [exact IHl|]. rewrite Ex. cbn [negb]. f_equal. exact IHl. }
      rewrite (K (d_order d')), H6. destruct G as [-> | ->].
      * now rewrite <- K.
      * rewrite K. apply WW.
    + repeat split; [exact H7|exact H8|exact H9].
Qed.
