(** List membership and numbering. *)
From Verif Require Import Base BaseFacts FormatRunsModel FormatRunsSpec FormatRunsFacts
  RopeModel RopeSpec RopeFacts DocModel DocSpec BlockFacts DocInv DocFacts DocAttr DocFormat DocReach DocFresh
  QueryModel QueryText ReplaceExact PropSpec DocTheorems QueryTheorems DocRefuted ListModel ListSpec ListDocModel ListDocSpec.
From Coq Require Import Permutation.
From Verif Require ListFacts ImportFacts.

(** ** Order of the items *)

Lemma filter_insert P b l : weakly l ->
  filter P (insert_sorted b l) = if P b then insert_sorted b (filter P l) else filter P l.
Proof.
  induction l as [|x l IH]; intros H; [cbn; now destruct (P b)|]. destruct H as [H1 H2]. cbn [insert_sorted].
  destruct (b_pos b <=? b_pos x)%Z eqn:E.
  - cbn [filter]. destruct (P b); [|easy]. destruct (P x) eqn:Ex; cbn [insert_sorted]; [now rewrite E|].
    destruct (filter P l) as [|y m] eqn:Ef; [easy|]. cbn [insert_sorted].
    assert (Hy : In y l) by (apply (filter_In P); rewrite Ef; now left). rewrite Forall_forall in H1.
    pose proof (H1 _ Hy). assert (E2 : (b_pos b <=? b_pos y)%Z = true) by lia. now rewrite E2.
  - cbn [filter]. rewrite (IH H2). destruct (P b), (P x); cbn [insert_sorted]; now rewrite ?E.
Qed.
Lemma filter_sort P l : sort_blocks (filter P l) = filter P (sort_blocks l).
Proof.
  induction l as [|b l IH]; [easy|]. change (sort_blocks (b :: l)) with (insert_sorted b (sort_blocks l)).
  rewrite filter_insert by apply sort_weakly. cbn [filter]. destruct (P b); [|easy].
  change (sort_blocks (b :: filter P l)) with (insert_sorted b (sort_blocks (filter P l))). now rewrite IH.
Qed.

Lemma find_block_nodup bs x : NoDup (map b_id bs) -> In x bs -> find_block bs (b_id x) = Some x.
Proof.
  induction bs as [|b bs IH]; cbn [map In find_block]; intros ND H; [easy|]. inversion ND as [|? ? N1 N2]; subst.
  destruct H as [->|H]; [now rewrite N.eqb_refl|]. destruct (N.eqb_spec (b_id b) (b_id x)) as [E|]; [|auto].
  destruct N1. rewrite E. now apply in_map.
Qed.
Lemma wf_blocks_nodup d ps : wf d ps -> NoDup (map b_id (d_blocks d)).
Proof. intros W. eapply Permutation_NoDup; [symmetry; apply (wf_ids _ _ W)|]. eapply wf_nodup, W. Qed.

Lemma wf_unique d ps b t u : wf d ps -> In (b, t) ps -> In (b, u) ps -> t = u.
Proof.
  intros W. apply wf_nodup in W. induction ps as [|[c v] ps IH]; [easy|]. cbn [map fst] in W. inversion W as [|? ? N1 N2]; subst.
  intros [[= -> ->]|H1] [[= H2]|H2]; auto.
  - destruct N1. apply in_map_iff. now exists (b, u).
  - subst. destruct N1. apply in_map_iff. now exists (b, t).
Qed.

Definition is_member (d : doc) (l i : id) : bool :=
  match attr d i with Some (Some l', _) => N.eqb l' l | _ => false end.

Lemma list_blocks_wf d ps l : wf d ps -> exists bs, list_blocks d l = Ok bs /\ map b_id bs = members d l.
Proof.
  intros W. destruct (blocks_sorted_wf _ _ W) as (bs & E & M). unfold blocks_sorted in E. unfold list_blocks.
  rewrite (refreshed_all_wf _ _ W) in *.
  2,3: intros b Hb; eapply Permutation_in; [apply (wf_ids _ _ W)|]; now apply in_map.
  cbn [bind] in *. injection E as E. eexists. split; [reflexivity|]. rewrite filter_sort, E.
  unfold members. rewrite (wf_order _ _ W), <- M.
  assert (H : forall b, In b bs -> in_list l b = is_member d l (b_id b)).
  { intros b Hb. rewrite <- E in Hb. apply (Permutation_in _ (sort_perm _)) in Hb. apply in_map_iff in Hb.
    destruct Hb as (x & <- & Hx). unfold is_member, attr, get_block. cbn [set_b_pos b_id].
    rewrite (find_block_nodup _ _ (wf_blocks_nodup _ _ W) Hx). cbn. unfold in_list. cbn. now destruct (b_list x). }
  clear - H. induction bs as [|b bs IH]; [easy|]. cbn [map filter]. rewrite H by (now left). unfold is_member.
  rewrite <- IH by (intros; apply H; now right).
  destruct (match attr d (b_id b) with Some (Some l', _) => N.eqb l' l | _ => false end); easy.
Qed.

Lemma members_nodup d ps l : wf d ps -> NoDup (members d l).
Proof. intros W. unfold members. rewrite (wf_order _ _ W). apply NoDup_filter. eapply wf_nodup, W. Qed.

Lemma pos_of_nth is_ k i : NoDup is_ -> nth_error is_ k = Some i -> pos_of_id i is_ = Some k.
Proof.
  intros ND H. apply nth_error_split in H. destruct H as (a & b & -> & <-). apply pos_of_id_mid.
  apply NoDup_remove_2 in ND. rewrite in_app_iff in ND. tauto.
Qed.

Lemma list_order_theorem d l : reach d ->
  list_count d l = length (members d l)
  /\ (forall k, list_item d l k = Ok (nth_error (members d l) k))
  /\ (forall k i, nth_error (members d l) k = Some i -> list_item_index d i = Ok (Some k)).
Proof.
  intros R. destruct (reach_wf _ R) as [ps W]. destruct (list_blocks_wf _ _ l W) as (bs & E & M).
  split; [|split].
  - unfold list_blocks in E. rewrite (refreshed_all_wf _ _ W) in E.
    2: intros b Hb; eapply Permutation_in; [apply (wf_ids _ _ W)|]; now apply in_map.
    cbn [bind] in E. injection E as E. rewrite <- M, map_length, <- E.
    rewrite (Permutation_length (sort_perm _)). unfold list_count. clear.
    induction (d_blocks d) as [|b bs IH]; [easy|]. cbn [map filter].
    change (in_list l (set_b_pos b (Z.of_nat (start_in ps (b_id b) 0)))) with (in_list l b).
    destruct (in_list l b); cbn [length]; now rewrite IH.
  - intros k. unfold list_item. rewrite E. cbn [bind]. now rewrite <- nth_error_map, M.
  - intros k i H. assert (Hi : In i (members d l)) by (eapply nth_error_In, H). apply filter_In in Hi.
    destruct Hi as [_ Hi]. unfold list_item_index, block_list. unfold attr in Hi.
    destruct (get_block d i) as [b|]; [|easy]. cbn in Hi. destruct (b_list b) as [l'|]; [|easy].
    apply N.eqb_eq in Hi. subst l'. rewrite E. cbn [bind]. rewrite index_of_ids, M.
    now rewrite (pos_of_nth _ _ _ (members_nodup _ _ l W) H).
Qed.

(** ** Joining and leaving *)

Lemma attr_set_list d i l j : attr (set_block_list d i l) j
  = option_map (fun x => if N.eqb j i then (l, snd x) else x) (attr d j).
Proof.
  unfold attr. rewrite get_set_list. destruct (get_block d j) as [b|]; [|easy]. cbn. now destruct (N.eqb j i).
Qed.
Lemma read_same d d' is_ : d_rs d' = d_rs d -> d_runs d' = d_runs d -> read_items d' is_ = read_items d is_.
Proof. intros H1 H2. induction is_ as [|i is_ IH]; [easy|]. cbn [read_items]. now rewrite H1, H2, IH. Qed.
Lemma items_set_list d i l : doc_items (set_block_list d i l) = doc_items d.
Proof. now apply read_same. Qed.
Lemma attr_in_order d ps i : wf d ps -> In i (d_order d) -> exists l f, attr d i = Some (l, f).
Proof.
  intros W H. rewrite (wf_order _ _ W) in H. destruct (wf_get _ _ _ W H) as (x & Ex & _). unfold attr.
  rewrite Ex. cbn. eauto.
Qed.
Lemma has_block_order d ps i : wf d ps -> (get_block d i <> None <-> In i (d_order d)).
Proof.
  intros W. rewrite (wf_order _ _ W). split; intros H.
  - destruct (get_block d i) as [x|] eqn:E; [|easy]. apply find_block_some in E. destruct E as [<- E].
    eapply Permutation_in; [apply (wf_ids _ _ W)|]. now apply in_map.
  - destruct (wf_get _ _ _ W H) as (x & Ex & _). congruence.
Qed.

Lemma join_theorem L i l e : reach (l_doc L) -> In i (d_order (l_doc L)) -> get_list L l = Some e ->
  exists L', add_block_to_list L i l = Ok L' /\ reach (l_doc L') /\ doc_items (l_doc L') = doc_items (l_doc L)
   /\ d_order (l_doc L') = d_order (l_doc L) /\ l_lists L' = l_lists L
   /\ (forall l0 f, attr (l_doc L) i = Some (l0, f) -> attr (l_doc L') i = Some (Some l, f))
   /\ (forall j, j <> i -> attr (l_doc L') j = attr (l_doc L) j).
Proof.
  intros R Hi Hl. destruct (reach_wf _ R) as [ps W]. unfold add_block_to_list.
  apply (has_block_order _ _ _ W) in Hi. destruct (get_block (l_doc L) i) as [b|] eqn:Eb; [|easy].
  rewrite Hl. cbn [ok_or bind]. eexists. split; [reflexivity|]. cbn [l_doc l_lists]. split; [now constructor|].
  split; [apply items_set_list|]. split; [easy|]. split; [easy|]. split.
  - intros l0 f H. rewrite attr_set_list, H, N.eqb_refl. reflexivity.
  - intros j H. rewrite attr_set_list. apply N.eqb_neq in H. rewrite H. now destruct (attr (l_doc L) j).
Qed.
Lemma join_error_theorem L i l : reach (l_doc L) -> ~ In i (d_order (l_doc L)) \/ get_list L l = None ->
  add_block_to_list L i l = Err.
Proof.
  intros R H. destruct (reach_wf _ R) as [ps W]. unfold add_block_to_list.
  destruct (get_block (l_doc L) i) as [b|] eqn:Eb; [|easy]. destruct H as [H| ->]; [|easy].
  destruct H. apply (has_block_order _ _ _ W). congruence.
Qed.

Lemma exists_member d ps l : wf d ps -> existsb (in_list l) (d_blocks d) = true <-> members d l <> [].
Proof.
  intros W. rewrite existsb_exists. split.
  - intros (b & Hb & H) E. assert (Hm : In (b_id b) (members d l)); [|rewrite E in Hm; easy]. apply filter_In. split.
    + rewrite (wf_order _ _ W). eapply Permutation_in; [apply (wf_ids _ _ W)|]. now apply in_map.
    + unfold attr, get_block. rewrite (find_block_nodup _ _ (wf_blocks_nodup _ _ W) Hb). cbn.
      unfold in_list in H. now destruct (b_list b).
  - intros H. destruct (members d l) as [|i m] eqn:E; [easy|].
    assert (Hm : In i (members d l)) by (rewrite E; now left). apply filter_In in Hm. destruct Hm as [_ Hm].
    unfold attr in Hm. destruct (get_block d i) as [b|] eqn:Eb; [|easy]. cbn in Hm. apply find_block_some in Eb.
    exists b. split; [easy|]. unfold in_list. now destruct (b_list b).
Qed.

Lemma leave_theorem L i l f : reach (l_doc L) -> In i (d_order (l_doc L)) -> attr (l_doc L) i = Some (Some l, f) ->
  exists L', remove_block_from_list L i = Ok L' /\ reach (l_doc L') /\ doc_items (l_doc L') = doc_items (l_doc L)
   /\ d_order (l_doc L') = d_order (l_doc L)
   /\ attr (l_doc L') i = Some (None, f)
   /\ (forall j, j <> i -> attr (l_doc L') j = attr (l_doc L) j)
   /\ (forall k, k <> l -> get_list L' k = get_list L k)
   /\ (members (l_doc L') l = [] -> get_list L' l = None)
   /\ (members (l_doc L') l <> [] -> get_list L' l = get_list L l).
Proof.
  intros R Hi Ha. destruct (reach_wf _ R) as [ps W]. unfold remove_block_from_list.
  assert (Ea := Ha). unfold attr in Ha. destruct (get_block (l_doc L) i) as [b|] eqn:Eb; [|easy]. cbn in Ha.
  injection Ha as E1 E2. cbn [ok_or bind]. rewrite E1. cbn [ok_or bind]. eexists. split; [reflexivity|].
  cbn [l_doc l_lists]. set (d' := set_block_list (l_doc L) i None).
  assert (W' : wf d' ps) by (eapply wf_meta; [exact W|apply meta_set_list]).
  split; [now constructor|]. split; [apply items_set_list|]. split; [easy|]. split; [|split; [|split; [|split]]].
  - unfold d'. rewrite attr_set_list, Ea, N.eqb_refl. reflexivity.
  - intros j H. unfold d'. rewrite attr_set_list. apply N.eqb_neq in H. rewrite H. now destruct (attr (l_doc L) j).
  - intros k H. unfold get_list. cbn [l_lists]. destruct (existsb _ _); [easy|]. f_equal. clear - H.
    induction (l_lists L) as [|[k' e] m IH]; [easy|]. cbn [filter find fst].
    destruct (N.eqb_spec k' l) as [->|H1]; cbn [negb].
    + rewrite IH. destruct (N.eqb_spec l k); [congruence|easy].
    + cbn [find fst]. now rewrite IH.
  - intros H. destruct (existsb _ _) eqn:E; [apply (exists_member _ _ _ W') in E; easy|].
    unfold get_list. cbn [l_lists]. clear. induction (l_lists L) as [|[k' e] m IH]; [easy|]. cbn [filter fst].
    destruct (N.eqb_spec k' l) as [->|H1]; cbn [negb]; [easy|]. cbn [find fst].
    apply N.eqb_neq in H1. now rewrite H1.
  - intros H. apply (exists_member _ _ _ W') in H. fold d'. now rewrite H.
Qed.
Lemma leave_error_theorem L i : reach (l_doc L) ->
  ~ In i (d_order (l_doc L)) \/ (exists f, attr (l_doc L) i = Some (None, f)) -> remove_block_from_list L i = Err.
Proof.
  intros R H. destruct (reach_wf _ R) as [ps W]. unfold remove_block_from_list.
  destruct (get_block (l_doc L) i) as [b|] eqn:Eb; [|easy]. destruct H as [H|[f H]].
  - destruct H. apply (has_block_order _ _ _ W). congruence.
  - unfold attr in H. rewrite Eb in H. cbn in H. injection H as E _. cbn. now rewrite E.
Qed.

(** ** Making a list of the selected paragraphs *)

Lemma assign_ok l s e bs : forall d ps, wf d ps -> (forall b, In b bs -> In (b_id b) (map fst ps)) ->
  NoDup (map b_id bs) ->
  exists d', assign_list d l s e bs = Ok d' /\ (reach d -> reach d') /\ wf d' ps /\ d_rs d' = d_rs d
   /\ d_runs d' = d_runs d /\ d_order d' = d_order d
   /\ (forall j, ~ In j (map b_id bs) -> attr d' j = attr d j)
   /\ (forall b l0 f t, In b bs -> attr d (b_id b) = Some (l0, f) -> In (b_id b, t) ps ->
        attr d' (b_id b) = Some (if touches (b_pos b) (Z.of_nat (length t)) s e then Some l else l0, f)).
Proof.
  induction bs as [|b bs IH]; intros d ps W Hin ND.
  - exists d. cbn. repeat (split; [easy|]). easy.
  - cbn [map] in ND. inversion ND as [|? ? N1 N2]; subst. cbn [assign_list].
    pose proof (Hin b (or_introl eq_refl)) as Hb. apply in_map_iff in Hb. destruct Hb as ([i t] & Ei & Hb). cbn in Ei. subst i.
    rewrite (wf_length_in _ _ _ _ W Hb). cbn [bind].
    set (d1 := if touches _ _ _ _ then _ else _).
    assert (M : meta d d1) by (unfold d1; destruct (touches _ _ _ _); [apply meta_set_list|apply meta_refl]).
    assert (A : forall j, attr d1 j = if N.eqb j (b_id b) then option_map (fun x => (if touches (b_pos b) (Z.of_nat (length t)) s e then Some l else fst x, snd x)) (attr d j) else attr d j).
    { intros j. unfold d1. destruct (touches _ _ _ _).
      - rewrite attr_set_list. destruct (N.eqb j (b_id b)); destruct (attr d j); easy.
      - destruct (N.eqb j (b_id b)); [|easy]. destruct (attr d j) as [[? ?]|]; easy. }
    destruct (IH d1 ps (wf_meta _ _ _ W M)) as (d' & E & R' & W' & S1 & S2 & S3 & A1 & A2);
      [intros x Hx; apply Hin; now right|easy|].
    exists d'. split; [exact E|]. split.
    { intros R. apply R'. unfold d1. destruct (touches _ _ _ _); [now constructor|easy]. }
    split; [easy|]. split; [rewrite S1; apply (meta_rs _ _ M)|]. split; [rewrite S2; apply (meta_runs _ _ M)|].
    split; [rewrite S3; apply (meta_order _ _ M)|]. split.
    + intros j Hj. cbn [map In] in Hj. rewrite A1, A by tauto. destruct (N.eqb_spec j (b_id b)) as [->|]; [tauto|easy].
    + intros x l0 f u [<-|Hx] Ha Hu.
      * rewrite A1 by easy. rewrite A, N.eqb_refl, Ha. cbn. rewrite (wf_unique _ _ _ _ _ W Hu Hb). reflexivity.
      * rewrite (A2 x l0 f u Hx); [easy| |easy]. rewrite A. destruct (N.eqb_spec (b_id x) (b_id b)) as [E1|]; [|easy].
        destruct N1. rewrite <- E1. now apply in_map.
Qed.

Lemma meets_spec s n rs re : (rs <= re)%Z ->
  touches (Z.of_nat s) (Z.of_nat n) rs re = true <-> meets s n rs re.
Proof.
  intros L. unfold touches, meets. split.
  - intros H. exists (Z.to_nat (Z.max (Z.of_nat s) rs)). lia.
  - intros (x & H1 & H2). lia.
Qed.

Lemma create_ok L p a st : reach (l_doc L) ->
  exists d' ps, create_list L p a st = Ok (mk_ldoc d' (l_lists L ++ [(l_next L, plain_list st)]) (N.succ (l_next L)), l_next L)
   /\ wf (l_doc L) ps /\ reach d' /\ wf d' ps /\ d_rs d' = d_rs (l_doc L) /\ d_runs d' = d_runs (l_doc L) /\ d_order d' = d_order (l_doc L)
   /\ (forall i t l0 f x, In (i, t) ps -> attr (l_doc L) i = Some (l0, f) -> get_block (l_doc L) i = Some x ->
        attr d' i = Some (if touches (b_pos x) (Z.of_nat (length t)) (Z.min p a) (Z.max p a) then Some (l_next L) else l0, f)).
Proof.
  intros R. destruct (reach_wf _ R) as [ps W]. destruct (sorted_f_ids _ _ W) as (B1 & B2 & B3).
  set (bs := sort_blocks (get_multi (l_doc L) (d_fblocks (l_doc L)))) in *.
  destruct (assign_ok (l_next L) (Z.min p a) (Z.max p a) bs _ _ W) as (d' & E & R' & W' & S1 & S2 & S3 & A1 & A2).
  { intros b Hb. apply B1. now apply in_map. }
  { exact B2. }
  exists d', ps. unfold create_list, new_list. fold bs. rewrite E. cbn [bind l_lists l_next]. split; [easy|]. split; [easy|].
  split; [auto|]. split; [easy|]. split; [easy|]. split; [easy|]. split; [easy|].
  intros i t l0 f x Hi Ha Hx.
  assert (Hin : In i (map b_id bs)) by (apply B1, in_map_iff; now exists (i, t)).
  destruct (find_block_in _ _ Hin) as (x' & Hx' & Hid & Hxb). pose proof (B3 _ _ Hx') as Hx2.
  rewrite Hx in Hx2. injection Hx2 as <-. subst i. eapply A2; eassumption.
Qed.

(** ** List ids *)

Lemma lists_ok L : lreach L -> reach (l_doc L) /\ forall l, (l_next L <= l)%N -> get_list L l = None.
Proof.
  assert (G : forall (m : list (id * list_entity)) n,
    (forall l, In l (map fst m) -> (l < n)%N) <-> (forall l, (n <= l)%N -> find (fun x => N.eqb (fst x) l) m = None)).
  { intros m n. induction m as [|[k e] m IH]; [cbn; split; intros; easy|]. split.
    - intros H l Hl. cbn [find fst]. destruct (N.eqb_spec k l) as [->|].
      + specialize (H l (or_introl eq_refl)). lia.
      + apply IH; [|easy]. intros l' Hl'. apply H. now right.
    - intros H l [E|Hl].
      + cbn in E. subst k. destruct (N.lt_ge_cases l n) as [|Hn]; [easy|]. specialize (H l Hn). cbn [find fst] in H.
        rewrite N.eqb_refl in H. easy.
      + assert (H' : forall l0, (n <= l0)%N -> find (fun x => N.eqb (fst x) l0) m = None).
        { intros l0 H0. specialize (H l0 H0). cbn [find fst] in H. now destruct (N.eqb k l0). }
        now apply IH. }
  assert (K : forall L0, (forall l, (l_next L0 <= l)%N -> get_list L0 l = None) <-> (forall l, In l (map fst (l_lists L0)) -> (l < l_next L0)%N)).
  { intros L0. rewrite G. unfold get_list. split; intros H l Hl; specialize (H l Hl).
    - now destruct (find _ _).
    - now rewrite H. }
  induction 1 as [d R|L d _ [_ H] R|L p a st L' l _ [R H] E|L i l L' _ [R H] E|L i L' _ [R H] E|L l q L' _ [R H] E|html L bs _ [R H] Hbs].
  - split; easy.
  - split; easy.
  - destruct (create_ok L p a st R) as (d' & ps & E' & _ & R' & _). rewrite E' in E. injection E as <- _. cbn [l_doc]. split; [easy|].
    rewrite K in *. cbn [l_lists l_next]. intros l'. rewrite map_app, in_app_iff. cbn. intros [Hl|[<-|[]]]; [specialize (H _ Hl)|]; lia.
  - unfold add_block_to_list in E. destruct (get_block (l_doc L) i); [|easy]. destruct (get_list L l); [|easy].
    cbn in E. injection E as <-. cbn [l_doc]. split; [now constructor|]. easy.
  - unfold remove_block_from_list in E. destruct (get_block (l_doc L) i) as [b|]; [|easy]. cbn [ok_or bind] in E.
    destruct (b_list b) as [l|]; [|easy]. cbn [ok_or bind] in E. injection E as <-. cbn [l_doc]. split; [now constructor|].
    rewrite K in *. cbn [l_lists l_next]. intros l' Hl. apply H. destruct (existsb _ _); [easy|].
    apply in_map_iff in Hl. destruct Hl as (x & <- & Hx). apply filter_In in Hx. now apply in_map.
  - unfold set_list_format in E. destruct (get_list L l) as [e|]; [|easy]. cbn [ok_or bind] in E. injection E as <-. cbn [l_doc]. split; [easy|].
    rewrite K in *. cbn [l_lists l_next]. intros l' Hl. apply H. rewrite map_map in Hl. apply in_map_iff in Hl.
    destruct Hl as (x & <- & Hx). apply in_map_iff. exists x. split; [|easy]. destruct (N.eqb_spec (fst x) l) as [E0|E0]; cbn; [exact E0|reflexivity].
  - split; [now apply reach_import_parsed|]. apply (ImportFacts.import_parsed_lists html L bs H).
Qed.

Lemma find_app {A} (f : A -> bool) a b : find f (a ++ b) = match find f a with Some x => Some x | None => find f b end.
Proof. induction a as [|x a IH]; cbn; [easy|]. now destruct (f x). Qed.

Lemma create_list_theorem L p a st : lreach L ->
  exists its L', doc_items (l_doc L) = Ok its /\ create_list L p a st = Ok (L', l_next L)
   /\ reach (l_doc L') /\ doc_items (l_doc L') = Ok its /\ d_order (l_doc L') = d_order (l_doc L)
   /\ get_list L (l_next L) = None /\ get_list L' (l_next L) = Some (mk_list st 0%Z [] [])
   /\ (forall l, l <> l_next L -> get_list L' l = get_list L l)
   /\ (fresh_positions (l_doc L) -> forall k i l f para,
        nth_error (d_order (l_doc L)) k = Some i -> attr (l_doc L) i = Some (l, f) -> nth_error (paragraphs its) k = Some para ->
        (meets (para_start k its) (length para) (Z.min p a) (Z.max p a) -> attr (l_doc L') i = Some (Some (l_next L), f))
        /\ (~ meets (para_start k its) (length para) (Z.min p a) (Z.max p a) -> attr (l_doc L') i = Some (l, f))).
Proof.
  intros H. destruct (lists_ok _ H) as [R Hl]. destruct (create_ok L p a st R) as (d' & ps & E & W & R' & W' & S1 & S2 & S3 & A).
  exists (items_of (d_runs (l_doc L)) ps). eexists. split; [now apply doc_items_wf|]. split; [exact E|]. cbn [l_doc].
  split; [easy|]. split; [rewrite (doc_items_wf _ _ W'), S2; easy|]. split; [easy|].
  assert (Hn : get_list L (l_next L) = None) by (apply Hl; lia). split; [easy|].
  assert (Hf : find (fun x => N.eqb (fst x) (l_next L)) (l_lists L) = None).
  { unfold get_list in Hn. now destruct (find _ _). }
  split; [unfold get_list; cbn [l_lists]; rewrite find_app, Hf; cbn; now rewrite N.eqb_refl|].
  split.
  { intros l Hne. unfold get_list. cbn [l_lists]. rewrite find_app. cbn [find fst].
    destruct (N.eqb_spec (l_next L) l) as [E0|]; [congruence|]. cbn. now match goal with |- context [find ?g ?m] => destruct (find g m) end. }
  intros F k i l f para Hk Ha Hp. destruct (nth_para _ _ _ _ W Hk) as (pre & t & post & -> & <-).
  rewrite para_start_items. rewrite paragraphs_items in Hp by (now destruct pre).
  rewrite nth_error_map, nth_error_app2, Nat.sub_diag in Hp by lia. cbn in Hp. injection Hp as <-.
  unfold styled. rewrite styled_length. assert (Ha' := Ha). unfold attr in Ha'. destruct (get_block (l_doc L) i) as [x|] eqn:Ex; [|easy].
  clear Ha'. rewrite (A i t l f x); [|rewrite in_app_iff; right; now left|easy|easy].
  apply (fresh_equiv _ _ W) in F. rewrite (F pre i t post eq_refl x Ex).
  destruct (meets_spec (cpre pre) (length t) (Z.min p a) (Z.max p a) ltac:(lia)) as [H1 H2]. clear - H1 H2.
  destruct (touches _ _ _ _).
  - split; intros Hs; [reflexivity|]. exfalso. tauto.
  - split; intros Hs; [|reflexivity]. apply H2 in Hs. discriminate.
Qed.

(** ** Markers *)

Lemma marker_theorem L i l e k : lreach L -> get_list L l = Some e -> nth_error (members (l_doc L) l) k = Some i ->
  block_marker L i = Ok (Some (l_prefix e ++ marker_body (l_style e) (N.of_nat k + 1)%N ++ l_suffix e)).
Proof.
  intros H Hl Hk. destruct (lists_ok _ H) as [R _]. destruct (list_order_theorem (l_doc L) l R) as (_ & _ & Hi).
  unfold block_marker. rewrite (Hi _ _ Hk). assert (Hin : In i (members (l_doc L) l)) by (eapply nth_error_In, Hk).
  apply filter_In in Hin. destruct Hin as [_ Hin]. unfold attr in Hin. unfold block_list.
  destruct (get_block (l_doc L) i) as [b|]; [|easy]. cbn in Hin. destruct (b_list b) as [l'|]; [|easy].
  apply N.eqb_eq in Hin. subst l'. now rewrite Hl.
Qed.

Lemma marker_number_theorem L i l e k : lreach L -> get_list L l = Some e -> numbered (l_style e) ->
  nth_error (members (l_doc L) l) k = Some i ->
  exists body, block_marker L i = Ok (Some (l_prefix e ++ body ++ l_suffix e)) /\ marker_value (l_style e) body = (Z.of_nat k + 1)%Z.
Proof.
  intros H Hl Hn Hk. exists (marker_body (l_style e) (N.of_nat k + 1)). split; [now apply (marker_theorem L i l)|].
  rewrite ListFacts.marker_body_value by (assumption || lia). lia.
Qed.

Lemma list_format_theorem L l q e : get_list L l = Some e ->
  exists L' e', set_list_format L l q = Ok L' /\ l_doc L' = l_doc L /\ get_list L' l = Some e'
   /\ (forall k, k <> l -> get_list L' k = get_list L k)
   /\ (forall s, q_style q = Some s -> l_style e' = s) /\ (q_style q = None -> l_style e' = l_style e)
   /\ (forall s, q_list_indent q = Some s -> l_indent e' = s) /\ (q_list_indent q = None -> l_indent e' = l_indent e)
   /\ (forall s, q_prefix q = Some s -> l_prefix e' = s) /\ (q_prefix q = None -> l_prefix e' = l_prefix e)
   /\ (forall s, q_suffix q = Some s -> l_suffix e' = s) /\ (q_suffix q = None -> l_suffix e' = l_suffix e).
Proof.
  intros He. unfold set_list_format. rewrite He. cbn [ok_or bind]. eexists _, (apply_list q e).
  split; [reflexivity|]. split; [easy|]. split.
  { unfold get_list in *. cbn [l_lists]. destruct (find _ _) as [x|] eqn:E; [|easy]. clear He.
    induction (l_lists L) as [|[k e0] m IH]; [easy|]. cbn [map find fst] in *. destruct (N.eqb_spec k l) as [->|Hk]; cbn [fst].
    - now rewrite N.eqb_refl.
    - apply N.eqb_neq in Hk. rewrite Hk. auto. }
  split.
  { intros k Hne. unfold get_list. cbn [l_lists]. f_equal. clear He. induction (l_lists L) as [|[k' e0] m IH]; [easy|].
    cbn [map find fst]. destruct (N.eqb_spec k' l) as [->|Hk]; cbn [fst]; [|now rewrite IH].
    destruct (N.eqb_spec l k); [congruence|]. exact IH. }
  unfold apply_list, keep. cbn. repeat split; intros; now rewrite ?H, ?(f_equal _ H).
Qed.

(** ** Adding an empty item *)

Lemma read_items_any d l : (forall b t, In (b, t) l -> block_content (d_rs d) b = Ok t) ->
  read_items d (map fst l) = Ok (items_of (d_runs d) l).
Proof.
  induction l as [|[b t] l IH]; intros H; [easy|]. pose proof (H b t (or_introl eq_refl)) as C.
  specialize (IH (fun b t Hb => H b t (or_intror Hb))). destruct l as [|[c u] l].
  - cbn [map fst read_items]. now rewrite C.
  - change (read_items d (map fst ((b, t) :: (c, u) :: l)))
      with (let! t0 := block_content (d_rs d) b in
            let! more := read_items d (map fst ((c, u) :: l)) in
            Ok (styled t0 (d_runs d b) ++ Brk :: more)).
    rewrite C. cbn [bind]. rewrite IH. reflexivity.
Qed.

Lemma counts_update_multi bs : forall d, d_nblocks (update_multi d bs) = d_nblocks d /\ d_chars (update_multi d bs) = d_chars d.
Proof. induction bs as [|b bs IH]; intros d; [easy|]. cbn [update_multi fold_left]. apply (IH (update_block d b)). Qed.

Lemma insert_list_core L ps p st : wf (l_doc L) ps -> (forall l, (l_next L <= l)%N -> get_list L l = None) -> fresh_positions (l_doc L) ->
  exists its L', doc_items (l_doc L) = Ok its
   /\ insert_list L p st = Ok (L', l_next L, Z.of_nat (para_end its (clip its p) + 1))
   /\ doc_items (l_doc L') = Ok (spec_break (para_end its (clip its p)) its)
   /\ nth_error (d_order (l_doc L')) (S (breaks (clip its p) its)) = Some (d_next (l_doc L))
   /\ attr (l_doc L') (d_next (l_doc L)) = Some (Some (l_next L), bfmt_default)
   /\ (forall i, In i (d_order (l_doc L)) -> attr (l_doc L') i = attr (l_doc L) i)
   /\ get_list L' (l_next L) = Some (mk_list st 0%Z [] [])
   /\ (forall n, block_count (l_doc L) = Ok n -> block_count (l_doc L') = Ok (S n))
   /\ character_count (l_doc L') = character_count (l_doc L)
   /\ (let k := S (breaks (clip its p) its) in
       d_order (l_doc L') = firstn k (d_order (l_doc L)) ++ d_next (l_doc L) :: skipn k (d_order (l_doc L)))
   /\ d_nblocks (l_doc L') = (d_nblocks (l_doc L) + 1)%Z /\ d_chars (l_doc L') = d_chars (l_doc L)
   /\ d_rs (l_doc L') = d_rs (l_doc L).
Proof.
  intros W Hl F. set (d := l_doc L) in *.
  apply (fresh_equiv _ _ W) in F. destruct (wf_loc _ _ p W) as (pre & b & t & post & o & E & Ho & Hp).
  set (i := d_next d). exists (items_of (d_runs d) ps).
  assert (Hi : ~ In i (map fst ps)). { intros Hi. apply (wf_next _ _ W) in Hi. unfold i in Hi. lia. }
  assert (Hk : breaks (clip (items_of (d_runs d) ps) p) (items_of (d_runs d) ps) = length pre).
  { rewrite clip_items, Hp, E. now apply breaks_items. }
  assert (He : para_end (items_of (d_runs d) ps) (clip (items_of (d_runs d) ps) p) = cpre pre + length t).
  { unfold para_end. rewrite Hk. rewrite E at 1. rewrite para_start_items. rewrite paragraphs_items by apply (wf_ne _ _ W).
    rewrite E, map_app, app_nth2 by (rewrite map_length; lia). rewrite map_length, Nat.sub_diag. cbn [map nth fst snd].
    unfold styled. now rewrite styled_length. }
  rewrite He, Hk. unfold insert_list. fold d. rewrite (fresh_sorted _ _ W F). rewrite E in W.
  destruct (multi_mid _ _ _ _ _ W) as (x & Ex & Hid & M & Lm). rewrite E, M.
  destruct (find_in_list d pre b t post o p (get_multi d (map fst pre) ++ x :: get_multi d (map fst post)) W Ho) as (k & y & K1 & K2 & K3 & K4).
  { now rewrite <- E. }
  { rewrite map_app, in_app_iff. right. left. exact Hid. }
  assert (k = length pre) as ->.
  { rewrite index_of_ids, map_app in K1. cbn [map] in K1. rewrite Hid, pos_of_id_mid in K1.
    - injection K1 as <-. now rewrite map_length.
    - rewrite get_multi_ids; [|intros j Hj; eapply wf_has; [exact W|]; rewrite map_app, in_app_iff; now left].
      apply wf_nodup, nodup_mid in W. tauto. }
  rewrite K4. cbn [bind]. unfold new_list.
  assert (N1 : nth_error (get_multi d (map fst pre) ++ x :: get_multi d (map fst post)) (length pre) = Some x).
  { rewrite <- Lm. rewrite nth_error_app2, Nat.sub_diag by lia. reflexivity. }
  rewrite N1. cbn [unwrap bind]. rewrite Hid. rewrite (wf_length_in _ _ b t W) by (rewrite in_app_iff; right; now left). cbn [bind].
  assert (Hbp : b_pos x = Z.of_nat (cpre pre)) by (eapply F; eassumption). rewrite Hbp. change (d_next d) with i.
  assert (Lo : length (d_order d) = length pre + S (length post)).
  { rewrite (wf_order _ _ W), map_length, app_length. reflexivity. }
  assert (exists fb, (if S (length pre) <? length (d_fblocks d) then vec_insert (d_fblocks d) (S (length pre)) i else Ok (d_fblocks d ++ [i])) = Ok fb) as [fb ->].
  { destruct (S (length pre) <? length (d_fblocks d)) eqn:Ef; [|eauto]. unfold vec_insert.
    assert (E0 : S (length pre) <=? length (d_fblocks d) = true) by lia. rewrite E0. eauto. }
  cbn [bind]. unfold vec_insert at 1. rewrite Lo.
  replace (Nat.min (S (length pre)) (length pre + S (length post))) with (S (length pre)) by lia.
  assert (E0 : S (length pre) <=? length pre + S (length post) = true) by lia. rewrite E0. cbn [bind].
  assert (Eo : firstn (S (length pre)) (d_order d) ++ i :: skipn (S (length pre)) (d_order d)
               = map fst (pre ++ (b, t) :: (i, []) :: post)).
  { rewrite (wf_order _ _ W), !map_app. cbn [map fst].
    replace (map fst pre ++ b :: map fst post) with ((map fst pre ++ [b]) ++ map fst post) by (now rewrite <- app_assoc).
    rewrite firstn_exact, skipn_exact by (rewrite app_length, map_length; cbn; lia). now rewrite <- app_assoc. }
  rewrite Eo. eexists. split; [rewrite <- E; now apply doc_items_wf; rewrite E|]. split.
  { repeat f_equal. lia. }
  cbn [l_doc]. set (d1 := mk_doc _ _ _ _ _ _ _ _ _).
  assert (Ht : skipn (S (length pre)) (get_multi d (map fst pre) ++ x :: get_multi d (map fst post)) = get_multi d (map fst post)).
  { replace (get_multi d (map fst pre) ++ x :: get_multi d (map fst post)) with ((get_multi d (map fst pre) ++ [x]) ++ get_multi d (map fst post)) by (now rewrite <- app_assoc).
    apply skipn_exact. rewrite app_length. cbn. lia. }
  rewrite Ht. set (todo := map _ (get_multi d (map fst post))).
  assert (G1 : forall j, j <> i -> get_block d1 j = get_block d j).
  { intros j Hj. unfold get_block, d1. cbn [d_blocks]. clear - Hj. induction (d_blocks d) as [|y bs IH]; cbn.
    - destruct (N.eqb_spec i j); [congruence|easy].
    - now destruct (N.eqb (b_id y) j). }
  assert (G2 : get_block d1 i = Some (mk_block i (Z.of_nat (cpre pre) + Z.of_nat (length t) + 1) (Some (l_next L)) bfmt_default)).
  { unfold get_block, d1. cbn [d_blocks]. assert (Hn : ~ In i (map b_id (d_blocks d))).
    { intros Hn. apply Hi. rewrite E. eapply Permutation_in; [apply (wf_ids _ _ W)|easy]. }
    clear - Hn. induction (d_blocks d) as [|y bs IH]; cbn [app find_block map In b_id] in *.
    - now rewrite N.eqb_refl.
    - destruct (N.eqb_spec (b_id y) i); [tauto|]. apply IH. tauto. }
  assert (Hin : forall j, In j (map fst post) -> j <> i /\ get_block d j <> None).
  { intros j Hj. assert (Hj' : In j (map fst (pre ++ (b, t) :: post))) by (rewrite map_app, in_app_iff; right; now right).
    split; [intros ->; apply Hi; now rewrite E|]. destruct (wf_get _ _ _ W Hj') as (z & Ez & _). congruence. }
  assert (SA : same_attr d1 (update_multi d1 todo)).
  { apply attr_update_multi. intros w Hw. unfold todo in Hw. apply in_map_iff in Hw. destruct Hw as (z & <- & Hz).
    pose proof (get_multi_attr _ _ _ Hz) as Az. cbn [set_b_pos b_id b_list b_fmt]. unfold attr in *. rewrite G1; [exact Az|].
    assert (Hz' : In (b_id z) (map b_id (get_multi d (map fst post)))) by (now apply in_map).
    rewrite get_multi_ids in Hz'; [now apply Hin|]. intros j Hj. eapply wf_has; [exact W|]. rewrite map_app, in_app_iff. right. now right. }
  assert (Me : meta d1 (update_multi d1 todo)).
  { apply meta_update_multi. intros j Hj. unfold todo in Hj. rewrite map_map in Hj. cbn [set_b_pos b_id] in Hj.
    rewrite get_multi_ids in Hj; [|intros z Hz; eapply wf_has; [exact W|]; rewrite map_app, in_app_iff; right; now right].
    unfold d1. cbn [d_blocks]. rewrite map_app, in_app_iff. left. eapply wf_has; [exact W|]. rewrite map_app, in_app_iff. right. now right. }
  assert (Nb : d_nblocks (update_multi d1 todo) = (d_nblocks d + 1)%Z /\ d_chars (update_multi d1 todo) = d_chars d).
  { change (d_nblocks d + 1)%Z with (d_nblocks d1). change (d_chars d) with (d_chars d1). apply counts_update_multi. }
  split; [|split; [|split; [|split; [|split; [|split; [|split; [|split; [|split; [|split]]]]]]]]].
  - unfold doc_items. rewrite (meta_order _ _ Me). change (d_order d1) with (map fst (pre ++ (b, t) :: (i, []) :: post)).
    rewrite (read_items_any _ (pre ++ (b, t) :: (i, []) :: post)).
    + rewrite (meta_runs _ _ Me). unfold d1. cbn [d_runs]. rewrite !items_mid. f_equal. unfold spec_break.
      assert (Lf : length (ipre (d_runs d) pre ++ styled t (d_runs d b)) = cpre pre + length t).
      { rewrite app_length. unfold styled. rewrite styled_length. f_equal. apply ipre_length. }
      rewrite !(app_assoc (ipre (d_runs d) pre)). rewrite firstn_exact, skipn_exact by exact Lf.
      f_equal.
    + rewrite (meta_rs _ _ Me). unfold d1. cbn [d_rs]. intros c u Hc. rewrite in_app_iff in Hc. cbn [In] in Hc.
      destruct Hc as [Hc|[[= <- <-]|[[= <- <-]|Hc]]].
      1,2,4: eapply wf_content_in; [exact W|]; rewrite in_app_iff; cbn [In]; tauto.
      unfold block_content. pose proof (wf_rep _ _ W) as Rp. unfold range_with_successor. rewrite (rep_midx _ _ Rp).
      rewrite (proj2 (seg_pos_none _ _)); [easy|]. intros Hc. apply Hi. rewrite E. clear - Hc. induction (pre ++ (b, t) :: post) as [|[c u] l IH]; [easy|].
      cbn in Hc. destruct Hc as [[= ->]|Hc]; [now left|right; auto].
  - rewrite (meta_order _ _ Me). unfold d1. cbn [d_order]. rewrite map_app. cbn [map fst].
    rewrite nth_error_app2 by (rewrite map_length; lia). rewrite map_length. replace (S (length pre) - length pre) with 1 by lia. reflexivity.
  - rewrite (SA i). unfold attr. rewrite G2. reflexivity.
  - intros j Hj. rewrite (SA j). unfold attr. rewrite G1; [easy|]. intros ->. apply Hi. rewrite E. rewrite (wf_order _ _ W) in Hj. exact Hj.
  - unfold get_list. cbn [l_lists]. rewrite find_app.
    assert (Hn : get_list L (l_next L) = None) by (apply Hl; lia). unfold get_list in Hn.
    match goal with |- context [find ?g (l_lists L)] => destruct (find g (l_lists L)); [easy|] end. cbn. now rewrite N.eqb_refl.
  - unfold block_count, HistModel.to_usize. destruct Nb as [-> _]. intros n.
    destruct (Z.leb_spec 0 (d_nblocks d)); [|easy]. intros [= <-]. rewrite (proj2 (Z.leb_le _ _)) by lia. f_equal. lia.
  - unfold character_count. destruct Nb as [_ ->]. reflexivity.
  - cbv zeta. rewrite (meta_order _ _ Me). reflexivity.
  - apply Nb.
  - apply Nb.
  - exact (meta_rs _ _ Me).
Qed.

Lemma insert_list_theorem L p st : lreach L -> fresh_positions (l_doc L) ->
  exists its L', doc_items (l_doc L) = Ok its
   /\ insert_list L p st = Ok (L', l_next L, Z.of_nat (para_end its (clip its p) + 1))
   /\ doc_items (l_doc L') = Ok (spec_break (para_end its (clip its p)) its)
   /\ nth_error (d_order (l_doc L')) (S (breaks (clip its p) its)) = Some (d_next (l_doc L))
   /\ attr (l_doc L') (d_next (l_doc L)) = Some (Some (l_next L), bfmt_default)
   /\ (forall i, In i (d_order (l_doc L)) -> attr (l_doc L') i = attr (l_doc L) i)
   /\ get_list L' (l_next L) = Some (mk_list st 0%Z [] [])
   /\ (forall n, block_count (l_doc L) = Ok n -> block_count (l_doc L') = Ok (S n))
   /\ character_count (l_doc L') = character_count (l_doc L).
Proof.
  intros H F. destruct (lists_ok _ H) as [R Hl]. destruct (reach_wf _ R) as [ps W].
  destruct (insert_list_core L ps p st W Hl F) as (its & L' & A1 & A2 & A3 & A4 & A5 & A6 & A7 & A8 & A9 & _).
  exists its, L'. auto 10.
Qed.

(** ** Concrete cases *)

Definition two_items : ldoc :=
  match create_list (mk_ldoc two_paras [] 1%N) 4 5 Decimal with Ok (L, _) => L | _ => mk_ldoc new_document [] 1%N end.
Lemma two_items_lreach : lreach two_items.
Proof.
  eapply (lreach_create (mk_ldoc two_paras [] 1%N) 4 5 Decimal).
  - constructor. apply two_paras_reach.
  - vm_compute. reflexivity.
Qed.

(** Asking for a list on "cd" (positions 6 to 8) after typing "XYZ" before. *)
Lemma create_list_refuted_w :
  exists L its L' l k i para, lreach L /\ doc_items (l_doc L) = Ok its /\ create_list L 7 8 Decimal = Ok (L', l)
   /\ nth_error (d_order (l_doc L)) k = Some i /\ nth_error (paragraphs its) k = Some para
   /\ meets (para_start k its) (length para) 7 8 /\ attr (l_doc L') i = Some (None, bfmt_default) /\ members (l_doc L') l = [].
Proof.
  exists (mk_ldoc typed_first [] 1%N). eexists _, _, _, 1, _, _.
  split; [constructor; apply typed_first_reach|]. split; [vm_compute; reflexivity|]. split; [vm_compute; reflexivity|].
  split; [vm_compute; reflexivity|]. split; [vm_compute; reflexivity|].
  split; [exists 7; vm_compute; split; split; discriminate || (repeat constructor)|].
  split; vm_compute; reflexivity.
Qed.

(** Adding an item after "ab", then typing "x" in it. *)
Lemma insert_list_refuted_w :
  exists L L' l np d' np' u n,
   lreach L /\ fresh_positions (l_doc L) /\ insert_list L 1 Decimal = Ok (L', l, np)
   /\ export_plain_text (l_doc L') = export_plain_text (l_doc L)
   /\ insert_text_simple (l_doc L') np [120%N] = Ok (d', np', u)
   /\ export_plain_text d' = export_plain_text (l_doc L')
   /\ doc_items d' = doc_items (l_doc L')
   /\ character_count (l_doc L') = Ok n /\ character_count d' = Ok (S n).
Proof.
  exists (mk_ldoc two_paras [] 1%N). eexists _, _, _, _, _, _, _.
  split; [constructor; apply two_paras_reach|]. split; [apply (tidy_theorem _ two_paras_tidy)|].
  split; [vm_compute; reflexivity|]. split; [vm_compute; reflexivity|]. split; [vm_compute; reflexivity|].
  split; [vm_compute; reflexivity|]. split; [vm_compute; reflexivity|]. split; vm_compute; reflexivity.
Qed.
