(** New paragraphs created after an existing one. *)
From Verif Require Import Base BaseFacts FormatRunsModel FormatRunsSpec FormatRunsFacts
  RopeModel RopeSpec RopeFacts DocModel DocSpec BlockFacts DocInv DocFacts DocAttr DocDelete DocBreak DocReplace
  DocImport DocFormat DocQuery DocFresh QueryModel QuerySpec ListModel ListDocModel FragmentModel FragmentText FragmentSpec FragmentRuns.
From Coq Require Import Permutation.

(** ** Fresh ids *)

Fixpoint ids_from (n : N) (k : nat) : list id :=
  match k with 0 => [] | S k' => n :: ids_from (N.succ n) k' end.
Lemma ids_from_app k j : forall n, ids_from n (k + j) = ids_from n k ++ ids_from (n + N.of_nat k)%N j.
Proof.
  induction k as [|k IH]; intros n; cbn [plus ids_from app].
  - now rewrite N.add_0_r.
  - rewrite IH. do 3 f_equal. lia.
Qed.
Lemma ids_from_in q k : forall n, In q (ids_from n k) <-> (n <= q < n + N.of_nat k)%N.
Proof.
  induction k as [|k IH]; intros n; cbn [ids_from In]; [lia|]. rewrite IH. unfold id in *. lia.
Qed.
Lemma ids_from_nodup k : forall n, NoDup (ids_from n k).
Proof.
  induction k as [|k IH]; intros n; cbn [ids_from]; [constructor|]. constructor; [|apply IH].
  rewrite ids_from_in. lia.
Qed.

(** Positions of paragraphs that follow one another from [pos]. *)
Fixpoint pos_from (pos : Z) (l : list para) : list Z :=
  match l with [] => [] | (_, t) :: rest => pos :: pos_from (pos + Z.of_nat (length t) + 1)%Z rest end.
Lemma pos_from_app a b : forall pos, pos_from pos (a ++ b) = pos_from pos a ++ pos_from (pos + Z.of_nat (cpre a))%Z b.
Proof.
  induction a as [|[i t] a IH]; intros pos; cbn [app pos_from].
  - now rewrite cpre_nil, Z.add_0_r.
  - rewrite IH, cpre_cons. do 3 f_equal. lia.
Qed.

(** ** The new paragraphs *)

Definition shows (d : doc) (p : para) (its : list item) : Prop :=
  wf_runs (snd p) (d_runs d (fst p)) /\ styled (snd p) (d_runs d (fst p)) = its.

Record grown (d d' : doc) (made : list para) (itss : list (list item)) (poss : list Z)
  (ats : list (option id * bfmt)) : Prop := {
  g_rs : d_rs d' = d_rs d;
  g_blocks : exists nb, d_blocks d' = d_blocks d ++ nb /\ map b_id nb = map fst made /\ map b_pos nb = poss
                     /\ map (fun b => (b_list b, b_fmt b)) nb = ats;
  g_in : Forall2 (shows d') made itss;
  g_out : forall q, ~ In q (map fst made) -> d_runs d' q = d_runs d q;
  g_images : (forall q, d_images d q = []) -> forall q, d_images d' q = [];
  g_fblocks : Permutation (d_fblocks d') (d_fblocks d ++ map fst made);
  g_order : d_order d' = d_order d;
  g_chars : d_chars d' = d_chars d;
  g_nblocks : d_nblocks d' = d_nblocks d;
  g_next : d_next d' = (d_next d + N.of_nat (length made))%N;
  g_ids : map fst made = ids_from (d_next d) (length made)
}.

Lemma grown_refl d : grown d d [] [] [] [].
Proof.
  constructor; try easy; try (cbn; lia).
  - exists []. now rewrite app_nil_r.
  - cbn [map]. now rewrite app_nil_r.
Qed.

Lemma forall2_impl_in {A B} (P Q : A -> B -> Prop) l m :
  (forall x y, In x l -> P x y -> Q x y) -> Forall2 P l m -> Forall2 Q l m.
Proof. intros H F; induction F; constructor; [apply H; [now left|easy]|apply IHF; intros; apply H; [now right|easy]]. Qed.

Lemma grown_trans a b c m1 m2 i1 i2 p1 p2 t1 t2 :
  grown a b m1 i1 p1 t1 -> grown b c m2 i2 p2 t2 ->
  grown a c (m1 ++ m2) (i1 ++ i2) (p1 ++ p2) (t1 ++ t2).
Proof.
  intros G H.
  assert (Dis : forall q, In q (map fst m1) -> ~ In q (map fst m2)).
  { intros q. rewrite (g_ids _ _ _ _ _ _ G), (g_ids _ _ _ _ _ _ H), !ids_from_in, (g_next _ _ _ _ _ _ G).
    lia. }
  destruct G as [Grs (nb1 & B1 & B2 & B3 & B4) Gin Gout Gim Gfb Gor Gch Gnb Gnx Gid],
    H as [Hrs (nb2 & C1 & C2 & C3 & C4) Hin Hout Him Hfb Hor Hch Hnb Hnx Hid].
  constructor; try congruence.
  - exists (nb1 ++ nb2). rewrite C1, B1, <- app_assoc, !map_app. repeat split; congruence.
  - apply Forall2_app; [|exact Hin]. eapply forall2_impl_in; [|exact Gin].
    intros p its Hp [S1 S2]. unfold shows. rewrite Hout; [easy|]. apply Dis. now apply in_map.
  - intros q Hq. rewrite map_app, in_app_iff in Hq. rewrite Hout, Gout; tauto.
  - auto.
  - rewrite Hfb, Gfb, map_app, app_assoc. reflexivity.
  - rewrite Hnx, Gnx, app_length. lia.
  - rewrite map_app, Gid, Hid, app_length, ids_from_app, Gnx. reflexivity.
Qed.

Lemma create_grown d pos l f idx u rs :
  wf_runs u rs ->
  grown d (write_block_state (fst (create_block_at d pos l f idx)) (d_next d) rs [])
        [(d_next d, u)] [styled u rs] [pos] [(l, f)].
Proof.
  intros Wr. constructor; cbn [write_block_state create_block_at fst set_images set_runs d_rs d_blocks d_runs d_images
    d_fblocks d_order d_chars d_nblocks d_next map length]; try easy.
  - eexists. split; [reflexivity|]. repeat split.
  - constructor; [|constructor]. split; cbn; unfold upd; now rewrite N.eqb_refl.
  - intros q Hq. unfold upd. destruct (N.eqb_spec q (d_next d)); [|easy]. cbn in Hq. subst. tauto.
  - intros H q. unfold upd. now destruct (N.eqb q (d_next d)).
  - destruct (idx <? length (d_fblocks d)); [|easy].
    rewrite <- (firstn_skipn idx (d_fblocks d)) at 3. rewrite <- app_assoc.
    apply Permutation_app_head, Permutation_cons_append.
  - lia.
Qed.

Lemma cpre_texts a b : map snd a = map snd b -> cpre a = cpre b.
Proof.
  revert b; induction a as [|[i t] a IH]; intros [|[j u] b]; cbn [map snd]; try easy.
  intros [= -> H]. rewrite !cpre_cons. now rewrite (IH _ H).
Qed.


Lemma middle_grown fbs : Forall (fun x => text_only (fst x)) fbs -> forall d idx pos,
  exists d' made, create_middle d idx pos fbs
      = (d', made, Z.of_nat (fragment_length (map fst fbs)), (pos + Z.of_nat (cpre made))%Z)
   /\ map snd made = map (fun x => fb_text (fst x)) fbs
   /\ grown d d' made (map (fun x => fb_items (fst x)) fbs) (pos_from pos made)
            (map (fun x => (snd x, fb_fmt (fst x))) fbs).
Proof.
  induction 1 as [|[fb l] fbs Hfb _ IH]; intros d idx pos.
  - exists d, []. cbn. rewrite Z.add_0_r. repeat split; try apply grown_refl.
  - cbn [create_middle]. destruct (fb_state fb Hfb) as (rs & -> & Wr & Sr).
    pose proof (create_grown d pos l (fb_fmt fb) idx (fb_text fb) rs Wr) as G. rewrite Sr in G.
    destruct (create_block_at d pos l (fb_fmt fb) idx) as [d1 i] eqn:Ec.
    assert (Ei : i = d_next d) by (unfold create_block_at in Ec; congruence). subst i. cbn [fst] in G.
    cbn [length]. rewrite Z.add_0_r.
    destruct (IH (write_block_state d1 (d_next d) rs []) (S idx) (pos + Z.of_nat (length (fb_text fb)) + 1)%Z)
      as (d' & made & -> & T & G2).
    exists d', ((d_next d, fb_text fb) :: made). split; [|split].
    + f_equal; [f_equal|].
      * cbn [map fst fragment_length fold_right]. fold (fragment_length (map fst fbs)). lia.
      * rewrite cpre_cons. lia.
    + cbn [map snd fst]. now rewrite T.
    + exact (grown_trans _ _ _ _ _ _ _ _ _ _ _ G G2).
Qed.

(** ** The rope *)

Lemma head_rep rs pre b before after ext post :
  rep rs (pre ++ (MBlock b, before ++ after) :: post) ->
  exists rs', rope_head rs b (blen before) after ext = Ok rs'
    /\ rep rs' (pre ++ (MBlock b, before ++ ext) :: post).
Proof.
  intros R. unfold rope_head.
  assert (H : exists rs1, match after with [] => Ok rs | _ => rope_delete_in_block rs b (blen before) (blen before + blen after) end = Ok rs1
    /\ rep rs1 (pre ++ (MBlock b, before ++ []) :: post)).
  { destruct after as [|c after]; [exists rs; now split|].
    rewrite <- (app_nil_r (c :: after)) in R. exact (rep_delete_in_block _ _ _ _ _ _ _ R). }
  destruct H as (rs1 & -> & R1). cbn [bind].
  destruct ext as [|c ext]; [exists rs1; now split|].
  destruct (rep_insert_in_block _ _ _ _ _ (c :: ext) _ R1) as (rs2 & E & R2). rewrite app_nil_r in R2. eauto.
Qed.

Lemma open_rep made : forall rs pre prev t post,
  rep rs (pre ++ (MBlock prev, t) :: post) -> NoDup (map fst made) ->
  (forall q, In q (map fst made) -> ~ In (MBlock q) (map fst (pre ++ (MBlock prev, t) :: post))) ->
  exists rs', rope_open rs prev (blen t) made = Ok rs'
    /\ rep rs' (pre ++ (MBlock prev, t) :: segs made ++ post).
Proof.
  induction made as [|[i u] made IH]; intros rs pre prev t post R ND H; cbn [rope_open].
  - exists rs. now split.
  - inversion ND as [|? ? N1 N2]; subst.
    pose proof R as R0. rewrite <- (app_nil_r t) in R0.
    destruct (rep_split_block _ _ _ _ _ i _ R0) as (rs1 & -> & R1).
    { rewrite app_nil_r. apply H. now left. }
    cbn [bind].
    assert (H2 : exists rs2, match u with [] => Ok rs1 | _ => rope_insert_in_block rs1 i 0 u end = Ok rs2
       /\ rep rs2 ((pre ++ [(MBlock prev, t)]) ++ (MBlock i, u) :: post)).
    { assert (R1' : rep rs1 ((pre ++ [(MBlock prev, t)]) ++ (MBlock i, [] ++ []) :: post)) by (rewrite <- app_assoc; exact R1).
      destruct u as [|c u]; [exists rs1; now split|].
      destruct (rep_insert_in_block _ _ _ _ _ (c :: u) _ R1') as (rs2 & E & R2). cbn [app blen] in *.
      rewrite app_nil_r in R2. eauto. }
    destruct H2 as (rs2 & -> & R2). cbn [bind].
    destruct (IH _ _ _ _ _ R2 N2) as (rs3 & -> & R3).
    { intros q Hq. rewrite <- app_assoc, map_app, in_app_iff. cbn [app map fst In].
      specialize (H q (or_intror Hq)). rewrite map_app, in_app_iff in H. cbn [map fst In] in H.
      intros [Hp|[Hp|[Hp|Hp]]]; try tauto. injection Hp as ->. tauto. }
    exists rs3. split; [easy|]. rewrite <- app_assoc in R3. exact R3.
Qed.

(** ** The document around them *)

Lemma wf_grow d pre b t post d' h made :
  wf d (pre ++ (b, t) :: post) ->
  rep (d_rs d') (segs (pre ++ (b, h) :: made ++ post)) ->
  d_order d' = map fst (pre ++ (b, h) :: made ++ post) ->
  Permutation (d_fblocks d') (d_fblocks d ++ map fst made) ->
  map b_id (d_blocks d') = map b_id (d_blocks d) ++ map fst made ->
  wf_runs h (d_runs d' b) ->
  (forall c u, In (c, u) made -> wf_runs u (d_runs d' c)) ->
  (forall q, q <> b -> ~ In q (map fst made) -> d_runs d' q = d_runs d q) ->
  (forall q, d_images d' q = []) ->
  (forall q, In q (map fst made) -> (d_next d <= q < d_next d')%N) -> (d_next d <= d_next d')%N ->
  wf d' (pre ++ (b, h) :: made ++ post)
  /\ items_of (d_runs d') (pre ++ (b, h) :: made ++ post)
     = ipre (d_runs d) pre ++ styled h (d_runs d' b) ++ ipost (d_runs d') made ++ ipost (d_runs d) post.
Proof.
  intros W Hrep Ho Hf Hb Rb Rm Rout Him Hn1 Hn2.
  pose proof (wf_nodup _ _ W) as ND. pose proof (nodup_mid _ _ _ _ ND) as [N1 N2].
  assert (Perm : Permutation (map fst (pre ++ (b, t) :: post) ++ map fst made) (map fst (pre ++ (b, h) :: made ++ post))).
  { rewrite !map_app. cbn [map fst]. rewrite map_app, <- app_assoc. apply Permutation_app_head. cbn [app]. constructor.
    apply Permutation_app_comm. }
  assert (Old : forall q, In q (map fst (pre ++ (b, t) :: post)) -> ~ In q (map fst made)).
  { intros q Hq Hm. apply (wf_next _ _ W) in Hq. apply Hn1 in Hm. lia. }
  assert (Hpre : forall q, In q (map fst pre) -> d_runs d' q = d_runs d q).
  { intros q Hq. apply Rout; [congruence|]. apply Old. rewrite map_app, in_app_iff. now left. }
  assert (Hpost : forall q, In q (map fst post) -> d_runs d' q = d_runs d q).
  { intros q Hq. apply Rout; [congruence|]. apply Old. rewrite map_app, in_app_iff. right. now right. }
  split.
  - constructor; try assumption.
    + now destruct pre.
    + rewrite Hf, (wf_fblocks _ _ W). exact Perm.
    + rewrite Hb, (wf_ids _ _ W). exact Perm.
    + intros c u Hin. rewrite in_app_iff in Hin. cbn [In] in Hin. rewrite in_app_iff in Hin.
      destruct Hin as [Hin|[[= <- <-]|[Hin|Hin]]]; auto.
      * rewrite Hpre by (now apply (in_map fst) in Hin). apply (wf_runs_in _ _ W), in_app_iff. now left.
      * rewrite Hpost by (now apply (in_map fst) in Hin). apply (wf_runs_in _ _ W), in_app_iff. right. now right.
    + intros q Hq. rewrite map_app in Hq. cbn [map fst] in Hq. rewrite map_app, in_app_iff in Hq. cbn [In] in Hq.
      rewrite in_app_iff in Hq. rewrite Rout; [|intros ->; tauto|tauto]. apply (wf_runs_out _ _ W).
      rewrite map_app, in_app_iff. cbn [map fst In]. tauto.
    + intros q Hq. apply (Permutation_in q (Permutation_sym Perm)) in Hq.
      rewrite in_app_iff in Hq. destruct Hq as [Hq|Hq]; [apply (wf_next _ _ W) in Hq; lia|now apply Hn1].
  - rewrite items_mid, ipost_app. f_equal; [now apply ipre_ext|]. do 2 f_equal. now apply ipost_ext.
Qed.

Lemma ipost_made d made itss : Forall2 (shows d) made itss -> ipost (d_runs d) made = flat_map (cons Brk) itss.
Proof.
  induction 1 as [|[i t] its made itss [_ S] _ IH]; [easy|]. rewrite ipost_cons. cbn [flat_map]. rewrite IH.
  cbn [fst snd] in S. now rewrite S.
Qed.

(** The paragraph [b] rewritten by [d1], then the new ones created by [d3]. *)
Record head_set (d d1 : doc) (b : id) (hr : list run) : Prop := {
  h_rs : d_rs d1 = d_rs d;
  h_ids : map b_id (d_blocks d1) = map b_id (d_blocks d);
  h_find : forall q, q <> b -> find_block (d_blocks d1) q = find_block (d_blocks d) q;
  h_runs : forall q, d_runs d1 q = upd (d_runs d) b hr q;
  h_images : forall q, d_images d1 q = [];
  h_fblocks : d_fblocks d1 = d_fblocks d;
  h_order : d_order d1 = d_order d;
  h_chars : d_chars d1 = d_chars d;
  h_nblocks : d_nblocks d1 = d_nblocks d;
  h_next : d_next d1 = d_next d
}.

Lemma order_mid d pre b t post is_ : wf d (pre ++ (b, t) :: post) ->
  order_insert (d_order d) (length pre) is_ = map fst pre ++ b :: is_ ++ map fst post.
Proof.
  intros W. unfold order_insert. rewrite (wf_order _ _ W), map_app, app_length, !map_length. cbn [map fst length].
  rewrite Nat.min_l by lia.
  rewrite firstn_app, skipn_app, !map_length, firstn_all2, skipn_all2 by (rewrite map_length; lia).
  replace (S (length pre) - length pre) with 1 by lia. cbn [firstn skipn app]. now rewrite <- app_assoc.
Qed.

Lemma assemble d d1 d3 pre b before after post ext hr made itss poss ats :
  wf d (pre ++ (b, before ++ after) :: post) ->
  head_set d d1 b hr -> wf_runs (before ++ ext) hr ->
  grown d1 d3 made itss poss ats ->
  let h := before ++ ext in
  let ps' := pre ++ (b, h) :: made ++ post in
  let d4 := set_order d3 (order_insert (d_order d) (length pre) (map fst made)) in
  exists rs1 rs2, rope_head (d_rs d) b (blen before) after ext = Ok rs1
    /\ rope_open rs1 b (blen h) made = Ok rs2
    /\ wf (set_rs d4 rs2) ps'
    /\ items_of (d_runs (set_rs d4 rs2)) ps'
       = ipre (d_runs d) pre ++ styled h hr ++ flat_map (cons Brk) itss ++ ipost (d_runs d) post.
Proof.
  intros W H Whr G h ps' d4.
  pose proof (wf_rep _ _ W) as R. rewrite segs_mid in R.
  destruct (head_rep _ _ _ _ _ ext _ R) as (rs1 & E1 & R1). exists rs1.
  assert (Nx : forall q, In q (map fst made) -> (d_next d <= q < d_next d + N.of_nat (length made))%N).
  { intros q. rewrite (g_ids _ _ _ _ _ _ G), ids_from_in, (h_next _ _ _ _ H). easy. }
  destruct (open_rep made _ _ _ _ _ R1) as (rs2 & E2 & R2).
  { rewrite (g_ids _ _ _ _ _ _ G). apply ids_from_nodup. }
  { intros q Hq Hin. rewrite <- segs_mid, in_segs_fst in Hin. apply Nx in Hq.
    assert (Hin' : In q (map fst (pre ++ (b, before ++ after) :: post))) by (rewrite map_app in *; exact Hin).
    apply (wf_next _ _ W) in Hin'. lia. }
  exists rs2. split; [easy|]. split; [easy|].
  assert (Nb : ~ In b (map fst made)).
  { intros Hb. apply Nx in Hb. pose proof (wf_next _ _ W b ltac:(eapply wf_in_mid, W)). lia. }
  assert (Rb : d_runs (set_rs d4 rs2) b = hr).
  { cbn. rewrite (g_out _ _ _ _ _ _ G) by easy. rewrite (h_runs _ _ _ _ H). unfold upd. now rewrite N.eqb_refl. }
  destruct (wf_grow d pre b (before ++ after) post (set_rs d4 rs2) h made W) as [W' I'].
  - cbn. rewrite segs_mid, segs_app. exact R2.
  - change (order_insert (d_order d) (length pre) (map fst made) = map fst (pre ++ (b, h) :: made ++ post)). rewrite (order_mid _ _ _ _ _ _ W), map_app. cbn [map fst]. now rewrite map_app.
  - cbn. rewrite (g_fblocks _ _ _ _ _ _ G), (h_fblocks _ _ _ _ H). reflexivity.
  - cbn. destruct (g_blocks _ _ _ _ _ _ G) as (nb & -> & Hid & _). rewrite map_app, Hid, (h_ids _ _ _ _ H). reflexivity.
  - now rewrite Rb.
  - intros c u Hin. cbn. pose proof (g_in _ _ _ _ _ _ G) as F. clear - F Hin. induction F as [|p its made itss [S _] F IH]; [easy|].
    destruct Hin as [->|Hin]; [exact S|auto].
  - intros q Hq1 Hq2. cbn. rewrite (g_out _ _ _ _ _ _ G) by easy. rewrite (h_runs _ _ _ _ H). unfold upd.
    now rewrite (proj2 (N.eqb_neq _ _) Hq1).
  - intros q. cbn. apply (g_images _ _ _ _ _ _ G). apply (h_images _ _ _ _ H).
  - intros q Hq. cbn. rewrite (g_next _ _ _ _ _ _ G), (h_next _ _ _ _ H). now apply Nx.
  - cbn. rewrite (g_next _ _ _ _ _ _ G), (h_next _ _ _ _ H). lia.
  - split; [exact W'|]. unfold ps'. rewrite I', Rb. do 3 f_equal. cbn. apply ipost_made.
    exact (g_in _ _ _ _ _ _ G).
Qed.

(** ** Attributes and positions *)

Lemma find_nb made nb q : map b_id nb = map fst made -> ~ In q (map (@fst id str) made) -> find_block nb q = None.
Proof. intros E H. apply find_block_none. now rewrite E. Qed.

Lemma grown_find_old d d1 d3 b hr made itss poss ats q :
  head_set d d1 b hr -> grown d1 d3 made itss poss ats -> In q (map b_id (d_blocks d)) -> q <> b ->
  find_block (d_blocks d3) q = find_block (d_blocks d) q.
Proof.
  intros H G Hq Nq. destruct (g_blocks _ _ _ _ _ _ G) as (nb & -> & _).
  rewrite find_app_l by (now rewrite (h_ids _ _ _ _ H)). now apply (h_find _ _ _ _ H).
Qed.

Lemma grown_find_head d d1 d3 b hr made itss poss ats :
  head_set d d1 b hr -> grown d1 d3 made itss poss ats -> In b (map b_id (d_blocks d)) ->
  find_block (d_blocks d3) b = find_block (d_blocks d1) b.
Proof.
  intros H G Hq. destruct (g_blocks _ _ _ _ _ _ G) as (nb & -> & _).
  apply find_app_l. now rewrite (h_ids _ _ _ _ H).
Qed.

Lemma find_each {A} (f : block -> A) nb : NoDup (map b_id nb) ->
  map (fun i => option_map f (find_block nb i)) (map b_id nb) = map Some (map f nb).
Proof.
  intros ND. rewrite !map_map. apply map_ext_in. intros x Hx.
  apply in_split in Hx. destruct Hx as (l1 & l2 & ->). now rewrite find_head.
Qed.

Lemma grown_each {A} (f : block -> A) d1 d3 made itss poss ats :
  (forall q, In q (map b_id (d_blocks d1)) -> (q < d_next d1)%N) -> grown d1 d3 made itss poss ats ->
  exists nb, d_blocks d3 = d_blocks d1 ++ nb /\ map b_pos nb = poss
   /\ map (fun b => (b_list b, b_fmt b)) nb = ats
   /\ map (fun i => option_map f (find_block (d_blocks d3) i)) (map fst made) = map Some (map f nb).
Proof.
  intros W G. destruct (g_blocks _ _ _ _ _ _ G) as (nb & E & Hid & Hp & Ha). exists nb.
  repeat split; auto. rewrite <- Hid.
  assert (ND : NoDup (map b_id nb)) by (rewrite Hid, (g_ids _ _ _ _ _ _ G); apply ids_from_nodup).
  rewrite <- (find_each f nb ND). apply map_ext_in. intros q Hq. f_equal. rewrite E. apply find_app_r.
  intros Hin. rewrite Hid, (g_ids _ _ _ _ _ _ G), ids_from_in in Hq.
  apply W in Hin. lia.
Qed.
