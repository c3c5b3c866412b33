(** Copies of a document that differ in the numbers given out since. *)
From Coq Require Import Sorting.Permutation.
From Verif Require Import Base RopeModel RopeSpec RopeFacts RopeTables TableModel TableSpec TableFacts TablePlaces TableTheorems TableTextModel TableTextSpec TableTextFacts
  TableTextInsert TableTextTheorems TableRename.
From Verif Require Import DocModel DocSpec DocInv DocFacts DocReach DocTheorems PropSpec UndoModel UndoFacts SessionModel TableUndoModel TableUndoSpec TableUndoFacts.

Definition inj (f : id -> id) : Prop := forall a b, f a = f b -> a = b.
Definition fixes (f : id -> id) (n : id) : Prop := forall i, (i < n)%N -> f i = i.
(** Renamings that follow the counters [n] and leave what is below [n0]. *)
Record renaming (f : id -> id) (n0 n : id) : Prop := { ren_inj : inj f; ren_fixes : fixes f n0; ren_tracks : tracks f n; ren_le : (n0 <= n)%N }.
Definition matches (f g h : id -> id) (c c' : tstate) : Prop :=
  match c, c' with
  | Plain d nc nt, Plain d' nc' nt' => d' = set_next d (f (d_next d)) /\ fixes f (d_next d) /\ nc' = g nc /\ nt' = h nt
  | Tabled x nt, Tabled y nt' => alike f g h x y /\ nt' = h nt
  | Bare o n ch st nb nc nt, Bare o' n' ch' st' nb' nc' nt' =>
      o' = map (rb f) o /\ n' = n /\ ch' = ch /\ st_ren f h st st' /\ nb' = f nb /\ nc' = g nc /\ nt' = h nt
  | _, _ => False
  end.
Definition copy (n0 : id * id * id) (c c' : tstate) : Prop :=
  exists f g h, renaming f (fst (fst n0)) (fst (fst (counters c))) /\ renaming g (snd (fst n0)) (snd (fst (counters c)))
    /\ renaming h (snd n0) (snd (counters c)) /\ matches f g h c c'.

(** ** Renamings *)
Lemma fixes_above f n0 : inj f -> fixes f n0 -> forall i, (n0 <= i)%N -> (n0 <= f i)%N.
Proof.
  intros I F i H. destruct (N.le_gt_cases n0 (f i)) as [|L]; [easy|]. exfalso. assert (E := F _ L). apply I in E. rewrite E in L. unfold id in *. lia.
Qed.
Lemma seen_ren f n0 i : inj f -> fixes f n0 -> seen n0 (f i) = seen n0 i.
Proof.
  intros I F. unfold seen. destruct (N.ltb_spec i n0) as [L|L].
  - rewrite (F _ L). destruct (N.ltb_spec i n0); [easy|unfold id in *; lia].
  - assert (X := fixes_above _ _ I F _ L). destruct (N.ltb_spec (f i) n0); [unfold id in *; lia|easy].
Qed.
Lemma renaming_id n0 n : (n0 <= n)%N -> renaming (fun i => i) n0 n.
Proof. intros H. constructor; [easy|easy| |easy]. split; [easy|easy]. Qed.
(** Follow the counter from [m] to [m']. *)
Definition hop (m m' : id) (i : id) : id := if N.ltb i m then i else (i + (m' - m))%N.
Lemma renaming_hop f n0 n m' : renaming f n0 n -> (f n <= m')%N ->
  let f' i := hop (f n) m' (f i) in renaming f' n0 n /\ f' n = m' /\ forall i, (i < n)%N -> f' i = f i.
Proof.
  intros [I F [T1 T2] L] H f'. assert (U : forall i, (i < n)%N -> f' i = f i).
  { intros i Hi. unfold f', hop. destruct (N.ltb_spec (f i) (f n)); [easy|]. specialize (T2 _ Hi). unfold id in *. lia. }
  assert (V : forall j, f' (n + j)%N = (m' + j)%N).
  { intros j. unfold f', hop. rewrite T1. destruct (N.ltb_spec (f n + j) (f n)); unfold id in *; lia. }
  assert (V0 : f' n = m') by (specialize (V 0%N); rewrite !N.add_0_r in V; exact V).
  split; [|now split]. constructor; [| | |easy].
  - intros a b E. apply I. revert E. unfold f', hop. destruct (N.ltb_spec (f a) (f n)), (N.ltb_spec (f b) (f n)); unfold id in *; lia.
  - intros i Hi. rewrite U by (unfold id in *; lia). now apply F.
  - split; [intros j; now rewrite V, V0|]. intros i Hi. rewrite V0, U by easy. specialize (T2 _ Hi). unfold id in *. lia.
Qed.
Lemma tracks_up f n : inj f -> tracks f n -> forall i, (n <= i)%N -> exists j, f i = (f n + j)%N.
Proof. intros _ [T _] i H. exists (i - n)%N. rewrite <- T. f_equal. unfold id in *. lia. Qed.

(** ** What is stored is below the counters *)
Definition below (nb nt : id) (m : marker) : Prop := match m with MBlock b => (b < nb)%N | MAnchor t => (t < nt)%N end.
Lemma rep_below st l nb nt : rep st l -> (forall m, In m (map fst l) -> below nb nt m) ->
  (forall e, In e (entries (index st)) -> below nb nt (fst e)) /\ forall m, ~ below nb nt m -> midx (index st) m = None.
Proof.
  intros R H. split.
  - intros e He. apply H. rewrite (rep_entries _ _ R) in He. replace (map fst l) with (map fst (starts 0 l)); [now apply in_map|].
    clear. generalize 0%nat. induction l as [|[m t] l IH]; intros n; [easy|]. cbn. now rewrite IH.
  - intros m Hm. rewrite (rep_midx _ _ R). apply seg_pos_none. auto.
Qed.
Lemma plain_below d nt : reach d -> (forall e, In e (entries (index (d_rs d))) -> below (d_next d) nt (fst e))
  /\ forall m, ~ below (d_next d) nt m -> midx (index (d_rs d)) m = None.
Proof.
  intros R. destruct (reach_wf _ R) as [ps W]. apply (rep_below _ _ _ _ (wf_rep _ _ W)). intros m Hm. unfold segs in Hm. rewrite map_map in Hm.
  apply in_map_iff in Hm. destruct Hm as ([b t] & <- & H). apply (wf_next _ _ W). now apply (in_map fst) in H.
Qed.
Lemma plain_anchor d t : reach d -> midx (index (d_rs d)) (MAnchor t) = None.
Proof. intros R. apply (proj2 (plain_below d 0%N R)). cbn. unfold id in *. lia. Qed.
Lemma table_below x nt : good (Tabled x nt) -> (forall e, In e (entries (index (x_store x))) -> below (t_nextb (x_table x)) nt (fst e))
  /\ forall m, ~ below (t_nextb (x_table x)) nt m -> midx (index (x_store x)) m = None.
Proof.
  intros ((a & b & c & L) & _ & T). apply (rep_below _ _ _ _ (proj1 L)). intros m Hm. apply (layout_markers _ _ _ _ _ L) in Hm.
  destruct L as (_ & _ & _ & _ & F & _). apply in_app_iff in Hm. cbn [In] in Hm. destruct Hm as [Hm|[<-|Hm]]; [|exact T|];
    apply in_map_iff in Hm; destruct Hm as (i & <- & Hi); apply F; [now left|now right].
Qed.

(** ** Renamings of what is below the counters *)
Lemma rm_same f f' h h' nb nt m : (forall i, (i < nb)%N -> f' i = f i) -> (forall i, (i < nt)%N -> h' i = h i) -> below nb nt m -> rm f' h' m = rm f h m.
Proof. intros A B. destruct m; cbn; intros H; [rewrite A|rewrite B]; easy. Qed.
Lemma st_ren_hop f h nb nt mb mt st st' n0 n1 : renaming f n0 nb -> renaming h n1 nt -> (f nb <= mb)%N -> (h nt <= mt)%N ->
  (forall e, In e (entries (index st)) -> below nb nt (fst e)) -> (forall m, ~ below nb nt m -> midx (index st) m = None) ->
  st_ren f h st st' -> st_ren (fun i => hop (f nb) mb (f i)) (fun i => hop (h nt) mt (h i)) st st'.
Proof.
  intros Rf Rh Hf Hh E M [R [I1 I2 I3 I4]]. destruct (renaming_hop _ _ _ _ Rf Hf) as (_ & _ & Uf), (renaming_hop _ _ _ _ Rh Hh) as (_ & _ & Uh).
  constructor; [easy|]. constructor; [|easy|easy|].
  - rewrite I1. apply map_ext_in. intros e He. unfold re. f_equal. apply eq_sym, (rm_same _ _ _ _ nb nt); auto.
  - intros m. destruct m as [i|t].
    + destruct (N.lt_ge_cases i nb) as [L|L].
      * cbn [rm]. rewrite (Uf _ L). apply (I4 (MBlock i)).
      * cbn [rm]. rewrite (M (MBlock i)) by (cbn; unfold id in *; lia). unfold hop. destruct (tracks_up _ _ (ren_inj _ _ _ Rf) (ren_tracks _ _ _ Rf) _ L) as [j Ej].
        rewrite Ej. destruct (N.ltb_spec (f nb + j) (f nb)); [unfold id in *; lia|]. replace (f nb + j + (mb - f nb))%N with (f (nb + (j + (mb - f nb))))%N
          by (rewrite (proj1 (ren_tracks _ _ _ Rf)); unfold id in *; lia). rewrite (I4 (MBlock (nb + (j + (mb - f nb)))%N) : midx _ (MBlock (f _)) = _). apply M. cbn. unfold id in *. lia.
    + destruct (N.lt_ge_cases t nt) as [L|L].
      * cbn [rm]. rewrite (Uh _ L). apply (I4 (MAnchor t)).
      * cbn [rm]. rewrite (M (MAnchor t)) by (cbn; unfold id in *; lia). unfold hop. destruct (tracks_up _ _ (ren_inj _ _ _ Rh) (ren_tracks _ _ _ Rh) _ L) as [j Ej].
        rewrite Ej. destruct (N.ltb_spec (h nt + j) (h nt)); [unfold id in *; lia|]. replace (h nt + j + (mt - h nt))%N with (h (nt + (j + (mt - h nt))))%N
          by (rewrite (proj1 (ren_tracks _ _ _ Rh)); unfold id in *; lia). rewrite (I4 (MAnchor (nt + (j + (mt - h nt)))%N) : midx _ (MAnchor (h _)) = _). apply M. cbn. unfold id in *. lia.
Qed.
Lemma rb_same f f' nb bs : (forall i, (i < nb)%N -> f' i = f i) -> (forall b, In b bs -> (tb_id b < nb)%N) -> map (rb f') bs = map (rb f) bs.
Proof. intros H B. apply map_ext_in. intros b Hb. unfold rb. now rewrite H by auto. Qed.
Lemma rc_same f f' g g' nb nc cs : (forall i, (i < nb)%N -> f' i = f i) -> (forall i, (i < nc)%N -> g' i = g i) ->
  (forall c, In c cs -> (tc_id c < nc)%N) -> (forall b, In b (flat_map tc_blocks cs) -> (tb_id b < nb)%N) -> map (rc f' g') cs = map (rc f g) cs.
Proof.
  intros F G C B. apply map_ext_in. intros c Hc. unfold rc. rewrite G by auto. rewrite (rb_same f f' nb); [easy|easy|].
  intros b Hb. apply B. apply in_flat_map. now exists c.
Qed.

(** ** Copies *)
Definition live (c : tstate) : Prop := match c with Bare _ _ _ _ _ _ _ => False | _ => True end.
Lemma st_ren_id st : st_ren (fun i => i) (fun i => i) st st.
Proof.
  assert (E : forall m, rm (fun i => i) (fun i => i) m = m) by now intros [].
  constructor; [easy|]. constructor; [|easy|easy|].
  - transitivity (map (fun e => e) (entries (index st))); [now rewrite map_id|]. apply map_ext. intros [m n]. unfold re. now rewrite E.
  - intros m. now rewrite E.
Qed.
Lemma rb_id bs : map (rb (fun i => i)) bs = bs.
Proof. transitivity (map (fun b : tblock => b) bs); [|apply map_id]. apply map_ext. now intros []. Qed.
Lemma copy_refl n0 c : le3 n0 (counters c) -> copy n0 c c.
Proof.
  intros (L1 & L2 & L3). exists (fun i => i), (fun i => i), (fun i => i). split; [now apply renaming_id|]. split; [now apply renaming_id|]. split; [now apply renaming_id|].
  destruct c as [d nc nt|x nt|o n ch st nb nc nt]; cbn [matches].
  - split; [now destruct d|]. split; [now intros i|easy].
  - split; [|easy]. constructor; [|apply st_ren_id|easy]. unfold rt. rewrite rb_id. replace (map (rc (fun i => i) (fun i => i)) (t_cells (x_table x))) with (t_cells (x_table x)); [now destruct (x_table x)|].
    transitivity (map (fun c : tcell => c) (t_cells (x_table x))); [now rewrite map_id|]. apply map_ext. intros []. unfold rc. cbn. now rewrite rb_id.
  - rewrite rb_id. split; [easy|]. split; [easy|]. split; [easy|]. split; [apply st_ren_id|easy].
Qed.
Lemma copy_counters n0 c c' : copy n0 c c' -> exists f g h, matches f g h c c' /\ counters c' = (f (fst (fst (counters c))), g (snd (fst (counters c))), h (snd (counters c)))
  /\ renaming f (fst (fst n0)) (fst (fst (counters c))) /\ renaming g (snd (fst n0)) (snd (fst (counters c))) /\ renaming h (snd n0) (snd (counters c)).
Proof.
  intros (f & g & h & Rf & Rg & Rh & M). exists f, g, h. split; [easy|]. split; [|easy].
  destruct c as [d nc nt|x nt|], c' as [d' nc' nt'|y nt'|]; cbn [matches] in M; try easy.
  - now destruct M as (-> & _ & -> & ->).
  - destruct M as [A ->]. cbn [counters fst snd]. now rewrite (alike_table _ _ _ _ _ A).
  - now destruct M as (_ & _ & _ & _ & -> & -> & ->).
Qed.
(** A copy stays one when the counters go up. *)
Lemma copy_up n0 c c' n : good c -> live c -> copy n0 c c' -> le3 (counters c') n -> copy n0 c (set_counters c' n).
Proof.
  intros G Li K L. destruct (copy_counters _ _ _ K) as (f & g & h & M & E & Rf & Rg & Rh). rewrite E in L. destruct n as [[mb mc] mt]. destruct L as (L1 & L2 & L3). cbn [fst snd] in *.
  destruct (renaming_hop _ _ _ _ Rf L1) as (Rf' & Ef & Uf), (renaming_hop _ _ _ _ Rg L2) as (Rg' & Eg & Ug), (renaming_hop _ _ _ _ Rh L3) as (Rh' & Eh & Uh).
  exists (fun i => hop (f (fst (fst (counters c)))) mb (f i)), (fun i => hop (g (snd (fst (counters c)))) mc (g i)), (fun i => hop (h (snd (counters c))) mt (h i)).
  split; [exact Rf'|]. split; [exact Rg'|]. split; [exact Rh'|].
  destruct c as [d nc nt|x nt|], c' as [d' nc' nt'|y nt'|]; cbn [matches] in M; try easy; cbn [set_counters matches]; cbn [counters fst snd] in *.
  - destruct M as (-> & F & -> & ->). rewrite Ef, Eg, Eh. split; [easy|]. split; [|easy]. intros i Hi. rewrite Uf by easy. now apply F.
  - destruct M as [A ->]. split; [|now rewrite Eh]. destruct (table_below _ _ G) as [B1 B2]. destruct G as ((a & b & e & La) & O & T).
    constructor; cbn [x_table x_store x_tid].
    + rewrite (alike_table _ _ _ _ _ A). unfold rt at 1 2 3 4 5 6 7 8. cbn [t_rows t_cols t_widths t_cells t_others t_at t_count t_chars]. unfold rt. rewrite Ef, Eg.
      destruct La as (_ & _ & _ & _ & Fb & _). f_equal.
      * apply eq_sym, (rc_same f _ g _ (t_nextb (x_table x)) (t_next (x_table x))); [easy|easy|apply O|]. intros bl Hb. apply Fb. right. now apply in_map.
      * apply eq_sym, (rb_same f _ (t_nextb (x_table x))); [easy|]. intros bl Hb. apply Fb. left. now apply in_map.
    + eapply st_ren_hop; eauto. apply A.
    + rewrite (alike_tid _ _ _ _ _ A). now rewrite Uh.
Qed.
(** A copy looks the same. *)
Lemma look_ren f h st st' nb bs : inj f -> fixes f nb -> st_ren f h st st' -> map (look_block nb st') (map (rb f) bs) = map (look_block nb st) bs.
Proof.
  intros I F R. rewrite map_map. apply map_ext. intros b. unfold look_block. cbn [rb tb_id tb_pos tb_len]. now rewrite (seen_ren f nb), (ren_content f h _ _ _ R).
Qed.
Lemma copy_same n0 c c' : copy n0 c c' -> same_but_new_numbers n0 c c'.
Proof.
  intros (f & g & h & [If Ff _ _] & [Ig Fg _ _] & [Ih Fh _ _] & M). destruct n0 as [[nb nc] nt]. cbn [fst snd] in *.
  destruct c as [d nc1 nt1|x nt1|], c' as [d' nc1' nt1'|y nt1'|]; cbn [matches] in M; try easy; cbn [same_but_new_numbers].
  - destruct M as (-> & _). constructor; easy.
  - destruct M as ([A B C] & _). unfold look_table. rewrite A, C. cbn [rt t_rows t_cols t_widths t_cells t_others t_at t_count t_chars].
    rewrite (seen_ren h), (ren_rope _ _ _ _ B), (look_ren f h (x_store x)) by easy. f_equal. rewrite map_map. apply map_ext. intros c. unfold look_cell.
    cbn [rc tc_id tc_row tc_col tc_rs tc_cs tc_fmt tc_blocks]. rewrite (seen_ren g), (look_ren f h (x_store x)) by easy. easy.
  - destruct M as (-> & -> & -> & R & _). rewrite (look_ren f h st) by easy. rewrite (ren_rope _ _ _ _ R). easy.
Qed.

(** ** A call on a copy *)
Lemma multi_next d n is_ : get_multi (set_next d n) is_ = get_multi d is_.
Proof. induction is_ as [|i l IH]; [easy|]. cbn. now rewrite IH. Qed.
Lemma caught_next d n is_ : caught_up (set_next d n) is_ = caught_up d is_.
Proof. induction is_ as [|i l IH]; [easy|]. cbn [caught_up]. now rewrite IH. Qed.
Lemma stored_next d n bs : forall k p, walk_stored (set_next d n) bs k p = walk_stored d bs k p.
Proof. induction bs as [|b l IH]; intros k p; [easy|]. cbn [walk_stored]. rewrite !IH. easy. Qed.
Lemma found_next d n bs p : find_block_at_position (set_next d n) bs p = find_block_at_position d bs p.
Proof. unfold find_block_at_position. rewrite stored_next. easy. Qed.
Lemma plain_ren f h d : reach d -> inj f -> fixes f (d_next d) -> st_ren f h (d_rs d) (d_rs d).
Proof.
  intros R I F. destruct (plain_below d 0%N R) as [B1 B2]. constructor; [easy|]. constructor; [|easy|easy|].
  - transitivity (map (fun e => e) (entries (index (d_rs d)))); [now rewrite map_id|]. apply map_ext_in. intros [m k] He. unfold re. cbn [fst snd]. f_equal.
    specialize (B1 _ He). destruct m as [i|t]; cbn in *; [now rewrite F|unfold id in *; lia].
  - intros [i|t]; cbn [rm].
    + destruct (N.lt_ge_cases i (d_next d)) as [L|L]; [now rewrite F|]. rewrite !B2; [easy|cbn; unfold id in *; lia|].
      cbn. assert (X := fixes_above _ _ I F _ L). unfold id in *. lia.
    + now rewrite !plain_anchor.
Qed.
Lemma plain_insert f g h d p a rows cols nt nc : reach d -> inj f -> inj g -> inj h -> fixes f (d_next d) -> tracks f (d_next d) -> tracks g nc ->
  both (next_alike f g h) (x_insert_table d p a rows cols nt nc) (x_insert_table (set_next d (f (d_next d))) p a rows cols (h nt) (g nc)).
Proof.
  intros R If Ig Ih F Tf Tg. destruct (reach_wf _ R) as [ps W]. unfold x_insert_table. rewrite caught_next, multi_next. cbn [set_next d_order d_fblocks d_rs d_nblocks d_chars d_next].
  destruct (_ || _); [exact Logic.I|]. rewrite (wf_order _ _ W), (caught_up_wf d ps [] W). cbn [bind]. change (cpre []) with 0.
  rewrite found_next. destruct (wf_loc _ _ (Z.min p a) W) as (pre & b & t & post & i & -> & Hi & Loc).
  destruct (find_in_list d pre b t post i (Z.min p a) (sort_blocks (get_multi d (d_fblocks d))) W Hi Loc) as (j & y & _ & _ & Ey & ->).
  { assert (P : Permutation (map b_id (sort_blocks (get_multi d (d_fblocks d)))) (d_fblocks d)).
    { rewrite <- (wf_multi_f _ _ W) at 2. apply Permutation_map, sort_perm. }
    apply (Permutation_in b (Permutation_sym P)), (Permutation_in b (Permutation_sym (wf_fblocks _ _ W))). rewrite map_app, in_app_iff. right. now left. }
  cbn [bind set_b_pos b_id b_pos]. rewrite Ey. change (char_length (set_next d (f (d_next d))) b) with (char_length d b). rewrite (wf_length_in _ _ b t W) by (apply in_app_iff; right; now left). cbn [bind].
  assert (Fb : f b = b) by (apply F, (wf_next _ _ W); rewrite map_app, in_app_iff; right; now left).
  assert (O : at_places 0 (pre ++ (b, t) :: post) = map (rb f) (at_places 0 (pre ++ (b, t) :: post))).
  { transitivity (map (fun b : tblock => b) (at_places 0 (pre ++ (b, t) :: post))); [now rewrite map_id|]. apply map_ext_in. intros bl Hb. unfold rb.
    rewrite F; [now destruct bl|]. apply (wf_next _ _ W). rewrite <- (at_places_ids 0 (pre ++ (b, t) :: post)). now apply in_map. }
  rewrite O at 2. eapply both_bind; [exact (ren_insert_table f g If _ _ _ _ _ _ _ _ _ Tg Tf)|]. intros t1 t2 [-> T].
  rewrite <- Fb at 2. eapply both_bind; [exact (ren_insert_anchor f h If Ih _ _ nt b _ (plain_ren f h d R If F))|]. intros st1 st2 R1.
  rewrite (ren_frame_end f g h _ _ _ _ R1). apply both_same. intros byte.
  change (t_cells (rt f g t1)) with (map (rc f g) (t_cells t1)). rewrite ren_cell_ids. eapply both_bind; [exact (ren_mirror_new f h If Ih _ _ _ byte R1)|]. intros st3 st4 R3.
  cbn [both]. split; [|exact T]. now constructor.
Qed.
Lemma renaming_next f n0 n n' : renaming f n0 n -> tracks f n' -> (n <= n')%N -> renaming f n0 n'.
Proof. intros [A B _ C] T L. constructor; [easy|easy|easy|unfold id in *; lia]. Qed.
Lemma copy_step n0 c c' r c1 : good c -> copy n0 c c' -> names_old n0 r -> carry_out c r = Ok c1 -> exists c1', carry_out c' r = Ok c1' /\ copy n0 c1 c1'.
Proof.
  intros G K Nm E. destruct (carry_good _ _ _ G E) as [_ L]. destruct K as (f & g & h & Rf & Rg & Rh & M). destruct n0 as [[nb0 nc0] nt0]. cbn [fst snd] in *.
  assert (If := ren_inj _ _ _ Rf). assert (Ig := ren_inj _ _ _ Rg). assert (Ih := ren_inj _ _ _ Rh).
  destruct L as (L1 & L2 & L3).
  destruct c as [d nc nt|x nt|], c' as [d' nc' nt'|y nt'|]; cbn [matches] in M; try easy; cbn [counters fst snd] in *.
  - destruct M as (-> & F & -> & ->). destruct r as [p a rows cols|t o|t]; cbn [carry_out] in *; [|now destruct o|easy].
    assert (B := plain_insert f g h d p a rows cols nt nc G If Ig Ih F (ren_tracks _ _ _ Rf) (ren_tracks _ _ _ Rg)).
    destruct (x_insert_table d p a rows cols nt nc) as [x| |]; cbn [bind] in E; try easy. destruct (x_insert_table (set_next _ _) _ _ _ _ _ _) as [y| |]; cbn [both] in B; try easy.
    injection E as <-. cbn [bind counters fst snd] in *. destruct B as [A [Tg Tf]]. destruct (tracks_succ _ _ (ren_tracks _ _ _ Rh)) as [Sh Th].
    eexists. split; [reflexivity|]. exists f, g, h. cbn [counters fst snd]. split; [now apply (renaming_next _ _ _ _ Rf)|]. split; [now apply (renaming_next _ _ _ _ Rg)|].
    split; [now apply (renaming_next _ _ _ _ Rh)|]. cbn [matches]. now rewrite Sh.
  - destruct M as [A ->].
    assert (T : tracked f g (x_table x)) by (split; apply Rg || apply Rf).
    assert (St : forall o z, x_step x o = Ok z -> ro g o = o -> (t_nextb (x_table x) <= t_nextb (x_table z))%N -> (t_next (x_table x) <= t_next (x_table z))%N ->
      exists z', x_step y o = Ok z' /\ copy (nb0, nc0, nt0) (Tabled z nt) (Tabled z' (h nt))).
    { intros o z Ez Er N1 N2. assert (B := ren_step f g h If Ig Ih x y o A T). rewrite Ez, Er in B. destruct (x_step y o) as [z'| |]; cbn [both] in B; try easy.
      destruct B as [A' [Tg Tf]]. exists z'. split; [easy|]. exists f, g, h. cbn [counters fst snd]. split; [now apply (renaming_next _ _ _ _ Rf)|]. split; [now apply (renaming_next _ _ _ _ Rg)|].
      split; [easy|]. now cbn [matches]. }
    assert (Et : forall t, (t < nt0)%N -> N.eqb t (x_tid y) = N.eqb t (x_tid x)).
    { intros t Ht. rewrite (alike_tid _ _ _ _ _ A). rewrite <- (ren_fixes _ _ _ Rh t Ht) at 1. destruct (N.eqb_spec t (x_tid x)) as [->|Ne]; [apply N.eqb_refl|].
      apply N.eqb_neq. intros X. now apply Ne, Ih. }
    destruct r as [p a rows cols|t o|t]; cbn [carry_out] in *; [easy| |].
    + assert (Gen : forall o, ro g o = o -> (t < nt0)%N -> (if N.eqb t (x_tid x) then let! x' := x_step x o in Ok (Tabled x' nt) else Err) = Ok c1 ->
        exists c1', (if N.eqb t (x_tid y) then let! x' := x_step y o in Ok (Tabled x' (h nt)) else Err) = Ok c1' /\ copy (nb0, nc0, nt0) c1 c1').
      { intros o' Er Ht E'. rewrite (Et t Ht). destruct (N.eqb t (x_tid x)); [|easy]. destruct (x_step x o') as [z| |] eqn:Ez; cbn [bind] in E'; try easy; injection E' as <-.
        cbn [counters fst snd] in *. destruct (St o' z Ez Er L1 L2) as (z' & -> & C). cbn [bind]. eauto. }
      destruct o as [i|i|i|i|r0 c0 r1 c1'|i sr sc]; cbn [carry_out names_old] in *;
        [exact (Gen _ eq_refl Nm E)|exact (Gen _ eq_refl Nm E)|exact (Gen _ eq_refl Nm E)|exact (Gen _ eq_refl Nm E)|exact (Gen _ eq_refl Nm E)|].
      destruct (x_step x (Split i sr sc)) as [z| |] eqn:Ez; cbn [bind] in E; try easy; injection E as <-. cbn [counters fst snd] in *.
      destruct (St (Split i sr sc) z Ez) as (z' & -> & C); [cbn; now rewrite (ren_fixes _ _ _ Rg)|easy|easy|]. cbn [bind]. eauto.
    + rewrite (Et t Nm). destruct (N.eqb t (x_tid x)); [|easy]. assert (B := ren_remove_table f g h If Ih x y A).
      destruct (x_remove_table x) as [[[[o n] ch] st]| |]; cbn [bind] in E; try easy. injection E as <-.
      destruct (x_remove_table y) as [[[[o' n'] ch'] st']| |]; cbn [both] in B; try easy. destruct B as (-> & -> & -> & R). cbn [bind].
      eexists. split; [reflexivity|]. exists f, g, h. cbn [counters fst snd matches]. split; [easy|]. split; [easy|]. split; [easy|].
      rewrite (alike_table _ _ _ _ _ A). easy.
  - destruct r as [| |]; cbn [carry_out] in E; try easy. now destruct o.
Qed.
Lemma step_live c r c1 : carry_out c r = Ok c1 -> live c.
Proof. destruct c, r; cbn; try easy. now destruct o. Qed.
