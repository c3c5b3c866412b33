(** Deleting over cells. *)
From Coq Require Import Sorting.Permutation Sorting.Sorted.
From Verif Require Import Base BaseFacts RopeModel RopeSpec RopeFacts TableModel TableSpec TableFacts TableTextModel TableTextSpec TableTextFacts TableTextEdits TableTextTheorems
  TableEditModel TableEditSpec TableEditFacts TableEditSteps TableEditTheorems TablePlaces XCopyFacts XSearchFacts XDeleteModel XDeleteSpec XDeleteRope XDeleteFacts.
Local Open Scope Z_scope.
Local Notation lengths := TableTextTheorems.lengths.

Lemma cell_known d c : NoDup (map tc_id (t_cells d)) -> In c (t_cells d) -> cell_named d (tc_id c) = Some c.
Proof.
  intros N H. unfold cell_named. destruct (find (fun y => N.eqb (tc_id y) (tc_id c)) (t_cells d)) as [y|] eqn:E.
  - apply find_some in E. destruct E as [Hy E]. apply N.eqb_eq in E. f_equal. now apply (StateFacts.NoDup_map_inj tc_id (t_cells d)).
  - apply (find_none _ _ E) in H. now rewrite N.eqb_refl in H.
Qed.
Lemma delete_cells_theorem x ts p a : edited x -> table_last x -> document_texts x ts ->
  let s := Nat.min p a in let e := Nat.max p a in
  (forall k, touches ts s e k -> ~ outside x k) -> (exists j k, j <> k /\ touches ts s e j /\ touches ts s e k) ->
  (exists k, (k < length ts)%nat /\ ~ outside x k /\ ~ touches ts s e k) ->
  exists x' ts', x_delete_cells x (Z.of_nat p) (Z.of_nat a) = Ok (Some (x', [])) /\ document_texts x' ts' /\ emptied ts s e ts'
   /\ same_shape (x_table x) (x_table x') /\ t_count (x_table x') = Z.of_nat (length ts') /\ t_chars (x_table x') = Z.of_nat (length (concat ts')).
Proof.
  intros Ed TL T s e In_ Two Rest. assert (I := edited_inv _ Ed). assert (H := inv_history _ I). assert (Se := T). apply (texts_seen _ _ I) in Se.
  assert (Hpa : p <> a). { intros <-. destruct Two as (j & k & Njk & (t & Et & J1 & J2) & (u & Eu & K1 & K2)). unfold s, e in *. rewrite Nat.min_id, Nat.max_id in *.
    destruct (Nat.lt_trichotomy j k) as [L|[L|L]]; [|easy|]; [assert (X := XSearchFacts.start_grows ts j k t Et L)|assert (X := XSearchFacts.start_grows ts k j u Eu L)]; lia. }
  assert (Es : Z.min (Z.of_nat p) (Z.of_nat a) = Z.of_nat s) by lia. assert (Ee : Z.max (Z.of_nat p) (Z.of_nat a) = Z.of_nat e) by lia.
  set (d := x_table x) in *. set (bs := flow_blocks d) in *.
  assert (Fl : bs = t_others d ++ flat_map tc_blocks (sort_cells (t_cells d))).
  { unfold bs, flow_blocks. rewrite firstn_all2, skipn_all2 by exact TL. now rewrite app_nil_r. }
  assert (P := inv_placed _ I). fold d in P. fold bs in P.
  assert (Rf : refresh_others (x_store x) (t_others d) 0 = Ok (t_others d)).
  { assert (P' := P). assert (Se' := Se). rewrite Fl in P', Se'. apply in_place_app in P'. apply seen_app in Se'. destruct Se' as (t1 & t2 & _ & S1 & _). exact (refresh_id x _ t1 0 S1 (proj1 P')). }
  assert (Sd : set_others d (t_others d) = d) by now destruct d.
  assert (So := sort_id _ 0 (seen_lens _ _ _ Se) P).
  assert (Fs : exists r, find_stored (x_store x) bs (Z.of_nat s) = Ok r).
  { destruct (find_split x bs ts 0 (Z.of_nat s) Se (flow_nonempty _ H) ltac:(lia)) as (pre & b & post & ts1 & t & ts2 & k & _ & _ & _ & _ & _ & _ & _ & F1 & _). eexists. exact (F1 P). }
  assert (No := flow_ids_nodup _ H). fold d in No. fold bs in No.
  (* blocks and paragraphs *)
  assert (At : forall k b, nth_error bs k = Some b -> exists t, nth_error ts k = Some t /\ known x b t /\ tb_pos b = Z.of_nat (start_of k ts)).
  { intros k b E. destruct (seen_at _ _ _ _ _ Se E) as (t & Et & K). exists t. split; [easy|]. split; [easy|]. assert (X := place_at x bs ts 0 k b Se P E). lia. }
  assert (Tb : forall k b, nth_error bs k = Some b -> touchb (Z.of_nat s) (Z.of_nat e) b = true <-> touches ts s e k).
  { intros k b E. destruct (At k b E) as (t & Et & (_ & _ & K) & Ep). unfold touchb. rewrite andb_true_iff, !Z.leb_le, Ep, K. split.
    - intros [A B]. exists t. split; [easy|]. lia.
    - intros (t' & Et' & A & B). rewrite Et in Et'. injection Et' as <-. lia. }
  assert (Cell : forall b, In b bs -> In b (t_others d) \/ exists c, In c (t_cells d) /\ tc_blocks c = [b]).
  { intros b Hb. rewrite Fl in Hb. apply in_app_iff in Hb. destruct Hb as [Hb|Hb]; [now left|right]. apply in_flat_map in Hb. destruct Hb as (c & Hc & Hb).
    apply (Permutation_in c (sort_cells_perm (t_cells d))) in Hc. exists c. split; [easy|]. assert (L := inv_single _ I c Hc). destruct (tc_blocks c) as [|y [|z l]]; try discriminate. destruct Hb as [->|[]]. reflexivity. }
  assert (Out : forall k b, nth_error bs k = Some b -> In b (t_others d) -> outside x k).
  { intros k b E Hb. exists bs, b. split; [now apply order_flow|now split]. }
  assert (TC : forall b, In b bs -> touchb (Z.of_nat s) (Z.of_nat e) b = true -> exists c, In c (t_cells d) /\ tc_blocks c = [b] /\ cell_with d (tb_id b) = Some (tc_id c)).
  { intros b Hb Ht. destruct (In_nth_error _ _ Hb) as [k E]. destruct (Cell b Hb) as [Ho|(c & Hc & Ec)].
    - exfalso. apply (In_ k); [now apply (Tb k b E)|exact (Out k b E Ho)].
    - exists c. split; [easy|]. split; [easy|]. apply (owner_some x c b H Hc). rewrite Ec. now left. }
  assert (Ni := proj1 (proj2 (history_grid _ (proj2 (x_history _ H))))). fold d in Ni.
  assert (Ls : lens (x_store x) bs). { intros b Hb. destruct (seen_in _ _ _ _ Se Hb) as (t & _ & K2 & K3). unfold len_in. now rewrite K2, K3. }
  set (tb := touchb (Z.of_nat s) (Z.of_nat e)) in *. set (hs := filter tb bs).
  assert (Hs : forall b, In b hs <-> In b bs /\ tb b = true) by (intros b; apply filter_In).
  assert (Nhs : NoDup (block_ids hs)). { unfold hs, block_ids. clear -No. induction bs as [|b l IH]; [constructor|]. cbn [filter]. cbn [block_ids map] in No. inversion No as [|? ? N1 N2]; subst. destruct (tb b); [cbn [map]; constructor|]; try (now apply IH).
    intros X. apply N1. apply in_map_iff in X. destruct X as (y & E & Hy). apply filter_In in Hy. apply in_map_iff. now exists y. }
  assert (Own : forall b c, In b bs -> tb b = true -> In c (t_cells d) -> tc_blocks c = [b] -> own d b = tc_id c).
  { intros b c Hb Ht Hc Ec. unfold own. assert (Xo := owner_some x c b H Hc). fold d in Xo. rewrite Xo; [easy|]. rewrite Ec. now left. }
  assert (No2 : NoDup (map (own d) hs)).
  { assert (G : forall b y, In b hs -> In y hs -> own d b = own d y -> b = y).
    { intros b y Hb Hy E. apply Hs in Hb, Hy. destruct Hb as [Hb1 Hb2], Hy as [Hy1 Hy2]. destruct (TC b Hb1 Hb2) as (c & Hc & Ec & _), (TC y Hy1 Hy2) as (c' & Hc' & Ec' & _).
      rewrite (Own b c), (Own y c') in E by easy. assert (c = c') by (now apply (StateFacts.NoDup_map_inj tc_id (t_cells d))). subst c'. rewrite Ec in Ec'. now injection Ec'. }
    assert (Nh : NoDup hs) by (unfold block_ids in Nhs; exact (NoDup_map_inv _ _ Nhs)). clear -G Nh. induction hs as [|b l IH]; [constructor|]. inversion Nh as [|? ? N1 N2]; subst. cbn [map]. constructor.
    - intros X. apply in_map_iff in X. destruct X as (y & E & Hy). rewrite (G b y) in N1; [easy|now left|now right|easy].
    - apply IH; [|easy]. intros u v Hu Hv. apply G; now right. }
  assert (Cr : cross_cell (x_store x) d bs (Z.of_nat s) (Z.of_nat e) None = Ok true).
  { assert (G : forall l f, lens (x_store x) l -> exists v, cross_cell (x_store x) d l (Z.of_nat s) (Z.of_nat e) f = Ok v
       /\ (v = false -> forall b, In b l -> tb b = true -> match f with Some c => cell_with d (tb_id b) = c | None => forall y, In y l -> tb y = true -> cell_with d (tb_id b) = cell_with d (tb_id y) end)).
    { clear. induction l as [|b l IH]; intros f L; [exists false; easy|]. cbn [cross_cell]. rewrite (L b (or_introl eq_refl)). cbn [bind].
      assert (L' : lens (x_store x) l) by (intros y Hy; apply L; now right).
      assert (Q : ((tb_pos b + tb_len b <? Z.of_nat s) || (Z.of_nat e <? tb_pos b)) = negb (tb b)).
      { unfold tb, touchb. destruct (Z.ltb_spec (tb_pos b + tb_len b) (Z.of_nat s)), (Z.ltb_spec (Z.of_nat e) (tb_pos b)), (Z.leb_spec (Z.of_nat s) (tb_pos b + tb_len b)), (Z.leb_spec (tb_pos b) (Z.of_nat e)); try lia; reflexivity. }
      rewrite Q. destruct (tb b) eqn:M; cbn [negb].
      - destruct f as [c|].
        + destruct (same_owner c (cell_with d (tb_id b))) eqn:So.
          * apply same_owner_eq in So. destruct (IH (Some c) L') as (v & E & A). exists v. split; [easy|]. intros Ev y [<-|Hy] Hit; [easy|now apply A].
          * exists true. now split.
        + destruct (IH (Some (cell_with d (tb_id b))) L') as (v & E & A). exists v. split; [easy|]. intros Ev y Hy Hit z Hz Hitz.
          assert (G : forall u, In u (b :: l) -> tb u = true -> cell_with d (tb_id u) = cell_with d (tb_id b)).
          { intros u [<-|Hu] Hitu; [easy|]. now apply (A Ev u Hu Hitu). }
          rewrite (G y Hy Hit). symmetry. now apply G.
      - destruct (IH f L') as (v & E & A). exists v. split; [easy|]. intros Ev y [<-|Hy] Hit; [congruence|]. specialize (A Ev y Hy Hit). destruct f as [c|]; [easy|]. intros z [<-|Hz] Hz2; [congruence|now apply A]. }
    destruct (G bs None Ls) as (v & E & A). rewrite E. destruct v; [easy|]. exfalso. specialize (A eq_refl).
    destruct Two as (j & k & Njk & Tj & Tk). assert (Lb := seen_count _ _ _ Se).
    assert (Ex : forall i, touches ts s e i -> exists b, nth_error bs i = Some b). { intros i (t & Et & _). destruct (nth_error bs i) as [b|] eqn:Eb; [now exists b|]. apply nth_error_None in Eb. rewrite Lb in Eb. apply nth_error_None in Eb. unfold char in *. congruence. }
    destruct (Ex j Tj) as [b Eb], (Ex k Tk) as [y Ey]. assert (Hb := nth_error_In _ _ Eb). assert (Hy := nth_error_In _ _ Ey).
    apply (Tb j b Eb) in Tj. apply (Tb k y Ey) in Tk. assert (W := A b Hb Tj y Hy Tk). assert (b = y).
    { destruct (TC b Hb Tj) as (c & Hc & Ec & Oc), (TC y Hy Tk) as (c' & Hc' & Ec' & Oc'). rewrite Oc, Oc' in W. injection W as W. assert (c = c') by (now apply (StateFacts.NoDup_map_inj tc_id (t_cells d))). subst c'. rewrite Ec in Ec'. now injection Ec'. }
    subst y. apply Njk. assert (Nb : NoDup bs) by (unfold block_ids in No; exact (NoDup_map_inv _ _ No)). apply (proj1 (NoDup_nth_error bs) Nb); [apply nth_error_Some; congruence|congruence]. }
  assert (Mc : met_cells (x_store x) d bs (Z.of_nat s) (Z.of_nat e) [] = Ok (map (own d) hs)).
  { apply met_cells_all; [easy| |easy|easy]. intros b Hb Ht. destruct (TC b Hb Ht) as (c & _ & _ & ->). discriminate. }
  destruct (x_history _ H) as [(la & lb & lc & L) _]. set (l := (la ++ (MAnchor (x_tid x), [FFFC]) :: lb) ++ lc) in *.
  assert (Hd : held (x_store x) l) by (left; apply L).
  assert (Tx : forall b t, In b bs -> known x b t -> In (MBlock (tb_id b), t) l).
  { intros b t Hb (E & _). destruct (layout_in _ _ _ _ _ L (flow_block_in x b Hb)) as (u & Hu & Eu). rewrite E in Eu. injection Eu as <-. exact Hu. }
  destruct (clear_cells_all d (own d) hs (x_store x) l Hd) as (st1 & l1 & Cc & H1 & F1); [| |exact Nhs|].
  { intros b Hb. apply Hs in Hb. destruct Hb as [Hb1 Hb2]. destruct (TC b Hb1 Hb2) as (c & Hc & Ec & _). exists c. split; [|easy]. rewrite (Own b c) by easy. now apply cell_known. }
  { intros b Hb. apply Hs in Hb. destruct Hb as [Hb1 Hb2]. destruct (seen_in _ _ _ _ Se Hb1) as (t & K). exists t. split; [now apply Tx|apply K]. }
  assert (Tch : forall b, In b bs -> existsb (N.eqb (tb_id b)) (block_ids hs) = tb b).
  { intros b Hb. destruct (tb b) eqn:Q.
    - apply existsb_exists. exists (tb_id b). split; [apply in_map, Hs; now split|apply N.eqb_refl].
    - destruct (existsb (N.eqb (tb_id b)) (block_ids hs)) eqn:X; [|easy]. apply existsb_exists in X. destruct X as (i & Hi & E). apply N.eqb_eq in E. subst i. apply in_map_iff in Hi. destruct Hi as (y & E & Hy). apply Hs in Hy.
      assert (y = b) by (apply (StateFacts.NoDup_map_inj tb_id bs); easy). subst y. destruct Hy. congruence. }
  assert (New : forall b t, In b bs -> known x b t -> block_content st1 (tb_id b) = Ok (if tb b then [] else t) /\ block_char_length st1 (tb_id b) = Ok (length (if tb b then [] else t))).
  { intros b t Hb K. assert (X := F1 _ _ (Tx b t Hb K)). rewrite (Tch b Hb) in X. exact (held_content _ _ _ _ H1 X). }
  (* the cells *)
  set (hit := map (own d) hs) in *.
  assert (Hit : forall c b, In c (t_cells d) -> tc_blocks c = [b] -> existsb (N.eqb (tc_id c)) hit = tb b).
  { intros c b Hc Ec. assert (Hb : In b bs) by (apply (cells_flow d c b Hc); rewrite Ec; now left). destruct (tb b) eqn:Q.
    - apply existsb_exists. exists (tc_id c). split; [|apply N.eqb_refl]. rewrite <- (Own b c) by easy. apply in_map, Hs. now split.
    - destruct (existsb (N.eqb (tc_id c)) hit) eqn:X; [|easy]. apply existsb_exists in X. destruct X as (i & Hi & E). apply N.eqb_eq in E. subst i. apply in_map_iff in Hi. destruct Hi as (y & E & Hy). apply Hs in Hy. destruct Hy as [Hy1 Hy2].
      destruct (TC y Hy1 Hy2) as (c' & Hc' & Ec' & _). rewrite (Own y c') in E by easy. assert (c' = c) by (now apply (StateFacts.NoDup_map_inj tc_id (t_cells d))). subst c'. rewrite Ec in Ec'. injection Ec' as <-. congruence. }
  set (z := zero (Z.of_nat s) (Z.of_nat e)). set (f := fun c => TableModel.set_blocks c (map z (tc_blocks c))).
  assert (Cf : map (cleared hit) (t_cells d) = map f (t_cells d)).
  { apply map_ext_in. intros c Hc. assert (L1 := inv_single _ I c Hc). destruct (tc_blocks c) as [|b [|b' r]] eqn:Ec; try discriminate. unfold cleared, f. rewrite (Hit c b Hc Ec), Ec. cbn [map]. unfold z, zero. fold (tb b).
    destruct (tb b); [now cbn|]. destruct c; cbn in *. now rewrite Ec. }
  assert (Go : table_goes st1 (map (cleared hit) (t_cells d)) hit (Z.of_nat s) (Z.of_nat e) = Ok false).
  { unfold table_goes. destruct (forallb _ _) eqn:Fa; [|easy]. exfalso. rewrite forallb_forall in Fa. destruct Rest as (k & Hk & Ok_ & Nt). rewrite <- (seen_count _ _ _ Se) in Hk. apply nth_error_Some in Hk.
    destruct (nth_error bs k) as [b|] eqn:Eb; [|easy]. assert (Hb := nth_error_In _ _ Eb). destruct (Cell b Hb) as [Ho|(c & Hc & Ec)]; [now apply Ok_, (Out k b)|].
    specialize (Fa (cleared hit c) (in_map _ _ _ Hc)). assert (Ei : tc_id (cleared hit c) = tc_id c) by (unfold cleared; now destruct (existsb (N.eqb (tc_id c)) hit)). rewrite Ei, (Hit c b Hc Ec) in Fa. now apply Nt, (Tb k b Eb). }
  assert (Mo : met_outside st1 d bs (Z.of_nat s) (Z.of_nat e) = Ok []).
  { apply none_outside. intros b Hb. destruct (seen_in _ _ _ _ Se Hb) as (t & K). destruct (New b t Hb K) as [_ Cl]. exists (Z.of_nat (length (if tb b then [] else t))). unfold len_in. rewrite Cl. split; [easy|]. fold (tb b). split.
    - intros ->. symmetry. apply K.
    - intros Q. destruct (TC b Hb Q) as (c & _ & _ & ->). discriminate. }
  assert (Oz : map z (t_others d) = t_others d).
  { rewrite <- (map_id (t_others d)) at 2. apply map_ext_in. intros b Hb. unfold z, zero. fold (tb b). destruct (tb b) eqn:Q; [|easy]. exfalso.
    assert (Hf : In b bs) by (now apply others_flow). destruct (In_nth_error _ _ Hf) as [k E]. apply (In_ k); [now apply (Tb k b E)|exact (Out k b E Hb)]. }
  unfold x_delete_cells. destruct (Z.eqb_spec (Z.of_nat p) (Z.of_nat a)) as [X|_]; [lia|]. rewrite Es, Ee. fold d. rewrite Rf. cbn [bind]. rewrite Sd. fold bs. rewrite So. destruct Fs as [[fb fo] ->]. cbn [bind]. rewrite Cr. cbn [bind]. rewrite Mc. cbn [bind]. rewrite Cc. cbn [bind].
  rewrite Go. cbn [bind]. rewrite Mo. cbn [bind clear_outside]. rewrite !left_all. eexists _, (blanked (Z.of_nat s) (Z.of_nat e) bs ts). split; [reflexivity|].
  assert (Lb := seen_count _ _ _ Se). assert (Lbl := blanked_length (Z.of_nat s) (Z.of_nat e) bs ts Lb). rewrite Cf.
  assert (Ff : forall cs, flat_map tc_blocks (map f cs) = map z (flat_map tc_blocks cs)). { induction cs as [|c cs IH]; [easy|]. cbn [map flat_map]. now rewrite map_app, <- IH. }
  split; [|split; [|split; [|split]]].
  - exists (map z bs). split.
    + exists (map f (sort_cells (t_cells d))). cbn [x_table t_cells t_at t_others]. split; [apply Permutation_map, sort_cells_perm|]. split.
      * apply reads_map; [now intros c|]. now apply history_reads.
      * rewrite (@firstn_all2 _ (t_at d) (t_others d)) by exact TL. rewrite firstn_all, skipn_all, app_nil_r, Ff. rewrite Fl, map_app, Oz. reflexivity.
    + apply (blanked_texts _ _ x); [exact Se|]. intros b t Hb K. apply (New b t Hb K).
  - split; [exact Lbl|]. intros k t Et. assert (exists b, nth_error bs k = Some b) as [b Eb].
    { destruct (nth_error bs k) as [b|] eqn:Eb; [now exists b|]. apply nth_error_None in Eb. rewrite Lb in Eb. apply nth_error_None in Eb. unfold char in *. congruence. }
    rewrite (blanked_nth _ _ bs ts k b t Eb Et). fold (tb b). rewrite <- (Tb k b Eb). destruct (tb b); split; intros X; try easy; now contradict X.
  - cbn [x_table]. unfold same_shape. cbn [t_rows t_cols t_widths t_cells t_others]. do 3 (split; [easy|]). split; [|easy]. rewrite map_map. apply map_ext. intros c. unfold cell_shape, f. cbn [TableModel.set_blocks tc_id tc_row tc_col tc_rs tc_cs tc_fmt tc_blocks]. f_equal.
    unfold block_ids. rewrite map_map. apply map_ext. intros b. apply zero_id.
  - cbn [x_table t_count]. rewrite Lbl, <- Lb, Ff, map_length. do 1 f_equal. rewrite <- app_length. apply Permutation_length. symmetry. apply flow_all.
  - cbn [x_table t_chars]. rewrite (blanked_chars _ _ x bs ts Se). fold tb. fold hs. assert (X := inv_chars _ I). fold d in X. fold bs in X. rewrite X.
    assert (Y := blanked_chars (Z.of_nat s) (Z.of_nat e) x bs ts Se). fold tb in Y. fold hs in Y. lia.
Qed.
