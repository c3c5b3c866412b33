(** Searching and replacing in documents with a table: the theorems. *)
From Coq Require Import Sorting.Permutation.
From Verif Require Import Base RopeModel DocModel DocSpec DocDelete SearchModel SearchSpec SearchFacts SearchTheorems TableModel TableSpec TableFacts TableTextModel TableTextSpec TableTextTheorems TableEditModel TableEditSpec TableEditFacts TableEditSteps TableEditTheorems
  TableTextRefuted PropSpec FlowSpec XCopyModel XCopyCuts XCopyFacts XCopyTheorems XSearchModel XSearchSpec XSearchFacts.
Local Notation apart := SearchSpec.apart.

(** ** Texts *)
Lemma replaced_nth us k i j r q : nth_error (replaced us k i j r) q = if q =? k then option_map (fun t => firstn i t ++ r ++ skipn j t) (nth_error us k) else nth_error us q.
Proof.
  destruct (nth_error us k) as [t|] eqn:E.
  - destruct (nth_error_split _ _ E) as (u & v & -> & <-). rewrite replaced_mid.
    destruct (Nat.eqb_spec q (length u)) as [->|N]; [rewrite nth_error_app2, Nat.sub_diag by lia; easy|]. destruct (Nat.lt_ge_cases q (length u)); [now rewrite !nth_error_app1 by easy|].
    rewrite !nth_error_app2 by easy. destruct (q - length u) eqn:D; [lia|easy].
  - unfold replaced. rewrite E. destruct (Nat.eqb_spec q k) as [->|N]; [now rewrite E|easy].
Qed.
Lemma replaced_len us k i j r : length (replaced us k i j r) = length us.
Proof.
  destruct (nth_error us k) as [t|] eqn:E; [|unfold replaced; now rewrite E]. destruct (nth_error_split _ _ E) as (u & v & -> & <-). rewrite replaced_mid, !app_length. easy.
Qed.
Lemma replaced_before us k i j r q : q <= k -> firstn q (replaced us k i j r) = firstn q us.
Proof.
  intros H. destruct (nth_error us k) as [t|] eqn:E; [|unfold replaced; now rewrite E]. destruct (nth_error_split _ _ E) as (u & v & -> & <-). rewrite replaced_mid.
  rewrite !firstn_app. replace (q - length u) with 0 by lia. easy.
Qed.
Lemma lies_at ts m k : find (lies_in ts m) (seq 0 (length ts)) = Some k -> exists t, nth_error ts k = Some t /\ start_of k ts <= fst m /\ fst m + snd m <= start_of k ts + length t.
Proof. intros E. apply find_some in E. destruct E as [_ E]. unfold lies_in in E. destruct (nth_error ts k) as [t|]; [|discriminate]. exists t. apply andb_prop in E. rewrite !Nat.leb_le in E. easy. Qed.

(** The texts before the ranges stay. *)
Lemma replaced_prior r ts : forall ms from, apart from ms -> let us := replaced_all r ts ms in
  length us = length ts /\ forall q t m, nth_error ts q = Some t -> m <= length t -> start_of q ts + m <= from ->
    firstn q us = firstn q ts /\ exists t', nth_error us q = Some t' /\ firstn m t' = firstn m t /\ m <= length t'.
Proof.
  induction ms as [|[p n] ms IH]; intros from A; cbn [replaced_all fold_right].
  - split; [easy|]. intros q t m E Hm _. split; [easy|]. now exists t.
  - destruct A as (A1 & A2 & A3). destruct (IH (p + n) A3) as [L F]. fold (replaced_all r ts ms). cbn [fst snd]. set (us := replaced_all r ts ms) in *. split.
    + destruct (find _ _); [now rewrite replaced_len|easy].
    + intros q t m E Hm Hq. destruct (F q t m E Hm ltac:(lia)) as (F1 & t' & F2 & F3 & F4). destruct (find (lies_in ts (p, n)) (seq 0 (length ts))) as [k|] eqn:Ef; [|split; [easy|now exists t']].
      destruct (lies_at _ _ _ Ef) as (u & Eu & B1 & B2). cbn [fst snd] in B1, B2.
      assert (K : q <= k). { destruct (Nat.lt_ge_cases k q) as [D|D]; [|easy]. assert (G := start_grows _ _ _ _ Eu D). lia. }
      split; [now rewrite replaced_before|]. rewrite replaced_nth. destruct (Nat.eqb_spec q k) as [->|N]; [|now exists t'].
      rewrite F2. eexists. split; [reflexivity|]. assert (Eu' : u = t) by congruence. subst u.
      destruct (F k t (p + n - start_of k ts) Eu ltac:(lia) ltac:(lia)) as (_ & t'' & G2 & _ & G4). assert (t'' = t') by congruence. subst t''.
      assert (Lf : length (firstn (p - start_of k ts) t') = p - start_of k ts) by (apply firstn_length_le; lia).
      split; [|rewrite app_length, Lf; lia]. rewrite firstn_app, Lf. replace (m - (p - start_of k ts)) with 0 by lia. cbn [firstn]. rewrite app_nil_r, firstn_firstn, Nat.min_l by lia. easy.
Qed.
(** Where a range stands once those behind it are replaced. *)
Lemma replaced_next r ts p n ms k : apart 0 ((p, n) :: ms) -> find (lies_in ts (p, n)) (seq 0 (length ts)) = Some k ->
  let us := replaced_all r ts ms in start_of k us = start_of k ts /\ start_of k ts <= p /\ exists t, nth_error us k = Some t /\ p - start_of k ts + n <= length t.
Proof.
  intros (_ & A2 & A3) E us. destruct (lies_at _ _ _ E) as (t & Et & B1 & B2). cbn [fst snd] in B1, B2. destruct (replaced_prior r ts ms (p + n) A3) as [_ F]. fold us in F.
  destruct (F k t (p + n - start_of k ts) Et ltac:(lia) ltac:(lia)) as (F1 & t' & F2 & _ & F4). split; [unfold start_of; now rewrite F1|]. split; [easy|]. exists t'. split; [easy|lia].
Qed.
Lemma joined_replaced us k off n r t : nth_error us k = Some t -> off + n <= length t ->
  joined (replaced us k off (off + n) r) = firstn (start_of k us + off) (joined us) ++ r ++ skipn (start_of k us + off + n) (joined us).
Proof.
  intros E H. destruct (nth_error_split _ _ E) as (u & v & -> & <-). rewrite replaced_mid, joined_mid, start_mid. destruct (splice u t v off ltac:(lia)) as [-> _]. rewrite <- (Nat.add_assoc (starts u)).
  destruct (splice u t v (off + n) H) as [_ ->]. rewrite <- !app_assoc. reflexivity.
Qed.
Lemma apart_zero from ms : apart from ms -> apart 0 ms.
Proof. destruct ms as [|[p n] ms]; [easy|]. intros (A & B & C). split; [lia|now split]. Qed.
Lemma joined_all r ts : forall ms from, apart from ms -> Forall (fun m => within ts m = true) ms -> from <= length (joined ts) ->
  joined (replaced_all r ts ms) = firstn from (joined ts) ++ rewrite r from ms (skipn from (joined ts)).
Proof.
  induction ms as [|[p n] ms IH]; intros from A F Hf; cbn [replaced_all fold_right rewrite].
  - now rewrite firstn_skipn.
  - inversion F as [|? ? Fw F']; subst. fold (replaced_all r ts ms). assert (A0 := apart_zero _ _ A). destruct A as (A1 & A2 & A3). rewrite within_find in Fw.
    destruct (find (lies_in ts (p, n)) (seq 0 (length ts))) as [k|] eqn:E; [|discriminate]. destruct (replaced_next r ts p n ms k A0 E) as (N1 & N2 & t & N3 & N4).
    destruct (lies_at _ _ _ E) as (u & Eu & _ & B2). cbn [fst snd] in B2. assert (J := inside_joined _ _ _ Eu). set (us := replaced_all r ts ms) in *. cbn [fst snd].
    rewrite (joined_replaced us k _ n r t N3 N4), N1. replace (start_of k ts + (p - start_of k ts)) with p by lia. specialize (IH (p + n) A3 F' ltac:(lia)). fold us in IH. rewrite IH.
    assert (L : length (firstn (p + n) (joined ts)) = p + n) by (apply firstn_length_le; lia).
    rewrite firstn_app, L. replace (p - (p + n)) with 0 by lia. cbn [firstn]. rewrite app_nil_r, firstn_firstn, Nat.min_l by lia.
    rewrite skipn_app, L, Nat.sub_diag, (@skipn_all2 _ (p + n) (firstn (p + n) (joined ts))) by lia. cbn [skipn app]. rewrite skipn_skipn. replace (from + (p - from + n)) with (p + n) by lia.
    rewrite (app_assoc (firstn from (joined ts))). f_equal. assert (Lf : length (firstn from (joined ts)) = from) by (apply firstn_length_le; lia).
    rewrite <- (firstn_skipn from (joined ts)) at 1. rewrite firstn_app, Lf, firstn_all2 by (rewrite Lf; lia). reflexivity.
Qed.

(** ** All replacements *)
Local Open Scope Z_scope.
Definition total_of (r : str) (vs : list (nat * nat * nat)) : Z := fold_right (fun v n => Z.of_nat (length r) - Z.of_nat (fst (fst v)) + n) 0 vs.
Definition replaced_doc (x : xdoc) (vs : list (nat * nat * nat)) (r : str) (st : rstore) : xdoc :=
  mk_xdoc (edit_blocks (x_table x) (x_moved (x_moves (delta_of r vs) 0 (flow_blocks (x_table x)) 0)) (t_chars (x_table x) + total_of r vs)) st (x_tid x).
Lemma dsum_none r : forall j k, dsum (delta_of r []) k j = 0.
Proof. induction j as [|j IH]; intros k; cbn [dsum]; [easy|]. now rewrite IH. Qed.
Lemma all_replaced x ts r : inv x -> seen x (flow_blocks (x_table x)) ts -> forall ms, apart 0 ms -> Forall (fun m => within ts m = true) ms ->
  exists st, x_replace_each (x_store x) (flow_blocks (x_table x)) (rev (map (tagged ts) ms)) r = Ok st
   /\ let x' := replaced_doc x (map (tagged ts) ms) r st in inv x' /\ seen x' (flow_blocks (x_table x')) (replaced_all r ts ms).
Proof.
  intros I Se. assert (No := flow_ids_nodup _ (inv_history _ I)). induction ms as [|[p n] ms IH]; intros A F.
  - exists (x_store x). split; [easy|]. cbn [map]. assert (E : replaced_doc x [] r (x_store x) = x).
    { unfold replaced_doc. cbn [total_of fold_right]. rewrite Z.add_0_r. rewrite (edit_ext _ _ (fun y => y)), edit_none; [now destruct x|]. intros y Hy. destruct (In_nth_error _ _ Hy) as [j Ej].
      rewrite (moves_at _ _ 0 0 j y No Ej), dsum_none. destruct y as [yi yp yl]. cbn [tb_id tb_pos tb_len delta_of fold_right]. f_equal; lia. }
    cbn zeta. rewrite E. now split.
  - inversion F as [|? ? Fw F']; subst. rewrite within_find in Fw. destruct (find (lies_in ts (p, n)) (seq 0 (length ts))) as [k|] eqn:Ek; [|discriminate].
    destruct (replaced_next r ts p n ms k A Ek) as (N1 & N2 & t & N3 & N4).
    destruct (IH (apart_zero _ _ (proj2 (proj2 A))) F') as (st1 & E1 & I1 & S1). clear IH. set (x1 := replaced_doc x (map (tagged ts) ms) r st1) in *.
    assert (Et : tagged ts (p, n) = (n, k, (p - start_of k ts)%nat)) by (unfold tagged; now rewrite Ek). cbn [map]. rewrite Et. set (v := (n, k, (p - start_of k ts)%nat)). set (vs := map (tagged ts) ms) in *.
    destruct (one_replaced x1 _ k (p - start_of k ts) n r t I1 S1 N3 N4) as (b & sta & stb & Eb & Ea & Ety & I2 & S2). fold v in I2, S2.
    set (f := x_moved (x_moves (delta_of r vs) 0 (flow_blocks (x_table x)) 0)) in *.
    assert (Ef : flow_blocks (x_table x1) = map f (flow_blocks (x_table x))) by (unfold x1, replaced_doc; cbn [x_table]; apply flow_edit).
    assert (Eb0 : exists b0, nth_error (flow_blocks (x_table x)) k = Some b0 /\ tb_id b0 = tb_id b).
    { rewrite Ef in Eb. rewrite nth_error_map in Eb. destruct (nth_error (flow_blocks (x_table x)) k) as [b0|]; [|discriminate]. exists b0. split; [easy|]. cbn in Eb. injection Eb as <-. symmetry. apply moved_id. }
    destruct Eb0 as (b0 & Eb0 & Ei). exists stb. split.
    + cbn [rev]. rewrite each_app, E1. cbn [bind x_replace_each v]. rewrite Eb0. cbn [unwrap bind]. rewrite Ei. cbn [x1 replaced_doc x_store] in Ea. rewrite Ea. cbn [bind]. rewrite Ety. reflexivity.
    + assert (Ex : mk_xdoc (edit_blocks (x_table x1) (x_moved (x_moves (delta_of r [v]) 0 (flow_blocks (x_table x1)) 0)) (t_chars (x_table x1) + (Z.of_nat (length r) - Z.of_nat n))) stb (x_tid x1) = replaced_doc x (v :: vs) r stb).
      { unfold replaced_doc. rewrite Ef. cbn [x1 replaced_doc x_table x_tid]. fold f. rewrite edit_twice. f_equal. cbn [edit_blocks t_chars]. replace (t_chars (x_table x) + total_of r vs + (Z.of_nat (length r) - Z.of_nat n)) with (t_chars (x_table x) + total_of r (v :: vs)) by (cbn [total_of fold_right v fst]; fold (total_of r vs); lia).
        apply edit_ext. intros y Hy. destruct (In_nth_error _ _ Hy) as [j Ej]. rewrite (moves_at (delta_of r (v :: vs)) _ 0 0 j y No Ej).
        assert (Ej' : nth_error (map f (flow_blocks (x_table x))) j = Some (f y)) by (rewrite nth_error_map, Ej; easy).
        rewrite (moves_at (delta_of r [v]) _ 0 0 j (f y)); [|unfold f; now rewrite moved_ids|easy]. unfold f. rewrite (moves_at (delta_of r vs) _ 0 0 j y No Ej). cbn [tb_id tb_pos tb_len].
        rewrite (dsum_add _ _ _ (delta_cons r v vs)), (delta_cons r v vs). f_equal; lia. }
      rewrite Ex in I2, S2. cbn [replaced_all fold_right]. rewrite Ek. cbn [fst snd]. fold (replaced_all r ts ms). now split.
Qed.

(** ** The theorems *)
Lemma inv_recorded x ts : inv x -> seen x (flow_blocks (x_table x)) ts -> recorded_right x ts.
Proof.
  intros I T. split; [|split].
  - intros bs k b O E. apply (order_flow _ _ (inv_history _ I)) in O. subst bs. split; [exact (place_at x _ ts 0 k b T (inv_placed _ I) E)|].
    destruct (seen_at _ _ _ _ _ T E) as (t & -> & _ & _ & ->). easy.
  - now rewrite (inv_count _ I), (seen_count _ _ _ T).
  - now rewrite (inv_chars _ I), (seen_chars _ _ _ T).
Qed.
Lemma x_find_all_theorem g x ts query o : edited x -> document_texts x ts -> case_sensitive o = true -> use_regex o = false ->
  exists ms, x_find_all g x query o = Ok ms /\ reports (hits g o (joined ts) query) (length query) ms.
Proof.
  intros Ed D Hc Hr. assert (I := edited_inv _ Ed). assert (Se := proj1 (texts_seen _ _ I) D). unfold x_find_all. rewrite (searched_text _ _ I Se). cbn [bind]. now apply find_matches_exact.
Qed.
Lemma x_find_next_theorem g x ts query o from backward : edited x -> document_texts x ts -> case_sensitive o = true -> use_regex o = false ->
  exists r, x_find_text g x query o from backward = Ok r
   /\ (if backward then last_before else next_from) (hits g o (joined ts) query) (Z.to_nat from) (option_map fst r) /\ (forall m, r = Some m -> snd m = length query).
Proof.
  intros Ed D Hc Hr. assert (I := edited_inv _ Ed). assert (Se := proj1 (texts_seen _ _ I) D). unfold x_find_text. rewrite (searched_text _ _ I Se). cbn [bind].
  destruct (find_matches_exact g (joined ts) query o Hc Hr) as (ms & -> & Rp). cbn [bind]. replace (Z.to_nat (Z.max from 0)) with (Z.to_nat from) by lia.
  eexists. split; [reflexivity|]. destruct backward; [exact (find_last _ _ _ _ Rp)|exact (find_first _ _ _ _ Rp)].
Qed.
Lemma x_find_folded_theorem g x ts query o lc : edited x -> document_texts x ts -> case_sensitive o = false -> use_regex o = false ->
  SearchModel.lower g (joined ts) = map lc (joined ts) -> SearchModel.lower g query = map lc query ->
  exists ms, x_find_all g x query o = Ok ms /\ reports (hits_folded g o lc (joined ts) query) (length query) ms.
Proof.
  intros Ed D Hc Hr L1 L2. assert (I := edited_inv _ Ed). assert (Se := proj1 (texts_seen _ _ I) D). unfold x_find_all. rewrite (searched_text _ _ I Se). cbn [bind].
  destruct (find_literal_all g (joined ts) query o Hr) as (ms & E1 & Rp). exists ms. split; [easy|].
  rewrite Hc, L2, map_length in Rp. eapply reports_iff; [|exact Rp]. intros p. unfold found, hits_folded.
  rewrite Hc, L1, L2, occurs_map, map_length. split; [tauto|]. intros (H1 & H2). split; [easy|]. split; [|easy]. destruct query; easy.
Qed.
Lemma filter_apart f : forall ms from, apart from ms -> apart from (filter f ms).
Proof.
  assert (Mono : forall (l : list (nat * nat)) a b, (a <= b)%nat -> apart b l -> apart a l) by (intros [|[p n] l] a b Hf; cbn; [easy|]; intuition lia).
  induction ms as [|[p n] l IH]; intros from Hl; cbn [filter]; [easy|]. destruct Hl as (H1 & H2 & H3). destruct (f _); [split; [easy|]; split; [easy|now apply IH]|]. apply (Mono _ _ (p + n)%nat); [lia|now apply IH].
Qed.
Lemma apart_pos : forall ms from, apart from ms -> Forall (fun m => 0 < snd m)%nat ms.
Proof. induction ms as [|[p n] ms IH]; intros from A; constructor; [apply A|]. apply (IH (p + n)%nat), A. Qed.
Lemma apart_first from ms : apart from ms -> apart from (firstn 1 ms).
Proof. destruct ms as [|[p n] ms]; [easy|]. intros (A & B & _). now split. Qed.
Lemma moved_same x vs r st : same_blocks (x_table x) (x_table (replaced_doc x vs r st)).
Proof. apply edit_same. apply moved_id. Qed.
Lemma x_replace_theorem x ts ms (all : bool) r : edited x -> document_texts x ts -> fitting ts ms ->
  let inside := filter (within ts) ms in let done := if all then inside else firstn 1 inside in
  exists x', x_replace_matches x ms all r = Ok (x', Z.of_nat (length done), Z.of_nat (length ms) - Z.of_nat (length inside))
   /\ document_texts x' (replaced_all r ts done) /\ joined (replaced_all r ts done) = rewrite r 0 done (joined ts)
   /\ recorded_right x' (replaced_all r ts done) /\ same_blocks (x_table x) (x_table x').
Proof.
  intros Ed D [A _] inside done. assert (I := edited_inv _ Ed). assert (Se := proj1 (texts_seen _ _ I) D).
  assert (Ai : apart 0 inside) by now apply filter_apart. assert (Ad : apart 0 done) by (unfold done; destruct all; [easy|now apply apart_first]).
  assert (Fi : Forall (fun m => within ts m = true) inside) by (apply Forall_forall; intros m Hm; apply filter_In in Hm; apply Hm).
  assert (Fd : Forall (fun m => within ts m = true) done) by (unfold done; destruct all; [easy|]; destruct inside as [|m l]; [easy|]; constructor; [now inversion Fi|constructor]).
  assert (J : joined (replaced_all r ts done) = rewrite r 0 done (joined ts)) by (assert (X := joined_all r ts done 0 Ad Fd ltac:(lia)); cbn [firstn skipn app] in X; exact X).
  assert (V := valid_found x _ ts Se (inv_placed _ I) ms (apart_pos _ _ A)). fold inside in V.
  assert (Base : done = [] -> document_texts x (replaced_all r ts done) /\ recorded_right x (replaced_all r ts done) /\ same_blocks (x_table x) (x_table x)).
  { intros ->. cbn [replaced_all fold_right]. split; [easy|]. split; [now apply inv_recorded|apply same_blocks_refl]. }
  destruct ms as [|m0 ms0] eqn:Em.
  { exists x. assert (X : done = []) by (unfold done; now destruct all). rewrite X in Base, J |- *. destruct (Base eq_refl) as (B1 & B2 & B3). split; [easy|]. split; [exact B1|]. split; [exact J|]. split; [exact B2|exact B3]. }
  rewrite <- Em in *. unfold x_replace_matches. rewrite (searched_flow _ _ I Se), V. cbn [bind].
  assert (Ev : (if all then map (tagged ts) inside else firstn 1 (map (tagged ts) inside)) = map (tagged ts) done) by (unfold done; destruct all; [easy|]; now rewrite firstn_map).
  rewrite Ev. destruct (all_replaced x ts r I Se done Ad Fd) as (st & Est & I' & S').
  destruct done as [|d1 ds] eqn:Edn.
  - exists x. cbn [map]. split; [rewrite Em; easy|]. destruct (Base eq_refl) as (B1 & B2 & B3). split; [exact B1|]. split; [exact J|]. split; [exact B2|exact B3].
  - exists (replaced_doc x (map (tagged ts) (d1 :: ds)) r st). split.
    + rewrite Em. cbn [map] in *. rewrite Est. cbn [bind length]. rewrite map_length. reflexivity.
    + split; [now apply texts_seen|]. split; [easy|]. split; [now apply inv_recorded|apply moved_same].
Qed.
Lemma x_replace_literal_theorem g x ts query o (all : bool) r : edited x -> document_texts x ts -> case_sensitive o = true -> use_regex o = false -> never_overlaps query (joined ts) ->
  exists x' ms, let inside := filter (within ts) ms in let done := if all then inside else firstn 1 inside in
   reports (hits g o (joined ts) query) (length query) ms
   /\ x_replace_text g x query r o all = Ok (x', Z.of_nat (length done), Z.of_nat (length ms) - Z.of_nat (length inside))
   /\ document_texts x' (replaced_all r ts done) /\ joined (replaced_all r ts done) = rewrite r 0 done (joined ts)
   /\ recorded_right x' (replaced_all r ts done) /\ same_blocks (x_table x) (x_table x').
Proof.
  intros Ed D Hc Hr Hn. destruct (x_find_all_theorem g x ts query o Ed D Hc Hr) as (ms & E & Rp). assert (Rp0 := Rp). destruct Rp as (Ic & M & L).
  assert (Hh : forall m, In m ms -> query <> [] /\ occurs query (joined ts) (fst m)) by (intros m Hm; apply (in_map fst) in Hm; apply M in Hm; unfold hits in Hm; tauto).
  assert (Fit : fitting ts ms).
  { split.
    - assert (G : forall l from, (forall m, In m l -> In m ms) -> increasing (map fst l) -> (forall m, In m l -> from <= fst m)%nat -> apart from l).
      { induction l as [|[p n] l IH]; intros from Hs Hi Hf; [exact Logic.I|]. cbn [map fst] in Hi. inversion Hi as [|? ? H1 H2]; subst. pose proof (Hs (p, n) (or_introl eq_refl)) as Hm.
        pose proof (L _ Hm) as Hl. cbn in Hl. subst n. destruct (Hh _ Hm) as [Hq Ho]. cbn [fst] in Ho. cbn [SearchSpec.apart].
        split; [apply (Hf _ (or_introl eq_refl))|]. split; [destruct query; [easy|cbn; lia]|]. apply IH; [intros m H; apply Hs; now right|easy|].
        intros m Hm'. apply Hn; [easy|apply Hh, Hs; now right|]. apply H1. now apply in_map. }
      apply G; [easy|easy|intros; lia].
    - rewrite Forall_forall. intros m Hm. destruct (Hh _ Hm) as [_ Ho]. rewrite (L _ Hm). apply occurs_slice in Ho. easy. }
  destruct (x_replace_theorem x ts ms all r Ed D Fit) as (x' & E1 & E2 & E3 & E4 & E5). exists x', ms. cbn zeta. split; [exact Rp0|]. split; [|split; [exact E2|]; split; [exact E3|]; split; [exact E4|exact E5]].
  unfold x_replace_text. unfold x_find_all in E. destruct (x_full_text x) as [text| |]; cbn [bind] in *; try easy. rewrite E. cbn [bind]. exact E1.
Qed.
Lemma x_find_regex_theorem g x ts query o l : edited x -> document_texts x ts ->
  query <> [] -> use_regex o = true -> rx g query (negb (case_sensitive o)) (joined ts) = Some l ->
  Forall (fun y => exists p n, SearchSpec.covers (joined ts) p n y) l ->
  exists ms, x_find_all g x query o = Ok ms
   /\ (forall p n, In (p, n) ms <-> (exists y, In y l /\ SearchSpec.covers (joined ts) p n y)
         /\ (whole_word o = true -> at_word_edge (words g) (joined ts) p /\ at_word_edge (words g) (joined ts) (p + n)))
   /\ (whole_word o = false -> Forall2 (fun m y => SearchSpec.covers (joined ts) (fst m) (snd m) y) ms l).
Proof.
  intros Ed D Hq Hr Hx Hl. assert (I := edited_inv _ Ed). assert (Se := proj1 (texts_seen _ _ I) D). unfold x_find_all. rewrite (searched_text _ _ I Se). cbn [bind].
  unfold find_all_matches. rewrite Hr, Hx. destruct query as [|c query]; [easy|].
  set (wb := if whole_word o then _ else _). destruct (regex_all wb (joined ts) l Hl) as (ms & E1 & M & F).
  exists ms. split; [exact E1|]. split.
  - intros p n. rewrite M. unfold wb. destruct (whole_word o).
    + rewrite !word_boundary_spec. tauto.
    + intuition easy.
  - intros Hw. apply F. intros k. unfold wb. now rewrite Hw.
Qed.
