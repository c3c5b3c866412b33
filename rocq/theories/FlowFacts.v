(** Snapshots of the flow. *)
From Coq Require Import Sorting.Permutation.
From Verif Require Import Base BaseFacts FormatRunsModel FormatRunsSpec RopeModel RopeSpec DocModel DocSpec DocInv DocFacts DocQuery DocFresh BlockFacts DocReach HistModel HistSpec
  QueryModel QuerySpec QueryFacts QueryText PropSpec DocTheorems QueryTheorems ListModel ListDocModel ListDocFacts FlowModel FlowSpec.

Lemma marker_wf L ps i : wf (l_doc L) ps -> exists m, block_marker L i = Ok m.
Proof.
  intros W. unfold block_marker, list_item_index. destruct (block_list (l_doc L) i) as [l|] eqn:B; [|eauto]. destruct (get_list L l); [|eauto].
  destruct (list_blocks_wf _ _ l W) as (bs & E & _). rewrite E. cbn [bind]. eauto.
Qed.
Lemma snapshot_wf L pre i t post at_ : wf (l_doc L) (pre ++ (i, t) :: post) ->
  exists s b, block_snapshot L i at_ = Ok (Some s) /\ get_block (l_doc L) i = Some b /\ sn_id s = i /\ sn_pos s = match at_ with Some p => p | None => cpre pre end
   /\ sn_len s = length t /\ sn_text s = t /\ block_fragments (l_doc L) i = Ok (sn_frags s) /\ sn_fmt s = b_fmt b /\ block_marker L i = Ok (sn_marker s).
Proof.
  intros W. unfold block_snapshot. destruct (wf_get_mid _ _ _ _ _ W) as [b Eb]. rewrite Eb. pose proof (find_block_some _ _ _ Eb) as [Hb _].
  rewrite (refreshed_wf _ _ _ _ _ b W Hb). cbn [bind]. destruct (marker_wf _ _ i W) as [m Em]. rewrite Em. cbn [bind].
  destruct (block_fragments_wf _ _ _ _ _ W) as (fs & F & _). assert (F2 := F). unfold block_fragments in F2. rewrite Eb, (wf_content _ _ _ _ _ W) in F2. cbn [bind] in F2.
  destruct at_ as [p|]; cbn [bind].
  - rewrite (wf_content _ _ _ _ _ W), (wf_len_mid _ _ _ _ _ W). cbn [bind]. unfold to_usize. destruct (Z.leb_spec 0 (Z.of_nat (length t))); [|lia]. cbn [bind]. rewrite F2. cbn [bind].
    eexists _, b. split; [reflexivity|]. cbn [sn_id sn_pos sn_len sn_text sn_frags sn_fmt sn_marker]. rewrite Nat2Z.id. repeat split; easy.
  - unfold to_usize at 1. cbn [b_pos set_b_pos]. destruct (Z.leb_spec 0 (Z.of_nat (cpre pre))); [|lia]. cbn [bind].
    rewrite (wf_content _ _ _ _ _ W), (wf_len_mid _ _ _ _ _ W). cbn [bind]. unfold to_usize. destruct (Z.leb_spec 0 (Z.of_nat (length t))); [|lia]. cbn [bind]. rewrite F2. cbn [bind].
    eexists _, b. split; [reflexivity|]. cbn [sn_id sn_pos sn_len sn_text sn_frags sn_fmt sn_marker]. rewrite !Nat2Z.id. repeat split; easy.
Qed.
Lemma snapshot_stored L pre i t post : wf (l_doc L) (pre ++ (i, t) :: post) -> block_snapshot L i None = block_snapshot L i (Some (cpre pre)).
Proof.
  intros W. unfold block_snapshot. destruct (wf_get_mid _ _ _ _ _ W) as [b Eb]. rewrite Eb. pose proof (find_block_some _ _ _ Eb) as [Hb _].
  rewrite (refreshed_wf _ _ _ _ _ b W Hb). cbn [bind]. unfold to_usize at 1. cbn [b_pos set_b_pos]. destruct (Z.leb_spec 0 (Z.of_nat (cpre pre))); [|lia]. now rewrite Nat2Z.id.
Qed.
(** What a snapshot at the right place says. *)
Lemma snapshot_describes L pre i t post at_ s : wf (l_doc L) (pre ++ (i, t) :: post) -> block_snapshot L i at_ = Ok (Some s) ->
  match at_ with Some p => p = cpre pre | None => True end ->
  sn_id s = i /\ describes (items_of (d_runs (l_doc L)) (pre ++ (i, t) :: post)) (length pre) s
  /\ option_map b_fmt (get_block (l_doc L) i) = Some (sn_fmt s) /\ block_marker L i = Ok (sn_marker s).
Proof.
  intros W E A. destruct (snapshot_wf L pre i t post at_ W) as (s' & b & E' & Eb & H1 & H2 & H3 & H4 & H5 & H6 & H7). rewrite E in E'. injection E' as <-.
  split; [easy|]. split; [|split; [rewrite Eb; cbn; now rewrite H6|easy]].
  destruct (block_fragments_wf _ _ _ _ _ W) as (fs & F & G1 & G2 & G3). rewrite F in H5. injection H5 as ->. exists (styled t (d_runs (l_doc L) i)). split.
  - rewrite paragraphs_items by (now destruct pre). rewrite nth_error_map, nth_error_app2, Nat.sub_diag by lia. reflexivity.
  - rewrite para_start_items, plain_styled. split; [rewrite H2; now destruct at_|]. unfold styled in *. rewrite styled_length, H1. repeat split; easy.
Qed.
Lemma order_wf L ps : wf (l_doc L) ps -> forall post pre, ps = pre ++ post ->
  exists ss, snapshot_order L (map fst post) (cpre pre) = Ok ss /\ map sn_id ss = map fst post /\ map sn_text ss = map snd post
   /\ forall k s, nth_error ss k = Some s -> describes (items_of (d_runs (l_doc L)) ps) (length pre + k) s
        /\ option_map b_fmt (get_block (l_doc L) (sn_id s)) = Some (sn_fmt s) /\ block_marker L (sn_id s) = Ok (sn_marker s).
Proof.
  intros W. induction post as [|[i t] post IH]; intros pre E.
  - exists []. cbn. repeat split; try easy; now destruct k.
  - subst ps. cbn [map fst snapshot_order]. destruct (snapshot_wf L pre i t post (Some (cpre pre)) W) as (s & b & Es & Eb & H1 & H2 & H3 & H4 & _). rewrite Es. cbn [bind].
    destruct (IH (pre ++ [(i, t)])) as (ss & Er & M1 & M2 & M3); [now rewrite <- app_assoc|].
    assert (C : cpre (pre ++ [(i, t)]) = cpre pre + sn_len s + 1).
    { rewrite H3. apply cpre_snoc. }
    rewrite C in Er. rewrite Er. cbn [bind]. exists (s :: ss). split; [easy|]. cbn [map fst snd]. rewrite M1, M2, H1, H4. split; [easy|]. split; [easy|].
    intros [|k] s' Hs; cbn [nth_error] in Hs.
    + injection Hs as <-. rewrite Nat.add_0_r. destruct (snapshot_describes L pre i t post _ s W Es eq_refl) as (_ & D & F & M). rewrite H1. auto.
    + destruct (M3 k s' Hs) as (D & R). split; [|easy]. rewrite app_length in D. cbn [length] in D. replace (length pre + S k) with (length pre + 1 + k) by lia. exact D.
Qed.
Lemma joined_paras R ps : ps <> [] -> joined (map snd ps) = plain (items_of R ps).
Proof.
  induction ps as [|[b t] l IH]; [easy|]. intros _. destruct l as [|q l].
  - cbn [map snd joined items_of]. now rewrite plain_styled.
  - change (items_of R ((b, t) :: q :: l)) with (styled t (R b) ++ Brk :: items_of R (q :: l)). change (joined (map snd ((b, t) :: q :: l))) with (t ++ NL :: joined (map snd (q :: l))).
    rewrite IH by easy. rewrite plain_app, plain_styled. reflexivity.
Qed.

Lemma flow_theorem L its : reach (l_doc L) -> doc_items (l_doc L) = Ok its ->
  exists ss, snapshot_flow L = Ok ss /\ map sn_id ss = d_order (l_doc L) /\ length ss = length (paragraphs its)
   /\ forall k s, nth_error ss k = Some s -> describes its k s
        /\ option_map b_fmt (get_block (l_doc L) (sn_id s)) = Some (sn_fmt s) /\ block_marker L (sn_id s) = Ok (sn_marker s).
Proof.
  intros R E. destruct (reach_its _ _ R E) as (ps & W & ->). destruct (order_wf L ps W ps [] eq_refl) as (ss & Es & M1 & M2 & M3).
  exists ss. unfold snapshot_flow. assert (O := wf_order _ _ W). destruct (d_order (l_doc L)) as [|i is_] eqn:Eo.
  - exfalso. apply (wf_ne _ _ W). now destruct ps.
  - rewrite O. split; [exact Es|]. split; [easy|]. split; [|exact M3]. rewrite paragraphs_items, map_length by apply W. apply (f_equal (@length _)) in M1. now rewrite !map_length in M1.
Qed.
Lemma flow_text_theorem L : reach (l_doc L) ->
  exists ss, snapshot_flow L = Ok ss /\ export_plain_text (l_doc L) = Ok (joined (map sn_text ss)).
Proof.
  intros R. destruct (reach_readable _ R) as (its & E & X). destruct (reach_its _ _ R E) as (ps & W & ->). destruct (order_wf L ps W ps [] eq_refl) as (ss & Es & M1 & M2 & _).
  exists ss. assert (O := wf_order _ _ W). split.
  - unfold snapshot_flow. destruct (d_order (l_doc L)) as [|i is_] eqn:Eo; [exfalso; apply (wf_ne _ _ W); now destruct ps|]. rewrite O. exact Es.
  - rewrite M2, X. f_equal. symmetry. apply joined_paras, W.
Qed.

(** ** The snapshot at a position *)
Lemma order_nth L ps : wf (l_doc L) ps -> forall post pre i t rest mid, ps = pre ++ post -> post = mid ++ (i, t) :: rest ->
  forall ss, snapshot_order L (map fst post) (cpre pre) = Ok ss -> exists s, nth_error ss (length mid) = Some s /\ block_snapshot L i (Some (cpre (pre ++ mid))) = Ok (Some s).
Proof.
  intros W. induction post as [|[j u] post IH]; intros pre i t rest mid E Em ss Es; [now destruct mid|]. subst ps. cbn [map fst snapshot_order] in Es.
  destruct (snapshot_wf L pre j u post (Some (cpre pre)) W) as (s & b & Ej & Eb & H1 & H2 & H3 & _). rewrite Ej in Es. cbn [bind] in Es.
  assert (C : cpre (pre ++ [(j, u)]) = cpre pre + sn_len s + 1).
  { rewrite H3. apply cpre_snoc. }
  rewrite <- C in Es. destruct (snapshot_order L (map fst post) (cpre (pre ++ [(j, u)]))) as [ss'| |] eqn:Er; cbn [bind] in Es; try discriminate. injection Es as <-.
  destruct mid as [|m mid]; cbn [app] in Em; [injection Em as -> -> ->|injection Em as <- ->].
  - exists s. split; [easy|]. now rewrite app_nil_r.
  - destruct (IH (pre ++ [(j, u)]) i t rest mid ltac:(now rewrite <- app_assoc) eq_refl ss' Er) as (s' & N & B). exists s'. split; [easy|]. rewrite <- app_assoc in B. exact B.
Qed.
Lemma find_wf L ps p : wf (l_doc L) ps -> forall post pre, ps = pre ++ post -> (forall q, In q pre -> True) -> cpre pre <= p ->
  (exists mid i t rest o, post = mid ++ (i, t) :: rest /\ p = cpre (pre ++ mid) + o /\ o <= length t /\ snapshot_find L (map fst ps) (map fst post) (Z.of_nat (cpre pre)) p = block_snapshot L i (Some (cpre (pre ++ mid))))
  \/ (cpre ps <= p /\ snapshot_find L (map fst ps) (map fst post) (Z.of_nat (cpre pre)) p = snapshot_find L (map fst ps) [] (Z.of_nat (cpre ps)) p).
Proof.
  intros W. induction post as [|[i t] post IH]; intros pre E _ Hp.
  - right. subst ps. rewrite app_nil_r in *. split; [easy|]. reflexivity.
  - subst ps. cbn [map fst snapshot_find]. destruct (wf_get_mid _ _ _ _ _ W) as [b ->]. rewrite (wf_len_mid _ _ _ _ _ W). cbn [bind].
    destruct (le_lt_dec p (cpre pre + length t)) as [H|H].
    + left. exists [], i, t, post, (p - cpre pre). split; [easy|]. rewrite app_nil_r. split; [lia|]. split; [lia|].
      destruct (Z.leb_spec (Z.of_nat (cpre pre)) (Z.of_nat p)); [|lia]. destruct (Z.leb_spec (Z.of_nat p) (Z.of_nat (cpre pre) + Z.of_nat (length t))); [|lia]. cbn [andb]. now rewrite Nat2Z.id.
    + destruct (Z.leb_spec (Z.of_nat p) (Z.of_nat (cpre pre) + Z.of_nat (length t))); [lia|]. rewrite andb_false_r.
      assert (C : cpre (pre ++ [(i, t)]) = cpre pre + length t + 1) by (rewrite cpre_snoc; lia).
      replace (Z.of_nat (cpre pre) + Z.of_nat (length t) + 1)%Z with (Z.of_nat (cpre (pre ++ [(i, t)]))) by lia.
      destruct (IH (pre ++ [(i, t)]) ltac:(now rewrite <- app_assoc) ltac:(easy) ltac:(lia)) as [(mid & j & u & rest & o & -> & H1 & H2 & H3)|[H1 H2]].
      * left. exists ((i, t) :: mid), j, u, rest, o. rewrite <- app_assoc in H1, H3. auto.
      * right. auto.
Qed.
Lemma snapshot_at_theorem L its p : reach (l_doc L) -> doc_items (l_doc L) = Ok its ->
  exists ss s, snapshot_flow L = Ok ss /\ nth_error ss (breaks p its) = Some s /\ snapshot_block_at_position L p = Ok (Some s).
Proof.
  intros R E. destruct (reach_its _ _ R E) as (ps & W & ->). destruct (order_wf L ps W ps [] eq_refl) as (ss & Es & M1 & M2 & M3).
  assert (O := wf_order _ _ W). assert (Ne : d_order (l_doc L) <> []) by (rewrite O; pose proof (wf_ne _ _ W); now destruct ps).
  assert (Ef : snapshot_flow L = Ok ss) by (unfold snapshot_flow; destruct (d_order (l_doc L)) as [|i is_] eqn:Eo; [easy|]; rewrite O; exact Es).
  assert (Ei : collect_block_ids (l_doc L) = map fst ps) by (unfold collect_block_ids; destruct (d_order (l_doc L)); [easy|]; easy).
  unfold snapshot_block_at_position. rewrite Ei.
  destruct (find_wf L ps p W ps [] eq_refl ltac:(easy) ltac:(unfold cpre; cbn; lia)) as [(mid & i & t & rest & o & -> & H1 & H2 & H3)|[H1 H2]].
  - cbn [app] in H1, H3. destruct (order_nth L _ W _ [] i t rest mid eq_refl eq_refl ss Es) as (s & N & B). exists ss, s. split; [easy|]. subst p. rewrite breaks_at by easy. split; [easy|].
    change 0%Z with (Z.of_nat (cpre [])). now rewrite H3.
  - change (0%Z) with (Z.of_nat (cpre [])). rewrite H2. cbn [snapshot_find]. rewrite <- map_rev.
    destruct ps as [|[i t] pre _] using rev_ind; [now destruct (wf_ne _ _ W)|]. rewrite rev_app_distr. cbn [rev app map fst].
    destruct (order_nth L _ W _ [] i t [] pre eq_refl eq_refl ss Es) as (s & N & B). exists ss, s. split; [easy|]. rewrite (snapshot_stored L pre i t [] W). split; [|exact B].
    rewrite cpre_snoc in H1. rewrite <- N. f_equal.  rewrite <- (breaks_at (d_runs (l_doc L)) pre i t [] (length t)) by lia. unfold breaks. f_equal. f_equal.
    rewrite !firstn_all2; [easy| |]; rewrite items_length, ctotal_mid, cpre_nil; lia.
Qed.

(** ** Lookup *)
Lemma blocks_theorem d k : reach d -> blocks d = Ok (d_order d) /\ block_by_number d k = Ok (nth_error (d_order d) k).
Proof.
  intros R. destruct (reach_wf _ R) as [ps W]. destruct (blocks_sorted_wf _ _ W) as (bs & E & M). unfold blocks, block_by_number. rewrite E. cbn [bind].
  rewrite <- (wf_order _ _ W) in M. rewrite M. split; [easy|]. rewrite <- M, nth_error_map. reflexivity.
Qed.
Lemma sorted_places d ps bs : wf d ps -> blocks_sorted d = Ok bs ->
  forall b, In b bs -> exists pre t post, ps = pre ++ (b_id b, t) :: post /\ b_pos b = Z.of_nat (cpre pre).
Proof.
  intros W E b Hb. unfold blocks_sorted in E. rewrite (refreshed_all_wf _ _ W) in E.
  2:{ intros x Hx. eapply Permutation_in; [apply (wf_ids _ _ W)|]. now apply in_map. }
  cbn [bind] in E. injection E as <-. apply (Permutation_in b (sort_perm _)) in Hb. apply in_map_iff in Hb. destruct Hb as (x & <- & Hx). cbn [set_b_pos b_id b_pos].
  assert (Hi : In (b_id x) (map fst ps)) by (eapply Permutation_in; [apply (wf_ids _ _ W)|]; now apply in_map).
  apply in_map_iff in Hi. destruct Hi as ([i t] & Ei & Hi). cbn in Ei. subst i. apply in_split in Hi. destruct Hi as (pre & post & ->). exists pre, t, post. split; [easy|].
  rewrite start_in_mid; [now rewrite Nat.add_0_l|]. pose proof (wf_nodup _ _ W) as ND. apply nodup_mid in ND. tauto.
Qed.
Definition meets (p n start len : nat) : bool :=
  if n =? 0 then (start <=? p) && (p <? start + len) else (start <? p + n) && (p <? start + len).
Lemma range_wf d ps p n : wf d ps -> forall bs, (forall b, In b bs -> exists pre t post, ps = pre ++ (b_id b, t) :: post /\ b_pos b = Z.of_nat (cpre pre)) ->
  exists f, filter_range d p n bs = Ok (filter f (map b_id bs))
   /\ forall pre i t post, ps = pre ++ (i, t) :: post -> f i = meets p n (cpre pre) (length t).
Proof.
  intros W bs H. set (f := fun i => match get_block d i with
    | Some _ => match char_length d i with Ok len => meets p n (start_in ps i 0) (Z.to_nat len) | _ => false end | None => false end).
  assert (F : forall pre i t post, ps = pre ++ (i, t) :: post -> f i = meets p n (cpre pre) (length t)).
  { intros pre i t post E. subst ps. unfold f. destruct (wf_get_mid _ _ _ _ _ W) as [b ->]. rewrite (wf_len_mid _ _ _ _ _ W), Nat2Z.id.
    rewrite start_in_mid; [now rewrite Nat.add_0_l|]. pose proof (wf_nodup _ _ W) as ND. apply nodup_mid in ND. tauto. }
  exists f. split; [|exact F]. induction bs as [|b bs IH]; [easy|]. cbn [filter_range map filter]. destruct (H b (or_introl eq_refl)) as (pre & t & post & E & P).
  unfold in_range. rewrite (F _ _ _ _ E). assert (W2 := W). rewrite E in W2. rewrite (wf_len_mid _ _ _ _ _ W2). cbn [bind]. rewrite IH by (intros x Hx; apply H; now right). cbn [bind].
  rewrite P, !Nat2Z.id. unfold meets. reflexivity.
Qed.
Lemma range_theorem d its p n : reach d -> doc_items d = Ok its ->
  exists f, blocks_in_range d p n = Ok (filter f (d_order d))
   /\ forall k i para, nth_error (d_order d) k = Some i -> nth_error (paragraphs its) k = Some para ->
        (f i = true <-> if n =? 0 then para_start k its <= p < para_start k its + length para
                        else para_start k its < p + n /\ p < para_start k its + length para).
Proof.
  intros R E. destruct (reach_its _ _ R E) as (ps & W & ->). destruct (blocks_sorted_wf _ _ W) as (bs & Eb & M). unfold blocks_in_range. rewrite Eb. cbn [bind].
  destruct (range_wf d ps p n W bs (sorted_places _ _ _ W Eb)) as (f & Ef & F). exists f. rewrite Ef, M, <- (wf_order _ _ W). split; [easy|].
  intros k i para Hi Hp. destruct (nth_para _ _ _ _ W Hi) as (pre & t & post & -> & <-).
  rewrite paragraphs_items in Hp by (now destruct pre). rewrite nth_error_map, nth_error_app2, Nat.sub_diag in Hp by lia. cbn in Hp. injection Hp as <-.
  rewrite (F pre i t post eq_refl), para_start_items. unfold meets. rewrite styled_length. destruct (n =? 0); lia.
Qed.
