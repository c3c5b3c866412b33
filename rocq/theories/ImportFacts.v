(** Documents built from parsed content. *)
From Verif Require Import Base BaseFacts FormatRunsModel FormatRunsSpec FormatRunsFacts
  RopeModel RopeSpec RopeFacts DocModel ListModel ListSpec ListFacts ListDocModel ImportModel DocSpec ImportSpec BlockFacts DocInv DocFacts DocAttr DocImport.
From Coq Require Import Permutation.

(** ** Runs of the spans *)

Lemma fmt_eqb_true a b : cfmt_eqb a b = true <-> a = b.
Proof. unfold cfmt_eqb. destruct (cfmt_eq_dec a b); split; congruence. Qed.

Lemma span_runs_ok code ss : forall o,
  ordered o (span_runs o ss code)
   /\ edges (fun k => exists j, on_char_edge (span_text ss) j /\ k = o + j) (span_runs o ss code)
   /\ styled_from o (span_text ss) (span_runs o ss code) = flat_map (span_items code) ss.
Proof.
  induction ss as [|s ss IH]; intros o.
  - repeat split; constructor.
  - cbn [span_runs span_text flat_map]. destruct (IH (o + blen (sp_text s))) as (O & E & S).
    fold (span_text ss). set (T := span_text ss) in *. set (t := sp_text s) in *. set (rs := span_runs _ ss code) in *.
    assert (E' : edges (fun k => exists j, on_char_edge (t ++ T) j /\ k = o + j) rs).
    { eapply edges_impl; [|exact E]. intros k (j & Hj & ->). exists (blen t + j). split; [|lia].
      apply edge_app. right. now exists j. }
    assert (Ow : ordered o rs) by (eapply ordered_weaken; [|exact O]; lia).
    destruct (o =? o + blen t) eqn:Z0; cbn [orb].
    + apply Nat.eqb_eq in Z0. assert (Et : t = []) by (apply blen_nil_inv; lia). rewrite Et in *. cbn [blen app map] in *.
      rewrite Nat.add_0_r in *. unfold span_items at 1. fold t. rewrite Et. cbn [map app]. repeat split; try easy.
    + apply Nat.eqb_neq in Z0. destruct (cfmt_eqb (span_fmt s code) cfmt_default) eqn:Fd.
      * apply fmt_eqb_true in Fd. split; [easy|]. split; [easy|]. rewrite styled_app. f_equal; [|exact S].
        unfold span_items. rewrite Fd. fold t. apply styled_const. intros k Hk. unfold eff_at.
        rewrite (fmt_at_below (o + blen t)); [easy|exact O|lia].
      * split; [|split].
        -- cbn [ordered rstart rend]. repeat split; try lia. exact O.
        -- constructor; [|exact E']. cbn [rstart rend]. split.
           ++ exists 0. split; [apply edge_0|lia].
           ++ exists (blen t). split; [|easy]. apply edge_app. left. apply edge_blen.
        -- rewrite styled_app. f_equal.
           ++ unfold span_items. fold t. apply styled_const. intros k Hk. unfold eff_at. cbn [fmt_at rfmt].
              rewrite (proj2 (covers_true _ _)); [easy|cbn [rstart rend]; lia].
           ++ rewrite <- S. apply styled_ext. intros k Hk. apply eff_of_fmt. cbn [fmt_at].
              rewrite (proj2 (covers_false _ _)); [easy|cbn [rstart rend]; lia].
Qed.

Lemma runs_from_spans_ok code ss :
  wf_runs (span_text ss) (snd (runs_from_spans ss code))
  /\ styled (span_text ss) (snd (runs_from_spans ss code)) = flat_map (span_items code) ss.
Proof.
  destruct (span_runs_ok code ss 0) as (O & E & S). cbn [snd runs_from_spans]. split; [split; [|split]|].
  - now apply coalesce_ordered.
  - apply coalesce_maximal.
  - apply coalesce_edges. eapply edges_impl; [|exact E]. intros k (j & Hj & ->). exact Hj.
  - rewrite <- S. apply styled_ext. intros k _. apply eff_of_fmt. now apply (coalesce_fmt 0).
Qed.

(** ** The blocks made *)

Fixpoint made (html : bool) (n : id) (pos : Z) (bs : list pblock) (ls : list (option id)) : list block :=
  match bs, ls with
  | b :: bs', l :: ls' =>
      mk_block n pos l (pblock_fmt html b)
      :: made html (N.succ n) (pos + Z.of_nat (length (span_text (pb_spans b))) + 1)%Z bs' ls'
  | _, _ => []
  end.
Definition texts (bs : list pblock) : list str := map (fun b => span_text (pb_spans b)) bs.

Lemma set_list_last bs n pos l f : (forall b, In b (map b_id bs) -> (b < n)%N) ->
  map (fun b => if N.eqb (b_id b) n then set_b_list b l else b) (bs ++ [mk_block n pos None f])
  = bs ++ [mk_block n pos l f].
Proof.
  intros H. rewrite map_app. cbn [map b_id]. rewrite N.eqb_refl. f_equal. cbn.
  rewrite <- (map_id bs) at 2. apply map_ext_in. intros b Hb. destruct (N.eqb_spec (b_id b) n) as [E|E]; [|easy].
  specialize (H _ (in_map b_id _ _ Hb)). lia.
Qed.

Lemma join_list_ok L g i b nb pos f : let '(g', o) := match piece_of b with
     | Other => ([], None)
     | Item st n => match try_reuse g st n with
                    | (g', Some l) => (g', Some l)
                    | (g', None) => (register g' (l_next L) st n, Some (l_next L)) end end in
  (forall x, In x (map b_id nb) -> (x < i)%N) -> d_blocks (l_doc L) = nb ++ [mk_block i pos None f] ->
  exists L', join_list L g i b = (L', g') /\ d_blocks (l_doc L') = nb ++ [mk_block i pos o f]
   /\ d_rs (l_doc L') = d_rs (l_doc L) /\ d_runs (l_doc L') = d_runs (l_doc L) /\ d_images (l_doc L') = d_images (l_doc L)
   /\ d_fblocks (l_doc L') = d_fblocks (l_doc L) /\ d_order (l_doc L') = d_order (l_doc L)
   /\ d_chars (l_doc L') = d_chars (l_doc L) /\ d_nblocks (l_doc L') = d_nblocks (l_doc L) /\ d_next (l_doc L') = d_next (l_doc L)
   /\ (forall ps', group_go g (l_next L) (piece_of b :: ps') = o :: group_go g' (l_next L') ps')
   /\ l_lists L' = l_lists L ++ (if N.eqb (l_next L) (l_next L') then [] else [(l_next L, match pb_list b with Some st => mk_list st (Z.of_nat (pb_indent b)) [] [] | None => mk_list Disc 0 [] [] end)])
   /\ (l_next L' = l_next L \/ o = Some (l_next L) /\ l_next L' = N.succ (l_next L)).
Proof.
  unfold piece_of, join_list. destruct (pb_list b) as [st|].
  - destruct (try_reuse g st (pb_indent b)) as [g' [l|]] eqn:T; intros Hn E.
    + eexists. split; [reflexivity|]. cbn [l_doc l_lists l_next].
      cbn [set_block_list set_blocks d_blocks d_rs d_runs d_images d_fblocks d_order d_chars d_nblocks d_next].
      rewrite N.eqb_refl, app_nil_r, E, set_list_last by easy. cbn [group_go]. rewrite T. repeat split. now left.
    + eexists. unfold new_list. split; [reflexivity|]. cbn [l_doc l_lists l_next].
      cbn [set_block_list set_blocks d_blocks d_rs d_runs d_images d_fblocks d_order d_chars d_nblocks d_next].
      rewrite E, set_list_last by easy. cbn [group_go]. rewrite T.
      destruct (N.eqb_spec (l_next L) (N.succ (l_next L))) as [H|_]; [lia|]. repeat split. now right.
  - intros Hn E. eexists. split; [reflexivity|]. cbn [l_doc l_lists l_next]. rewrite N.eqb_refl, app_nil_r. repeat split; try easy. now left.
Qed.

Lemma import_blocks_full html bs : forall L g first pos l,
  rep (d_rs (l_doc L)) l -> (first = true <-> l = []) ->
  (forall b, In (MBlock b) (map fst l) -> (b < d_next (l_doc L))%N) ->
  (forall b, In b (map b_id (d_blocks (l_doc L))) -> (b < d_next (l_doc L))%N) ->
  let is_ := ids_from (d_next (l_doc L)) (length bs) in
  exists L', import_blocks html L g first pos bs = (L', is_)
   /\ rep (d_rs (l_doc L')) (l ++ segs (combine is_ (texts bs)))
   /\ d_blocks (l_doc L') = d_blocks (l_doc L) ++ made html (d_next (l_doc L)) pos bs (group_go g (l_next L) (map piece_of bs))
   /\ (forall i, ~ In i is_ -> d_runs (l_doc L') i = d_runs (l_doc L) i)
   /\ Forall2 (fun i b => d_runs (l_doc L') i = snd (runs_from_spans (pb_spans b) (pb_code b))) is_ bs
   /\ d_images (l_doc L') = d_images (l_doc L) /\ d_fblocks (l_doc L') = d_fblocks (l_doc L) ++ is_
   /\ d_order (l_doc L') = d_order (l_doc L) /\ d_chars (l_doc L') = d_chars (l_doc L)
   /\ d_nblocks (l_doc L') = d_nblocks (l_doc L) /\ d_next (l_doc L') = (d_next (l_doc L) + N.of_nat (length bs))%N.
Proof.
  induction bs as [|b bs IH]; intros L g first pos l R Hf Hb Hd is_.
  - exists L. cbn [import_blocks made length ids_from combine texts map] in *. unfold is_. cbn [ids_from length combine segs map].
    rewrite !app_nil_r, N.add_0_r. split; [reflexivity|]. split; [exact R|]. split; [easy|]. split; [easy|]. split; [constructor|]. now repeat split.
  - cbn [import_blocks create_block]. cbn [runs_from_spans].
    set (x := span_text (pb_spans b)). set (rn := coalesce _).
    match goal with |- context [join_list (mk_ldoc ?d _ _)] => set (d2 := d) end.
    assert (R2 : rep (d_rs d2) (l ++ [(MBlock (d_next (l_doc L)), x)])).
    { cbn [d2 d_rs set_rs set_runs]. replace (if first then d_rs (l_doc L) else rope_insert_block_boundary (d_rs (l_doc L))) with (bounded (d_rs (l_doc L)) l).
      - apply rep_append; [exact R|]. intros H. apply Hb in H. lia.
      - destruct l; cbn [bounded].
        + destruct first; [easy|]. destruct Hf as [_ Hf]. now specialize (Hf eq_refl).
        + destruct first; [|easy]. destruct Hf as [Hf _]. now specialize (Hf eq_refl). }
    pose proof (join_list_ok (mk_ldoc d2 (l_lists L) (l_next L)) g (d_next (l_doc L)) b (d_blocks (l_doc L)) pos (pblock_fmt html b)) as J.
    cbn [l_next l_lists l_doc] in J.
    destruct (match piece_of b with Other => _ | Item st n => _ end) as [g' o].
    destruct J as (L3 & EJ & J1 & J2 & J3 & J4 & J5 & J6 & J7 & J8 & J9 & J10 & _); [exact Hd|reflexivity|].
    rewrite EJ.
    set (q := (pos + Z.of_nat (length x) + _)%Z).
    destruct (IH L3 g' false q (l ++ [(MBlock (d_next (l_doc L)), x)])) as (L' & E & K1 & K2 & K3 & K4 & K5 & K6 & K7 & K8 & K9 & K10).
    + now rewrite J2.
    + split; [easy|]. now destruct l.
    + rewrite J9. intros b0. rewrite map_app, in_app_iff. cbn [map In fst d2 d_next set_rs set_runs]. intros [H|[[= <-]|[]]]; [apply Hb in H|]; lia.
    + rewrite J9, J1. intros b0. rewrite map_app, in_app_iff. cbn [map In b_id d2 d_next set_rs set_runs]. intros [H|[<-|[]]]; [apply Hd in H|]; lia.
    + rewrite E. exists L'. rewrite J9 in *. cbn [d2 d_next set_rs set_runs] in *.
      set (is1 := ids_from (N.succ (d_next (l_doc L))) (length bs)) in *.
      split; [reflexivity|]. change is_ with (d_next (l_doc L) :: is1).
      split; [|split; [|split; [|split; [|split; [|split; [|split; [|split; [|split]]]]]]]].
      * rewrite <- app_assoc in K1. exact K1.
      * rewrite K2, J1. cbn [map]. rewrite J10. cbn [made]. fold x. rewrite <- app_assoc. cbn [app]. do 2 f_equal.
        unfold q. now destruct bs.
      * intros i Hi. rewrite K3 by (intros H; apply Hi; now right). rewrite J3. cbn [d2 set_runs d_runs]. unfold upd.
        destruct (N.eqb_spec i (d_next (l_doc L))) as [->|_]; [|easy]. exfalso. apply Hi. now left.
      * constructor; [|exact K4]. rewrite K3.
        -- rewrite J3. cbn [d2 set_runs d_runs]. unfold upd. now rewrite N.eqb_refl.
        -- intros H. apply ids_from_in in H. lia.
      * now rewrite K5, J4.
      * rewrite K6, J5. cbn [d2 d_fblocks set_rs set_runs]. now rewrite <- app_assoc.
      * now rewrite K7, J6.
      * now rewrite K8, J7.
      * now rewrite K9, J8.
      * rewrite K10. cbn [length]. lia.
Qed.

(** ** The document built *)

Lemma nth_error_ext {A} (l m : list A) : (forall k, nth_error l k = nth_error m k) -> l = m.
Proof.
  revert m; induction l as [|x l IH]; intros [|y m] H; [easy|specialize (H 0); easy|specialize (H 0); easy|].
  f_equal; [now injection (H 0)|]. apply IH. intros k. exact (H (S k)).
Qed.
Lemma nth_error_combine {A B} (l : list A) : forall (m : list B) k x y,
  nth_error l k = Some x -> nth_error m k = Some y -> nth_error (combine l m) k = Some (x, y).
Proof. induction l as [|a l IH]; intros [|b m] [|k] x y; cbn; try easy; [congruence|apply IH]. Qed.

Lemma made_ids html bs : forall n pos ls, length ls = length bs -> map b_id (made html n pos bs ls) = ids_from n (length bs).
Proof. induction bs as [|b bs IH]; intros n pos [|l ls] H; try easy. cbn [made map b_id length ids_from]. f_equal. apply IH. now injection H. Qed.

Lemma made_nth html bs : forall n pos ls k x, length ls = length bs ->
  nth_error (made html n pos bs ls) k = Some x ->
  b_pos x = (pos + Z.of_nat (cpre (firstn k (combine (ids_from n (length bs)) (texts bs)))))%Z
  /\ exists b l, nth_error bs k = Some b /\ nth_error ls k = Some l /\ b_list x = l /\ b_fmt x = pblock_fmt html b.
Proof.
  induction bs as [|b bs IH]; intros n pos [|l ls] [|k] x H; cbn [made nth_error]; try easy.
  - intros [= <-]. cbn [b_pos b_list b_fmt]. rewrite firstn_O, cpre_nil. split; [lia|]. exists b, l. easy.
  - intros E. injection H as H. apply IH in E; [|easy]. destruct E as (-> & E). cbn [length ids_from texts map combine firstn].
    rewrite cpre_cons. split; [|exact E]. unfold texts. lia.
Qed.

Lemma items_made R (is_ : list id) bs : Forall2 (fun i b => R i = snd (runs_from_spans (pb_spans b) (pb_code b))) is_ bs ->
  items_of R (combine is_ (texts bs)) = items_of_blocks bs.
Proof.
  intros F. induction F as [|i b is_ bs H F IH]; [easy|]. cbn [texts map combine items_of items_of_blocks].
  fold (texts bs). destruct F as [|j c is_ bs Hc F]; cbn [texts map combine].
  - rewrite H. apply runs_from_spans_ok.
  - cbn [texts map combine] in IH. rewrite IH, H. f_equal. apply runs_from_spans_ok.
Qed.

Lemma import_parsed_full html L ps0 bs :
  wf (l_doc L) ps0 -> bs <> [] ->
  let is_ := ids_from (d_next (l_doc L)) (length bs) in
  let ps := combine is_ (texts bs) in
  let d' := l_doc (import_parsed html L bs) in
  wf d' ps /\ fresh d' ps /\ items_of (d_runs d') ps = items_of_blocks bs
  /\ para_attrs d' = map (fun x => Some (fst x, pblock_fmt html (snd x))) (combine (group_lists (l_next L) (map piece_of bs)) bs)
  /\ d_chars d' = sum_lengths (texts bs) /\ d_nblocks d' = Z.of_nat (length bs)
  /\ d_next d' = (d_next (l_doc L) + N.of_nat (length bs))%N.
Proof.
  intros W Hne is_ ps d'. unfold d', import_parsed.
  destruct (clear_wf _ _ W) as (C1 & C2 & C3 & C4 & C5). set (d0 := clear_document (l_doc L)) in *.
  assert (C6 : d_fblocks d0 = []) by reflexivity.
  set (L0 := mk_ldoc d0 (l_lists L) (l_next L)).
  destruct (import_blocks_full html bs L0 [] true 0%Z []) as (L1 & E & K1 & K2 & K3 & K4 & K5 & K6 & K7 & K8 & K9 & K10).
  - cbn [L0 l_doc]. rewrite C1. apply rep_reset.
  - easy.
  - easy.
  - cbn [L0 l_doc]. now rewrite C2.
  - rewrite E. cbn [L0 l_doc l_next] in *. rewrite C2, C5, C6 in *. cbn [app] in *. clear E.
    set (ls := group_go [] (l_next L) (map piece_of bs)) in *. fold is_ in K1, K3, K4, K6 |- *. fold ps in K1.
    assert (Ll : length ls = length bs) by (unfold ls; now rewrite group_go_length, map_length).
    assert (Hlen : length is_ = length (texts bs)) by (unfold is_, texts; now rewrite ids_from_length, map_length).
    assert (Hfst : map fst ps = is_) by now apply combine_fst.
    assert (ND : NoDup (map b_id (made html (d_next (l_doc L)) 0 bs ls))) by (rewrite made_ids by easy; apply ids_from_nodup).
    match goal with |- wf ?x _ /\ _ => set (dd := x) end.
    assert (Wd : wf dd ps).
    { constructor; unfold dd; cbn [d_rs d_blocks d_runs d_images d_fblocks d_order d_next set_nblocks set_chars set_order l_doc].
      - unfold ps. destruct bs as [|b bs']; [easy|]. discriminate.
      - exact K1.
      - easy.
      - rewrite K6. now rewrite Hfst.
      - rewrite K2, Hfst, made_ids by easy. apply Permutation_refl.
      - intros b t Hb. unfold ps in Hb. clear - K4 Hb. revert Hb. generalize is_ K4. clear. intros is_ K4.
        induction K4 as [|i x is_ bs Hx F IH]; [easy|]. cbn [texts map combine In]. intros [[= <- <-]|H]; [|now apply IH].
        rewrite Hx. apply runs_from_spans_ok.
      - intros b Hb. rewrite Hfst in Hb. rewrite K3 by easy. apply C3.
      - intros b. rewrite K5. apply C4.
      - intros b Hb. rewrite Hfst in Hb. apply ids_from_in in Hb. rewrite K10. lia. }
    assert (Hnth : forall pre b t post, ps = pre ++ (b, t) :: post ->
       exists x, nth_error (made html (d_next (l_doc L)) 0 bs ls) (length pre) = Some x /\ b_id x = b).
    { intros pre b t post E.
      assert (Hb : nth_error (map b_id (made html (d_next (l_doc L)) 0 bs ls)) (length pre) = Some b).
      { rewrite made_ids by easy. fold is_. rewrite <- Hfst, E, map_app, nth_error_app2; rewrite map_length; [|lia].
        now rewrite Nat.sub_diag. }
      rewrite nth_error_map in Hb. destruct (nth_error (made _ _ _ _ _) (length pre)) as [x|]; [|easy].
      injection Hb as Hb. now exists x. }
    assert (Hget : forall pre b t post, ps = pre ++ (b, t) :: post -> exists x, get_block dd b = Some x /\ nth_error (made html (d_next (l_doc L)) 0 bs ls) (length pre) = Some x).
    { intros pre b t post E. destruct (Hnth _ _ _ _ E) as (y & Hy & Hyb). exists y. split; [|easy].
      unfold get_block, dd. cbn [d_blocks set_nblocks set_chars set_order l_doc].
      rewrite K2. cbn [app]. now rewrite <- Hyb, (find_nth _ _ _ Hy ND). }
    split; [exact Wd|]. split; [|split; [|split; [|repeat split]]].
    + intros pre b t post E x Hx. destruct (Hget _ _ _ _ E) as (y & Hy & Hn). rewrite Hy in Hx. injection Hx as ->.
      apply made_nth in Hn; [|easy]. destruct Hn as (-> & _). fold is_. fold ps. rewrite E.
      rewrite firstn_exact by easy. lia.
    + unfold dd. cbn [d_runs set_nblocks set_chars set_order l_doc]. now apply items_made.
    + unfold para_attrs. change (d_order dd) with is_. apply nth_error_ext. intros k.
      rewrite !nth_error_map. destruct (nth_error is_ k) as [i|] eqn:Ei.
      * rewrite <- Hfst, nth_error_map in Ei. destruct (nth_error ps k) as [[b t]|] eqn:Ep; [|easy]. injection Ei as <-.
        apply nth_error_split in Ep. destruct Ep as (pre & post & E & Lk). destruct (Hget _ _ _ _ E) as (y & Hy & Hn).
        rewrite Lk in Hn. apply made_nth in Hn; [|easy]. destruct Hn as (_ & x & l & H1 & H2 & H3 & H4).
        cbn [option_map fst]. unfold attr. rewrite Hy. cbn [option_map]. rewrite H3, H4.
        replace (nth_error (combine (group_lists (l_next L) (map piece_of bs)) bs) k) with (Some (l, x)); [easy|].
        symmetry. now apply nth_error_combine.
      * cbn [option_map]. assert (Hk : length is_ <= k) by now apply nth_error_None.
        assert (En : nth_error (combine (group_lists (l_next L) (map piece_of bs)) bs) k = None).
        { apply nth_error_None. rewrite combine_length. unfold is_ in Hk. rewrite ids_from_length in Hk. lia. }
        now rewrite En.
    + unfold dd. cbn. rewrite K10. reflexivity.
Qed.

(** ** The lists made *)

Definition lists_fresh (L : ldoc) : Prop := forall l, (l_next L <= l)%N -> get_list L l = None.
Definition levels_ok (g : grouper) (L : ldoc) : Prop :=
  forall n i st, level g n = Some (i, st) -> get_list L i = Some (mk_list st (Z.of_nat n) [] []).
Definition in_list_of (L : ldoc) (b : pblock) (o : option id) : Prop :=
  match pb_list b, o with
  | Some st, Some l => get_list L l = Some (mk_list st (Z.of_nat (pb_indent b)) [] [])
  | None, None => True
  | _, _ => False
  end.

Lemma find_snoc {A} (f : A -> bool) l x : find f (l ++ [x]) = match find f l with Some y => Some y | None => if f x then Some x else None end.
Proof. induction l as [|y l IH]; [easy|]. cbn [app find]. now destruct (f y). Qed.
Lemma get_list_snoc L d k e : lists_fresh L -> k = l_next L ->
  forall l, get_list (mk_ldoc d (l_lists L ++ [(k, e)]) (N.succ k)) l = if N.eqb l k then Some e else get_list L l.
Proof.
  intros F -> l. unfold get_list. cbn [l_lists]. rewrite find_snoc. cbn [fst].
  pose proof (F (l_next L) (N.le_refl _)) as Fn. unfold get_list in Fn.
  destruct (N.eqb_spec l (l_next L)) as [->|Hne].
  - destruct (find (fun x => N.eqb (fst x) (l_next L)) (l_lists L)) eqn:E; [easy|]. now rewrite N.eqb_refl.
  - match goal with |- context [find ?f (l_lists L)] => destruct (find f (l_lists L)); [easy|] end. destruct (N.eqb_spec (l_next L) l); [congruence|easy].
Qed.
Lemma level_reuse g st n g' o : try_reuse g st n = (g', o) ->
  (forall m x, level g' m = Some x -> level g m = Some x) /\ (forall l, o = Some l -> level g' n = Some (l, st)).
Proof.
  unfold try_reuse. intros [= <- <-]. split.
  - intros m x. rewrite level_firstn. now destruct (m <? n + 1).
  - intros l. unfold level. destruct (nth_error (firstn (n + 1) g) n) as [[[i st']|]|]; try easy.
    unfold style_eqb. destruct (style_eq_dec st' st) as [->|]; [|easy]. now intros [= ->].
Qed.

Lemma import_lists html bs : forall L g first pos, levels_ok g L -> lists_fresh L ->
  let L' := fst (import_blocks html L g first pos bs) in
  lists_fresh L' /\ (l_next L <= l_next L')%N /\ (forall l, (l < l_next L)%N -> get_list L' l = get_list L l)
  /\ Forall2 (in_list_of L') bs (group_go g (l_next L) (map piece_of bs)).
Proof.
  induction bs as [|b bs IH]; intros L g first pos Hg Hf.
  - cbn. split; [exact Hf|]. split; [lia|]. split; [easy|constructor].
  - cbn [import_blocks create_block runs_from_spans].
    set (x := span_text (pb_spans b)). set (rn := coalesce _).
    match goal with |- context [join_list (mk_ldoc ?d _ _)] => set (d2 := d) end.
    set (q := (pos + Z.of_nat (length x) + _)%Z).
    assert (J : exists L3 g' o, join_list (mk_ldoc d2 (l_lists L) (l_next L)) g (d_next (l_doc L)) b = (L3, g')
       /\ levels_ok g' L3 /\ lists_fresh L3 /\ (l_next L <= l_next L3)%N
       /\ (forall l, (l < l_next L)%N -> get_list L3 l = get_list L l)
       /\ (forall ps', group_go g (l_next L) (piece_of b :: ps') = o :: group_go g' (l_next L3) ps')
       /\ in_list_of L3 b o /\ (forall l, o = Some l -> (l < l_next L3)%N)).
    { unfold join_list, piece_of, in_list_of. destruct (pb_list b) as [st|].
      - destruct (try_reuse g st (pb_indent b)) as [g' [l|]] eqn:T; destruct (level_reuse _ _ _ _ _ T) as [T1 T2].
        + eexists _, g', (Some l). split; [reflexivity|].
          assert (Gl : get_list L l = Some (mk_list st (Z.of_nat (pb_indent b)) [] [])) by (apply Hg, T1; now apply T2).
          split; [intros n i st' H; apply (Hg n); now apply T1|]. split; [exact Hf|]. split; [cbn; lia|]. split; [easy|].
          split; [intros ps'; cbn [group_go]; now rewrite T|]. split; [exact Gl|].
          intros l0 [= <-]. cbn [l_next]. destruct (N.lt_ge_cases l (l_next L)) as [H|H]; [easy|]. rewrite (Hf _ H) in Gl. easy.
        + eexists _, _, (Some (l_next L)). unfold new_list. split; [reflexivity|]. cbn [l_doc l_lists l_next].
          pose proof (get_list_snoc L (set_block_list d2 (d_next (l_doc L)) (Some (l_next L))) _ (mk_list st (Z.of_nat (pb_indent b)) [] []) Hf eq_refl) as G.
          split; [|split; [|split; [|split; [|split; [|split]]]]].
          * intros n i st' H. rewrite G. unfold register in H. rewrite level_put in H. destruct (Nat.eqb_spec n (pb_indent b)) as [->|Hn].
            -- injection H as <- <-. now rewrite N.eqb_refl.
            -- apply T1 in H. apply Hg in H. destruct (N.eqb_spec i (l_next L)) as [->|_]; [|easy].
               rewrite (Hf (l_next L)) in H by lia. easy.
          * intros l H. cbn [l_next] in H. rewrite G. destruct (N.eqb_spec l (l_next L)); [lia|]. apply Hf. lia.
          * lia.
          * intros l H. rewrite G. destruct (N.eqb_spec l (l_next L)); [lia|easy].
          * intros ps'. cbn [group_go]. now rewrite T.
          * rewrite G. now rewrite N.eqb_refl.
          * intros l [= <-]. lia.
      - eexists _, _, None. split; [reflexivity|]. split; [|repeat split; try easy].
        intros n i st H. unfold level, reset in H. now destruct n. }
    destruct J as (L3 & g' & o & EJ & J1 & J2 & J3 & J4 & J5 & J6 & J7). rewrite EJ.
    specialize (IH L3 g' false q J1 J2). cbn zeta in IH. destruct (import_blocks html L3 g' false q bs) as [L4 is_]. cbn [fst] in *.
    destruct IH as (K1 & K2 & K3 & K4). split; [exact K1|]. split; [lia|]. split.
    + intros l H. rewrite K3 by lia. now apply J4.
    + cbn [map]. rewrite J5. constructor; [|exact K4]. unfold in_list_of in *. destruct (pb_list b), o as [l1|]; try easy.
      rewrite K3; [exact J6|now apply J7].
Qed.

Lemma import_parsed_lists html L bs : lists_fresh L ->
  let L' := import_parsed html L bs in
  lists_fresh L' /\ (l_next L <= l_next L')%N /\ (forall l, (l < l_next L)%N -> get_list L' l = get_list L l)
  /\ Forall2 (in_list_of L') bs (group_lists (l_next L) (map piece_of bs)).
Proof.
  intros F. unfold import_parsed, group_lists.
  pose proof (import_lists html bs (mk_ldoc (clear_document (l_doc L)) (l_lists L) (l_next L)) [] true 0%Z) as H. cbn zeta in H.
  destruct (import_blocks html _ [] true 0%Z bs) as [L1 is_]. cbn [fst] in H. destruct H as (H1 & H2 & H3 & H4).
  - intros n i st H. unfold level in H. now destruct n.
  - exact F.
  - cbn [l_next] in *. split; [exact H1|]. split; [exact H2|]. split; [exact H3|exact H4].
Qed.
