(** Copying a selection. *)
From Verif Require Import Base BaseFacts FormatRunsModel FormatRunsSpec FormatRunsFacts
  RopeModel RopeSpec RopeFacts DocModel DocSpec BlockFacts DocInv DocFacts DocAttr DocDelete DocBreak DocReplace
  DocImport DocFormat DocQuery ReplaceFacts DocFresh HistModel DocReach DocHist QueryModel QuerySpec QueryFacts QueryText
  PropSpec DocTheorems SearchModel SearchSpec ReplaceExact QueryTheorems ListModel ListDocModel
  FragmentModel FragmentText FragmentSpec FragmentRuns FragmentGrow FragmentFinish FragmentPaste FragmentInsert FragmentCopySpec.
From Coq Require Import Permutation.

(** ** Pieces of a paragraph *)

Lemma extract_elements_ok es : Forall is_text es -> forall ls le cur, ls <= le ->
  exists out text, extract_elements es ls le cur = (out, text)
   /\ Forall is_text out /\ text = flat_map segment_text out
   /\ flat_map seg_items out = firstn (le - cur - (ls - cur)) (skipn (ls - cur) (flat_map seg_items es)).
Proof.
  induction 1 as [|e es He Hes IH]; intros ls le cur Hle.
  - exists [], []. cbn. now rewrite skipn_nil, firstn_nil.
  - destruct e as [t f|]; [|easy]. cbn [extract_elements segment_text flat_map seg_items].
    set (T := map (fun c => Chr c f) t).
    assert (LT : length T = length t) by apply map_length.
    destruct (Nat.leb_spec (cur + length t) ls) as [H1|H1].
    + destruct (IH ls le (cur + length t) Hle) as (out & text & -> & A & B & C). exists out, text. repeat split; auto.
      rewrite C, skipn_app, (skipn_all2 T) by lia. cbn [app]. rewrite LT. f_equal; [lia|]. f_equal. lia.
    + destruct (Nat.leb_spec le cur) as [H2|H2].
      * exists [], []. repeat split; auto. replace (le - cur - (ls - cur)) with 0 by lia. reflexivity.
      * destruct (IH ls le (cur + length t) Hle) as (out & text & -> & A & B & C).
        set (te := if le <? cur + length t then le - cur else length t).
        set (piece := firstn (te - (ls - cur)) (skipn (ls - cur) t)).
        assert (Ep : map (fun c => Chr c f) piece = firstn (le - cur - (ls - cur)) (skipn (ls - cur) T)).
        { unfold piece, T. rewrite <- firstn_map, <- skipn_map. unfold te. destruct (Nat.ltb_spec le (cur + length t)).
          - reflexivity.
          - rewrite firstn_all2, (firstn_all2 (n := le - cur - (ls - cur))); [easy|..]; rewrite skipn_length, map_length; lia. }
        assert (Ec : firstn (le - cur - (ls - cur)) (skipn (ls - cur) (T ++ flat_map seg_items es))
                     = map (fun c => Chr c f) piece ++ flat_map seg_items out).
        { rewrite Ep, C, skipn_app, LT. replace (ls - cur - length t) with 0 by lia. rewrite firstn_app, skipn_length, LT.
          cbn [skipn]. replace (ls - (cur + length t)) with 0 by lia. cbn [skipn]. f_equal. f_equal. lia. }
        rewrite Ec. destruct piece as [|c0 u0] eqn:Epi.
        -- exists out, text. auto.
        -- rewrite <- Epi in *. exists (SegText piece f :: out), (piece ++ text). repeat split.
           ++ constructor; [exact I|exact A].
           ++ rewrite B. reflexivity.
Qed.

(** ** The blocks of a document with right positions *)

Fixpoint placed (d : doc) (q : nat) (l : list para) (bs : list block) : Prop :=
  match l, bs with
  | [], [] => True
  | (i, t) :: l', b :: bs' => b_id b = i /\ b_pos b = Z.of_nat q /\ get_block d i = Some b /\ placed d (q + length t + 1) l' bs'
  | _, _ => False
  end.

Lemma placed_fresh d ps : wf d ps -> fresh d ps -> placed d 0 ps (get_multi d (map fst ps)).
Proof.
  intros W F. apply (fresh_list _ _ W) in F.
  assert (G : forall l q, (forall i, In i (map fst l) -> In i (map b_id (d_blocks d))) ->
     map (pos_of d) (map fst l) = map Some (pos_from (Z.of_nat q) l) -> placed d q l (get_multi d (map fst l))).
  { induction l as [|[i t] l IH]; intros q Hi E; [exact I|]. cbn [map fst pos_from] in E. injection E as E1 E2.
    cbn [map fst]. unfold get_multi. cbn [flat_map]. unfold pos_of in E1. destruct (get_block d i) as [b|] eqn:Eb; [|discriminate].
    cbn in E1. injection E1 as E1. cbn [app placed]. pose proof (find_block_some _ _ _ Eb) as [Hid _].
    repeat split; auto. apply IH; [intros; apply Hi; now right|]. rewrite E2. do 2 f_equal. lia. }
  apply G; [intros i; now apply wf_has|exact F].
Qed.

Lemma extract_none L last s e l : forall q bs, (forall i t, In (i, t) l -> char_length (l_doc L) i = Ok (Z.of_nat (length t))) ->
  placed (l_doc L) q l bs -> (e <= Z.of_nat q)%Z -> extract_blocks L last s e bs = Ok [].
Proof.
  induction l as [|[i t] l IH]; intros q [|b bs] Hl P He; cbn [placed] in P; try easy.
  destruct P as (E1 & E2 & _ & P). cbn [extract_blocks]. rewrite E1, (Hl i t) by (now left). cbn [bind]. rewrite E2.
  replace (e <=? Z.of_nat q)%Z with true by lia. rewrite orb_true_r. apply (IH _ _) in P; auto; [|lia].
  intros; apply Hl; now right.
Qed.

(** ** The selection *)

Definition drop_last {A} (b : bool) (l : list A) : list A := if b then removelast l else l.

(** What the fragment keeps of paragraph [(i, t)] at [q]. *)
Definition kept (L : ldoc) (last : option id) (s e q : nat) (fb : fblock) (p : para) : Prop :=
  exists b, get_block (l_doc L) (fst p) = Some b /\
  let m := q + length (snd p) in
  let full := (s <=? q) && (m <=? e) && ((m <? e) || match last with Some x => N.eqb (fst p) x | None => false end) in
  fb_fmt fb = (if full then b_fmt b else bfmt_default)
  /\ fb_list fb = (if full then match b_list b with Some l => get_list L l | None => None end else None).

Fixpoint keeps (L : ldoc) (last : option id) (s e q : nat) (fbs : list fblock) (l : list para) : Prop :=
  match fbs, l with
  | [], _ => True
  | fb :: fbs', p :: l' => kept L last s e q fb p /\ keeps L last s e (q + length (snd p) + 1) fbs' l'
  | _, [] => False
  end.

Lemma styled_between t R a c : paragraphs (firstn c (skipn a (styled t R))) = [firstn c (skipn a (styled t R))].
Proof.
  assert (H : forall x, In x (firstn c (skipn a (styled t R))) -> x <> Brk).
  { intros x Hx Hb. subst x. assert (Hs : In Brk (styled t R)).
    { rewrite <- (firstn_skipn a), in_app_iff. right. rewrite <- (firstn_skipn c), in_app_iff. now left. }
    unfold styled in Hs. clear - Hs. revert Hs. generalize 0. induction t as [|ch t IH]; intros o; cbn; [easy|].
    intros [Hs|Hs]; [discriminate|eauto]. }
  induction (firstn c (skipn a (styled t R))) as [|x l IH]; [easy|]. cbn [paragraphs].
  destruct x as [ch f|]; [|exfalso; apply (H Brk); [now left|easy]]. rewrite IH; [easy|]. intros y Hy. apply H. now right.
Qed.

Lemma paragraphs_nobrk l rest : (forall x, In x l -> x <> Brk) -> paragraphs (l ++ Brk :: rest) = l :: paragraphs rest.
Proof.
  induction l as [|x l IH]; intros H; [easy|]. cbn [app paragraphs].
  destruct x as [ch f|]; [|exfalso; apply (H Brk); [now left|easy]]. rewrite IH; [easy|]. intros y Hy. apply H. now right.
Qed.

Lemma styled_nobrk t R x : In x (styled t R) -> x <> Brk.
Proof.
  unfold styled. generalize 0. induction t as [|c t IH]; intros o; cbn; [easy|]. intros [<-|H]; [discriminate|eauto].
Qed.

Lemma styled_filter t R : filter is_break (styled t R) = [].
Proof. unfold styled. generalize 0. induction t as [|c t IH]; intros o; cbn; [easy|apply IH]. Qed.

Lemma paragraphs_ne its : paragraphs its <> [].
Proof. destruct its as [|[c f|] its]; cbn; try easy. now destruct (paragraphs its). Qed.

Lemma removelast_cons {A} (x : A) l : l <> [] -> removelast (x :: l) = x :: removelast l.
Proof. now destruct l. Qed.

Lemma ends_false_styled t R m : ends_with_break m (styled t R) = false.
Proof.
  unfold ends_with_break. destruct (nth_error (styled t R) (m - 1)) as [[c f|]|] eqn:E; try easy.
  apply nth_error_In, styled_nobrk in E. easy.
Qed.

Lemma extract_blocks_ok L last l : forall q bs s e,
  (forall i t, In (i, t) l -> char_length (l_doc L) i = Ok (Z.of_nat (length t))
     /\ exists ss, block_segments (l_doc L) i = Ok ss /\ Forall is_text ss
                   /\ flat_map seg_items ss = styled t (d_runs (l_doc L) i)) ->
  placed (l_doc L) q l bs -> l <> [] -> s < e -> q < e -> s <= q + ctotal l ->
  exists fbs, extract_blocks L last (Z.of_nat s) (Z.of_nat e) bs = Ok fbs
   /\ Forall text_only fbs
   /\ map fb_items fbs = copied (s - q) (e - q) (items_of (d_runs (l_doc L)) l)
   /\ keeps L last s e (q + cpre (firstn (breaks (s - q) (items_of (d_runs (l_doc L)) l)) l)) fbs
        (skipn (breaks (s - q) (items_of (d_runs (l_doc L)) l)) l).
Proof.
  set (R := d_runs (l_doc L)).
  induction l as [|[i t] l IH]; intros q bs s e Hl P Hne Hse Hq Hs; [easy|]. clear Hne.
  destruct bs as [|b bs]; [easy|]. cbn [placed] in P. destruct P as (E1 & E2 & E3 & P).
  destruct (Hl i t ltac:(now left)) as (Hlen & ss & Hss & Htx & Hit). fold R in Hit.
  assert (Hl' : forall j u, In (j, u) l -> char_length (l_doc L) j = Ok (Z.of_nat (length u))) by (intros j u Hj; apply (Hl j u); now right).
  assert (Hl2 : forall j u, In (j, u) l -> char_length (l_doc L) j = Ok (Z.of_nat (length u))
     /\ exists ss, block_segments (l_doc L) j = Ok ss /\ Forall is_text ss
                   /\ flat_map seg_items ss = styled u (d_runs (l_doc L) j)) by (intros j u Hj; apply (Hl j u); now right).
  cbn [extract_blocks]. rewrite E1, Hlen. cbn [bind]. rewrite E2.
  assert (Lt : length (styled t (R i)) = length t) by apply styled_length.
  destruct (Z.ltb_spec (Z.of_nat q + Z.of_nat (length t)) (Z.of_nat s)) as [H1|H1].
  - (* before the selection *)
    cbn [orb]. destruct l as [|[j u] l]; [rewrite ctotal_cons, cpre_nil in Hs; lia|].
    destruct (IH (q + length t + 1) bs s e Hl2 P ltac:(easy) Hse ltac:(lia) ltac:(rewrite ctotal_cons, cpre_cons in Hs; rewrite ctotal_cons; lia))
      as (fbs & -> & A & B & C).
    exists fbs. split; [easy|]. split; [exact A|].
    change (items_of R ((i, t) :: (j, u) :: l)) with (styled t (R i) ++ Brk :: items_of R ((j, u) :: l)).
    set (rest := items_of R ((j, u) :: l)) in *.
    assert (Esk : skipn (s - q) (styled t (R i) ++ Brk :: rest) = skipn (s - (q + length t + 1)) rest).
    { rewrite skipn_app, (skipn_all2 (styled _ _)) by lia. cbn [app]. rewrite Lt.
      replace (s - q - length t) with (S (s - (q + length t + 1))) by lia. reflexivity. }
    assert (Ebr : breaks (s - q) (styled t (R i) ++ Brk :: rest) = S (breaks (s - (q + length t + 1)) rest)).
    { unfold breaks. rewrite firstn_app, (firstn_all2 (styled _ _)) by lia. rewrite Lt.
      replace (s - q - length t) with (S (s - (q + length t + 1))) by lia. cbn [firstn]. rewrite filter_app, app_length.
      rewrite styled_filter. reflexivity. }
    split.
    + rewrite B. unfold copied, between. rewrite Esk.
      replace (e - (q + length t + 1) - (s - (q + length t + 1))) with (e - q - (s - q)) by lia.
      replace (ends_with_break (e - q) (styled t (R i) ++ Brk :: rest)) with (ends_with_break (e - (q + length t + 1)) rest); [easy|].
      unfold ends_with_break. rewrite nth_error_app2 by lia. rewrite Lt.
      replace (e - q - 1 - length t) with (S (e - (q + length t + 1) - 1)) by lia. reflexivity.
    + rewrite Ebr. cbn [firstn skipn]. rewrite cpre_cons. rewrite !Nat.add_assoc. exact C.
  - cbn [orb]. destruct (Z.leb_spec (Z.of_nat e) (Z.of_nat q)) as [H2|_]; [lia|]. rewrite Hss. cbn [bind].
    replace (if (Z.of_nat q <? Z.of_nat s)%Z then Z.to_nat (Z.of_nat s - Z.of_nat q) else 0) with (s - q) by (destruct (Z.ltb_spec (Z.of_nat q) (Z.of_nat s)); lia).
    set (le := if (Z.of_nat e <? Z.of_nat q + Z.of_nat (length t))%Z then Z.to_nat (Z.of_nat e - Z.of_nat q) else Z.to_nat (Z.of_nat (length t))).
    assert (Hle : le = Nat.min (e - q) (length t)) by (unfold le; destruct (Z.ltb_spec (Z.of_nat e) (Z.of_nat q + Z.of_nat (length t))); lia).
    clearbody le.
    destruct (extract_elements_ok ss Htx (s - q) le 0 ltac:(lia)) as (out & text & -> & A1 & A2 & A3).
    rewrite Hit in A3. rewrite !Nat.sub_0_r in A3.
    assert (Ebr : forall rest, breaks (s - q) (styled t (R i) ++ rest) = 0).
    { intros rest. unfold breaks. rewrite firstn_app, Lt. replace (s - q - length t) with 0 by lia. cbn [firstn]. rewrite app_nil_r.
      destruct (filter is_break (firstn (s - q) (styled t (R i)))) as [|x f] eqn:Ef; [easy|].
      assert (Hx : In x (filter is_break (firstn (s - q) (styled t (R i))))) by (rewrite Ef; now left).
      apply filter_In in Hx. destruct Hx as [Hx Hb]. assert (x <> Brk); [|now destruct x].
      apply (styled_nobrk t (R i)). rewrite <- (firstn_skipn (s - q)), in_app_iff. now left. }
    set (full := (s - q =? 0) && _ && _).
    assert (Efull : full = ((s <=? q) && (q + length t <=? e)
        && ((q + length t <? e) || match last with Some x => N.eqb i x | None => false end))).
    { unfold full. rewrite Hle, Nat2Z.id.
      replace (s - q =? 0) with (s <=? q) by (destruct (Nat.leb_spec s q), (Nat.eqb_spec (s - q) 0); lia).
      replace (Nat.min (e - q) (length t) =? length t) with (q + length t <=? e)
        by (destruct (Nat.leb_spec (q + length t) e), (Nat.eqb_spec (Nat.min (e - q) (length t)) (length t)); lia).
      replace (Z.of_nat q + Z.of_nat (length t) <? Z.of_nat e)%Z with (q + length t <? e)
        by (destruct (Nat.ltb_spec (q + length t) e), (Z.ltb_spec (Z.of_nat q + Z.of_nat (length t)) (Z.of_nat e)); lia).
      reflexivity. }
    clearbody full.
    set (fb := mk_fblock text out (if full then b_fmt b else bfmt_default)
       (if full then match b_list b with Some l => get_list L l | None => None end else None)).
    assert (Tfb : text_only fb) by (split; [exact A1|exact A2]).
    assert (Ifb : fb_items fb = firstn (le - (s - q)) (skipn (s - q) (styled t (R i)))) by exact A3.
    assert (Kfb : kept L last s e q fb (i, t)).
    { exists b. cbn [fst snd fb fb_fmt fb_list]. split; [exact E3|]. rewrite Efull. split; reflexivity. }
    destruct l as [|[j u] l].
    + (* the last paragraph *)
      destruct bs as [|b2 bs]; [|easy]. cbn [extract_blocks bind]. exists [fb]. split; [easy|]. split; [now constructor|].
      cbn [items_of]. fold R. rewrite <- (app_nil_r (styled t (R i))) at 2 3. rewrite Ebr. cbn [firstn skipn]. rewrite cpre_nil, Nat.add_0_r. split.
      * cbn [map]. rewrite Ifb. unfold copied, between. rewrite ends_false_styled, styled_between. f_equal.
        rewrite Hle. destruct (Nat.le_ge_cases (e - q) (length t)).
        -- f_equal. lia.
        -- rewrite !firstn_all2; [easy|..]; rewrite skipn_length, Lt; lia.
      * cbn [keeps]. auto.
    + change (items_of R ((i, t) :: (j, u) :: l)) with (styled t (R i) ++ Brk :: items_of R ((j, u) :: l)).
      set (rest := items_of R ((j, u) :: l)) in *. rewrite Ebr. cbn [firstn skipn]. rewrite cpre_nil, Nat.add_0_r.
      assert (Nb : forall x, In x (skipn (s - q) (styled t (R i))) -> x <> Brk).
      { intros x Hx. apply (styled_nobrk t (R i)). rewrite <- (firstn_skipn (s - q)), in_app_iff. now right. }
      destruct (Nat.le_gt_cases e (q + length t + 1)) as [He|He].
      * rewrite (extract_none L last (Z.of_nat s) (Z.of_nat e) _ _ _ Hl' P) by lia. cbn [bind]. exists [fb].
        split; [easy|]. split; [now constructor|]. split; [|cbn [keeps]; auto].
        cbn [map]. rewrite Ifb. unfold copied, between. rewrite skipn_app, Lt. replace (s - q - length t) with 0 by lia. cbn [skipn].
        rewrite firstn_app, skipn_length, Lt.
        destruct (Nat.eq_dec e (q + length t + 1)) as [Ee|Ee].
        -- assert (Ends : ends_with_break (e - q) (styled t (R i) ++ Brk :: rest) = true).
           { unfold ends_with_break. rewrite nth_error_app2 by lia. rewrite Lt. replace (e - q - 1 - length t) with 0 by lia. reflexivity. }
           rewrite Ends. replace (e - q - (s - q) - (length t - (s - q))) with 1 by lia. cbn [firstn].
           rewrite paragraphs_nobrk; [cbn [removelast]|].
           ++ f_equal. rewrite !firstn_all2; [easy|..]; rewrite skipn_length, Lt; lia.
           ++ intros x Hx. apply Nb. rewrite <- (firstn_skipn (e - q - (s - q))), in_app_iff. now left.
        -- assert (Ends : ends_with_break (e - q) (styled t (R i) ++ Brk :: rest) = false).
           { unfold ends_with_break. rewrite nth_error_app1 by lia. apply (ends_false_styled t (R i) (e - q)). }
           rewrite Ends. replace (e - q - (s - q) - (length t - (s - q))) with 0 by lia. cbn [firstn]. rewrite app_nil_r, styled_between.
           f_equal. f_equal. lia.
      * destruct (IH (q + length t + 1) bs s e Hl2 P ltac:(easy) Hse ltac:(lia) ltac:(lia)) as (fbs & -> & A & B & C).
        cbn [bind]. exists (fb :: fbs). split; [easy|]. split; [now constructor|].
        replace (s - (q + length t + 1)) with 0 in B, C by lia.
        split.
        -- cbn [map]. rewrite Ifb, B. unfold copied, between. rewrite skipn_app, Lt. replace (s - q - length t) with 0 by lia. cbn [skipn].
           rewrite firstn_app, skipn_length, Lt.
           replace (e - q - (s - q) - (length t - (s - q))) with (S (e - (q + length t + 1))) by lia. cbn [firstn].
           rewrite paragraphs_nobrk by (intros x Hx; apply Nb; rewrite <- (firstn_skipn (e - q - (s - q))), in_app_iff; now left).
           replace (ends_with_break (e - q) (styled t (R i) ++ Brk :: rest)) with (ends_with_break (e - (q + length t + 1)) rest).
           ++ rewrite Nat.sub_0_r.
              assert (Ef : firstn (le - (s - q)) (skipn (s - q) (styled t (R i))) = firstn (e - q - (s - q)) (skipn (s - q) (styled t (R i)))).
              { rewrite !firstn_all2; [easy|..]; rewrite skipn_length, Lt; lia. }
              rewrite Ef. destruct (ends_with_break _ _); [|easy]. now rewrite removelast_cons by apply paragraphs_ne.
           ++ unfold ends_with_break. rewrite nth_error_app2 by lia. rewrite Lt.
              replace (e - q - 1 - length t) with (S (e - (q + length t + 1) - 1)) by lia. reflexivity.
        -- cbn [keeps snd]. split; [exact Kfb|]. unfold breaks in C. cbn [firstn filter length skipn] in C. rewrite cpre_nil, Nat.add_0_r in C. exact C.
Qed.
