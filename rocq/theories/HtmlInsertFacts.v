(** What one call that inserts HTML paragraphs leaves. *)
From Verif Require Import Base BaseFacts FormatRunsModel FormatRunsSpec FormatRunsFacts
  RopeModel RopeSpec RopeFacts DocModel DocSpec BlockFacts DocInv DocFacts DocAttr DocDelete DocBreak DocReplace
  DocImport DocFormat DocQuery ReplaceFacts DocFresh QueryModel QuerySpec ListModel ListDocModel FragmentModel FragmentText FragmentSpec
  FragmentRuns FragmentGrow FragmentFinish FragmentPaste ImportModel ImportSpec ImportFacts MdInsertModel MdInsertSpec MdInsertRope MdInsertFacts
  HtmlInsertModel HtmlInsertSpec.

Lemma is_nil_true {A} (l : list A) : is_nil l = true <-> l = [].
Proof. destruct l; split; easy. Qed.

(** The text of the first part. *)
Lemma html_head before lr (over : option (pblock * option id)) (first : option pblock) : wf_runs before lr ->
  (over <> None -> before = [] /\ first = None) ->
  let oe := match over with Some (b, _) => Some b | None => first end in
  exists ft hr, match over, first with
    | Some (b, _), _ => let '(t, rs) := payload b in (t, rs, [])
    | None, Some b => let '(t, rs) := payload b in (before ++ t, coalesce (lr ++ map (move_run (blen before)) rs), [])
    | None, None => (before, lr, @nil image)
    end = (before ++ ft, hr, [])
  /\ length ft = opt_length oe /\ wf_runs (before ++ ft) hr /\ styled (before ++ ft) hr = styled before lr ++ opt_items oe.
Proof.
  intros Wb Ho oe. unfold oe. destruct over as [[b l]|].
  - destruct Ho as [-> ->]; [discriminate|]. destruct (payload_ok b) as [Wf Sf]. rewrite payload_is. eexists (fst (payload b)), _. split; [reflexivity|].
    split; [easy|]. split; [exact Wf|]. exact Sf.
  - destruct first as [b|].
    + destruct (payload_ok b) as [Wf Sf]. rewrite payload_is. eexists (fst (payload b)), _. split; [reflexivity|].
      split; [easy|]. split; [now apply cat_runs_wf|]. rewrite cat_runs_styled by easy. cbn [opt_items]. now rewrite Sf.
    + exists [], lr. cbn [opt_items opt_length]. rewrite !app_nil_r. now split.
Qed.
Lemma html_tail after rr (last_ : option pblock) : wf_runs after rr ->
  exists lt tr, match last_ with
    | Some b => let '(t, rs) := payload b in (t ++ after, coalesce (rs ++ map (move_run (blen t)) rr), t)
    | None => (after, rr, []) end = (lt ++ after, tr, lt)
  /\ length lt = opt_length last_ /\ wf_runs (lt ++ after) tr /\ styled (lt ++ after) tr = opt_items last_ ++ styled after rr
  /\ (last_ = None -> lt = []).
Proof.
  intros Wa. destruct last_ as [b|].
  - destruct (payload_ok b) as [Wf Sf]. rewrite payload_is. eexists (fst (payload b)), _. split; [reflexivity|].
    split; [easy|]. split; [now apply cat_runs_wf|]. split; [|discriminate]. rewrite cat_runs_styled by easy. cbn [opt_items]. now rewrite Sf.
  - exists [], rr. split; [reflexivity|]. split; [reflexivity|]. split; [exact Wa|]. split; reflexivity.
Qed.

Definition head_attr (x : block) (over : option (pblock * option id)) : option id * bfmt :=
  match over with Some (b, l) => (l, over_fmt (b_fmt x) b) | None => (b_list x, b_fmt x) end.
Definition tail_attr (x : block) (over : option (pblock * option id)) : option id * bfmt :=
  match over with Some _ => (None, bfmt_default) | None => (b_list x, b_fmt x) end.

Lemma html_head_set d ps b x over hr :
  wf d ps -> In b (map fst ps) -> get_block d b = Some x ->
  let d0 := match over with
            | Some (pb, l) => update_block_full d (mk_block b (b_pos x) l (over_fmt (b_fmt x) pb))
            | None => update_block d x end in
  let d1 := write_block_state d0 b hr [] in
  head_set d d1 b hr /\ pos_of d1 b = Some (b_pos x) /\ attr d1 b = Some (head_attr x over).
Proof.
  intros W Hb Hx. pose proof (find_block_some _ _ _ Hx) as [Hid _]. destruct over as [[pb l]|].
  - exact (head_set_ok d ps b x (mk_block b (b_pos x) l (over_fmt (b_fmt x) pb)) true hr W Hb Hx eq_refl ltac:(discriminate)).
  - exact (head_set_ok d ps b x x false hr W Hb Hx Hid (fun _ => eq_refl)).
Qed.

Lemma html_full d pre b before after post x over first mids last_ may :
  let t := before ++ after in
  let ps := pre ++ (b, t) :: post in
  wf d ps -> fresh d ps -> get_block d b = Some x -> b_pos x = Z.of_nat (cpre pre) ->
  (post = [] \/ 2 <= blen (jpost (segs post))) ->
  (over <> None -> before = [] /\ first = None) ->
  let its := items_of (d_runs d) ps in
  let n := cpre pre + length before in
  let oe := match over with Some (pb, _) => Some pb | None => first end in
  let new := opt_items oe ++ flat_map (cons Brk) (map (fun y => block_items (fst y)) mids) in
  let skip := may && is_nil after && is_none last_ in
  let na := length mids + (if skip then 0 else 1) in
  exists d' ps', html_in d (get_multi d (map fst ps)) x (length pre) t (blen before) over first mids last_ may
     = Ok (d', Z.of_nat (n + length new + 1), skip, Z.of_nat na)
   /\ wf d' ps' /\ fresh d' ps'
   /\ items_of (d_runs d') ps' = firstn n its ++ new ++ (if skip then [] else Brk :: opt_items last_) ++ skipn n its
   /\ d_nblocks d' = (d_nblocks d + Z.of_nat na)%Z
   /\ d_chars d' = (d_chars d + (Z.of_nat (opt_length oe + text_length (map fst mids) + opt_length last_)
        - match oe with Some _ => Z.of_nat (length after) | None => 0 end))%Z
   /\ para_attrs d' = firstn (length pre) (para_attrs d)
        ++ map Some (head_attr x over :: map (fun y => (snd y, html_fmt (fst y))) mids ++ (if skip then [] else [tail_attr x over]))
        ++ skipn (S (length pre)) (para_attrs d).
Proof.
  intros t ps W F Hx Px Hpost Ho its n oe new skip na.
  assert (Hi : length before <= length t) by (unfold t; rewrite app_length; lia).
  assert (Ef : firstn (length before) t = before) by (unfold t; rewrite firstn_app, firstn_all, Nat.sub_diag, app_nil_r; easy).
  assert (Es : skipn (length before) t = after) by (unfold t; rewrite skipn_app, skipn_all, Nat.sub_diag; easy).
  assert (Wt : wf_runs (before ++ after) (d_runs d b)).
  { apply (wf_runs_in _ _ W). unfold ps. rewrite in_app_iff. right. now left. }
  pose proof (find_block_some _ _ _ Hx) as [Hid _].
  unfold html_in. cbv zeta. rewrite Hid.
  assert (S1 : byte_slice t 0 (blen before) = Ok before).
  { pose proof (slice_0_boff t (length before)) as H. rewrite boff_split, Ef in H. exact H. }
  assert (S2 : byte_slice t (blen before) (blen t) = Ok after).
  { pose proof (slice_boff_end t (length before)) as H. rewrite boff_split, Ef, Es in H. exact H. }
  rewrite S1, S2. cbn [bind]. rewrite (wf_images _ _ W). cbn [split_images_left split_images_right filter map length].
  destruct (html_head before (split_runs_left (d_runs d b) (blen before)) over first (split_left_wf _ _ _ Wt) Ho) as (ft & hr & -> & Lf & Whr & Shr).
  fold oe in Lf, Shr.
  destruct (html_tail after (split_runs_right (d_runs d b) (blen before)) last_ (split_right_wf _ _ _ Wt)) as (lt & tr & -> & Ll & Wtr & Str & Nl).
  cbv iota beta. set (tl_ := lt ++ after) in *.
  assert (Esk : may && is_nil tl_ && is_none last_ && is_nil (@nil image) = skip).
  { unfold skip, tl_. cbn [is_nil]. rewrite andb_true_r. destruct last_; cbn [is_none]; [now rewrite !andb_false_r|]. now rewrite (Nl eq_refl). }
  rewrite Esk.
  destruct (html_head_set d ps b x over hr W ltac:(eapply wf_in_mid, W) Hx) as (H1 & H2 & H3).
  set (d0 := match over with Some _ => _ | None => update_block d x end) in *.
  set (d1 := write_block_state d0 b hr []) in *.
  rewrite (h_rs _ _ _ _ H1).
  set (pos0 := (Z.of_nat (cpre pre) + Z.of_nat (length (before ++ ft)) + 1)%Z).
  destruct (parsed_grown html_fmt mids d1 (S (length pre)) pos0) as (d2 & made & Ecp & Tm & G2).
  set (pos1 := (pos0 + Z.of_nat (cpre made))%Z) in *.
  assert (Et : match over with Some _ => (None, bfmt_default) | None => (b_list x, b_fmt x) end = tail_attr x over) by reflexivity.
  assert (Ht : tail_attr x over = (fst (tail_attr x over), snd (tail_attr x over))) by (destruct (tail_attr x over); reflexivity).
  set (ta := tail_attr x over) in *. set (ni := d_next d2).
  (* the tail *)
  set (made' := if skip then made else made ++ [(ni, tl_)]).
  assert (Gt : exists d3, (if skip then (d2, made)
       else let '(dt, ni) := create_block_at d2 pos1 (fst ta) (snd ta) (S (length pre) + length made) in
            (write_block_state dt ni tr [], made ++ [(ni, tl_)])) = (d3, made')
     /\ grown d1 d3 made' (map (fun y => block_items (fst y)) mids ++ (if skip then [] else [styled tl_ tr])) (pos_from pos0 made')
     (map (fun y => (snd y, html_fmt (fst y))) mids ++ (if skip then [] else [ta]))).
  { unfold made'. destruct skip.
    - exists d2. rewrite !app_nil_r. now split.
    - pose proof (create_grown d2 pos1 (fst ta) (snd ta) (S (length pre) + length made) tl_ tr Wtr) as Gc.
      change (create_block_at d2 pos1 (fst ta) (snd ta) (S (length pre) + length made))
        with (fst (create_block_at d2 pos1 (fst ta) (snd ta) (S (length pre) + length made)), ni).
      cbv iota beta. eexists. split; [reflexivity|]. rewrite pos_from_app. cbn [pos_from]. fold pos1.
      rewrite Ht. exact (grown_trans _ _ _ _ _ _ _ _ _ _ _ G2 Gc). }
  destruct Gt as (d3 & EG & G3).
  destruct (join_in d d1 d3 pre b t post (before ++ ft) hr made' _ _ _ W Hpost H1 Whr G3) as (e & rs1 & rs2 & Er & R1 & Hl & R2 & W5 & I5).
  rewrite Er. cbn [bind]. rewrite R1. cbn [bind]. rewrite Hl. cbn [bind]. rewrite Px. fold pos0. rewrite Ecp. cbv iota beta.
  rewrite Et, Ht. cbv iota beta. rewrite EG. cbv iota beta. rewrite R2. cbn [bind].
  assert (Tl : (if skip then Ok pos1 else let! m := block_char_length rs2 (d_next d2) in Ok (pos1 + Z.of_nat m + 1)%Z)
     = Ok (pos0 + Z.of_nat (cpre made'))%Z).
  { unfold made' in *. destruct skip; [reflexivity|].
    pose proof (wf_rep _ _ W5) as R5.
    match type of R5 with rep (d_rs ?D) _ => change (d_rs D) with rs2 in R5 end.
    rewrite <- app_assoc in R5. cbn [app] in R5. rewrite app_comm_cons, app_assoc, segs_mid in R5.
    fold ni. rewrite (rep_char_length _ _ _ _ _ R5). cbn [bind]. rewrite cpre_app, cpre_one. f_equal. unfold pos1. lia. }
  fold pos1. rewrite Tl. cbn [bind].
  match goal with |- context [shift_blocks _ _ ?v] => set (delta := v) end.
  match goal with |- context [set_chars _ ?v] => set (c := v) end.
  set (k := (d_nblocks d + Z.of_nat (length made'))%Z).
  destruct (one_finish d d1 d3 pre b before after post ft hr made' _ _ rs2 delta k c _ W H1 G3 W5 ltac:(now rewrite H2, Px)) as (W7 & Rn & At & _ & Fr).
  set (d7 := set_chars _ c) in *.
  assert (Lm0 : length made = length mids) by (apply (f_equal (@length _)) in Tm; now rewrite !map_length in Tm).
  assert (Lm : length made' = na).
  { unfold made', na. destruct skip; [lia|]. rewrite app_length. cbn. lia. }
  assert (Cm : cpre made = length (flat_map (cons Brk) (map (fun y => block_items (fst y)) mids))).
  { clear - Tm. revert made Tm. induction mids as [|m mids IH]; intros [|[j u] made] Tm; try discriminate; [easy|]. cbn [map snd] in Tm. injection Tm as -> Tm.
    rewrite cpre_cons. cbn [map flat_map]. rewrite app_length, <- (IH _ Tm). cbn [length]. rewrite block_items_length. change (fst (payload (fst m))) with (span_text (pb_spans (fst m))). lia. }
  assert (Lo : length (opt_items oe) = length ft).
  { rewrite Lf. destruct oe; cbn [opt_items opt_length length]; [apply block_items_length|easy]. }
  exists d7, (pre ++ (b, before ++ ft) :: made' ++ post).
  split; [|split; [exact W7|split; [|split; [|split; [|split]]]]].
  - f_equal. f_equal; [f_equal; f_equal|now rewrite Lm].
    unfold pos1, pos0, new, n. rewrite !app_length, Cm, Lo. lia.
  - apply Fr; [reflexivity| |exact F]. unfold delta, pos0, t. rewrite !app_length. lia.
  - rewrite Rn. etransitivity; [exact I5|]. unfold n, its, ps. rewrite firstn_items, skipn_items, boff_split, Ef, Es by easy.
    rewrite Shr, (split_left_styled _ _ _ Wt), flat_map_app. unfold new. repeat (rewrite <- ?app_assoc; cbn [app]). do 4 f_equal.
    destruct skip eqn:Dk; cbn [flat_map app].
    + assert (Ea : after = []) by (unfold skip in Dk; rewrite !andb_true_iff in Dk; now apply is_nil_true). rewrite Ea. reflexivity.
    + rewrite Str, (split_right_styled _ _ _ Wt). repeat (rewrite <- ?app_assoc; cbn [app]). reflexivity.
  - unfold d7, k. cbn [d_nblocks set_chars set_nblocks]. now rewrite Lm.
  - unfold d7, c. cbn [d_chars set_chars]. rewrite Ll. f_equal. unfold t. rewrite !app_length. 
    destruct over as [[pb l]|]; cbn [oe] in *; [|destruct first]; unfold oe in *; cbn [opt_length] in *.
    + destruct Ho as [-> ->]; [discriminate|]. cbn [length]. lia.
    + lia.
    + lia.
  - rewrite At, H3. rewrite <- ?Ht. reflexivity.
Qed.
