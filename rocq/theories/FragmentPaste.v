(** Pasting into a well-formed document. *)
From Verif Require Import Base BaseFacts FormatRunsModel FormatRunsSpec FormatRunsFacts
  RopeModel RopeSpec RopeFacts DocModel DocSpec BlockFacts DocInv DocFacts DocAttr DocDelete DocBreak DocReplace
  DocImport DocFormat DocQuery ReplaceFacts DocFresh QueryModel QuerySpec ListModel ListDocModel
  FragmentModel FragmentText FragmentSpec FragmentRuns FragmentGrow FragmentFinish.
From Coq Require Import Permutation.

(** ** Where the fragment goes *)

Definition nilb {A} (l : list A) : bool := match l with [] => true | _ => false end.
Lemma nilb_true {A} (l : list A) : nilb l = true -> l = [].
Proof. now destruct l. Qed.

Lemma at_start_items R pre b t post i : i <= length t ->
  at_start (items_of R (pre ++ (b, t) :: post)) (cpre pre + i) = nilb (firstn i t).
Proof.
  intros Hi. unfold at_start. rewrite firstn_items by easy. set (u := firstn i t). clearbody u. clear.
  destruct u as [|c u] using rev_ind.
  - cbn. rewrite app_nil_r. destruct pre as [|[j v] pre] using rev_ind; [easy|].
    rewrite ipre_app, ipre_cons, rev_app_distr, rev_app_distr. reflexivity.
  - unfold styled. rewrite styled_app, !rev_app_distr. cbn. now destruct u.
Qed.

Lemma at_end_items R pre b t post i : i <= length t ->
  at_end (items_of R (pre ++ (b, t) :: post)) (cpre pre + i) = nilb (skipn i t).
Proof.
  intros Hi. unfold at_end. rewrite skipn_items by easy. destruct (skipn i t); [|easy].
  cbn. destruct post as [|[j v] post]; [easy|]. now rewrite ipost_cons.
Qed.

Lemma join_flat x l : join_paras (x :: l) = x ++ flat_map (cons Brk) l.
Proof.
  revert x; induction l as [|y l IH]; intros x; [now rewrite app_nil_r|].
  change (join_paras (x :: y :: l)) with (x ++ Brk :: join_paras (y :: l)). rewrite IH. reflexivity.
Qed.

(** ** Head and tail *)

Lemma head_state before lr fb mf ov :
  text_only fb -> wf_runs before lr -> (ov = true -> before = []) ->
  let ext : str := if mf || ov then fb_text fb else [] in
  exists hr, build_head_state before lr [] mf ov fb = (before ++ ext, hr, [])
   /\ wf_runs (before ++ ext) hr
   /\ styled (before ++ ext) hr = styled before lr ++ (if mf || ov then fb_items fb else []).
Proof.
  intros Ht Wb Hov. unfold build_head_state. destruct (fb_state fb Ht) as (fr & -> & Wf & Sf).
  destruct ov; [rewrite (Hov eq_refl)|destruct mf]; cbn [orb app].
  - replace (mf || true) with true by now destruct mf. exists fr. repeat split; try apply Wf. exact Sf.
  - eexists. split; [reflexivity|]. split; [now apply cat_runs_wf|]. rewrite cat_runs_styled by easy. now rewrite Sf.
  - exists lr. rewrite !app_nil_r. easy.
Qed.

Lemma tail_state after rr fb (ml : bool) :
  text_only fb -> wf_runs after rr ->
  let tl : str := (if ml then fb_text fb else []) ++ after in
  exists tr, build_tail_state after rr [] ml fb = (tl, tr, [])
   /\ wf_runs tl tr /\ styled tl tr = (if ml then fb_items fb else []) ++ styled after rr.
Proof.
  intros Ht Wa. unfold build_tail_state. destruct ml; [|exists rr; easy].
  destruct (fb_state fb Ht) as (fr & -> & Wf & Sf).
  eexists. split; [reflexivity|]. split; [now apply cat_runs_wf|]. rewrite cat_runs_styled by easy. now rewrite Sf.
Qed.

Lemma extra_text (before ext : str) :
  (if blen before <? blen (before ++ ext) then skipn (length before) (before ++ ext) else []) = ext.
Proof.
  rewrite skipn_app, skipn_all, Nat.sub_diag, blen_app. cbn [skipn app].
  destruct (_ <? _) eqn:E; [easy|]. assert (blen ext = 0) by lia. symmetry. now apply blen_nil_inv.
Qed.

(** ** Lists of the pasted paragraphs *)

Lemma place_lists_length fbs : forall L g, length (snd (place_lists L g fbs)) = length fbs.
Proof.
  induction fbs as [|fb fbs IH]; intros L g; [easy|]. cbn [place_lists].
  destruct (fb_list fb) as [e|].
  - destruct (try_reuse g (l_style e) (Z.to_nat (l_indent e))) as [g1 [i|]].
    + specialize (IH L g1). destruct (place_lists L g1 fbs). cbn in *. now rewrite IH.
    + unfold new_list. match goal with |- context [place_lists ?a ?c fbs] => specialize (IH a c); destruct (place_lists a c fbs) end.
      cbn in *. now rewrite IH.
  - specialize (IH L (reset g)). destruct (place_lists L (reset g) fbs). cbn in *. now rewrite IH.
Qed.

(** ** Rewriting the current paragraph *)

Lemma put_full_ids bs x : In (b_id x) (map b_id bs) -> map b_id (put_full bs x) = map b_id bs.
Proof.
  induction bs as [|y bs IH]; cbn [map In put_full]; [easy|].
  destruct (N.eqb_spec (b_id y) (b_id x)) as [E|E]; intros H; cbn [map]; [now rewrite E|]. rewrite IH by tauto. easy.
Qed.
Lemma find_put_full bs x i : In (b_id x) (map b_id bs) ->
  find_block (put_full bs x) i = if N.eqb (b_id x) i then Some x else find_block bs i.
Proof.
  induction bs as [|y bs IH]; cbn [map In put_full find_block]; [easy|]. intros H.
  destruct (N.eqb_spec (b_id y) (b_id x)) as [E|E]; cbn [find_block].
  - rewrite E. now destruct (N.eqb (b_id x) i).
  - rewrite IH by tauto. destruct (N.eqb_spec (b_id y) i) as [E1|E1]; [|easy].
    destruct (N.eqb_spec (b_id x) i); [congruence|easy].
Qed.

(** [ov] chooses between a full and a scalar update of the block. *)
Lemma head_set_ok d ps b x cur ov hr :
  wf d ps -> In b (map fst ps) -> get_block d b = Some x -> b_id cur = b ->
  (ov = false -> b_list cur = b_list x) ->
  let d1 := write_block_state (if ov then update_block_full d cur else update_block d cur) b hr [] in
  head_set d d1 b hr /\ pos_of d1 b = Some (b_pos cur) /\ attr d1 b = Some (b_list cur, b_fmt cur).
Proof.
  intros W Hb Hx Hc Hl d1. pose proof (wf_has _ _ _ W Hb) as Hin. rewrite <- Hc in Hin.
  assert (F : forall q, find_block (d_blocks d1) q = if N.eqb b q then Some cur else find_block (d_blocks d) q).
  { intros q. unfold d1. destruct ov; cbn.
    - rewrite find_put_full by easy. now rewrite Hc.
    - rewrite find_put by easy. rewrite Hc. destruct (N.eqb b q); [|easy]. unfold get_block in Hx. rewrite Hx. cbn.
      rewrite <- Hl by easy. now destruct cur. }
  split; [|split].
  - constructor; try (unfold d1; destruct ov; reflexivity).
    + unfold d1. destruct ov; cbn; [now apply put_full_ids|now apply put_ids].
    + intros q Hq. rewrite F. destruct (N.eqb_spec b q); [congruence|easy].
    + intros q. unfold d1, upd. destruct ov; cbn; unfold upd; destruct (N.eqb q b); try easy; apply (wf_images _ _ W).
  - unfold pos_of, get_block. rewrite F, N.eqb_refl. reflexivity.
  - unfold attr, get_block. rewrite F, N.eqb_refl. reflexivity.
Qed.

Lemma find_in_order d pre b t post i p :
  wf d (pre ++ (b, t) :: post) -> i <= length t -> clipz (ctotal (pre ++ (b, t) :: post)) p = cpre pre + i ->
  in_order d ->
  exists x, get_block d b = Some x
   /\ find_block_at_position d (sort_blocks (get_multi d (collect_block_ids d))) p
      = Ok (set_b_pos x (Z.of_nat (cpre pre)), length pre, Z.of_nat i)
   /\ sort_blocks (get_multi d (collect_block_ids d)) = get_multi d (map fst (pre ++ (b, t) :: post)).
Proof.
  intros W Hi Hp Ho. rewrite (in_order_blocks _ _ W Ho).
  assert (Hids : map b_id (get_multi d (map fst (pre ++ (b, t) :: post))) = map fst (pre ++ (b, t) :: post))
    by (apply get_multi_ids; intros q; now apply wf_has).
  assert (Hin : In b (map b_id (get_multi d (map fst (pre ++ (b, t) :: post))))) by (rewrite Hids; eapply wf_in_mid, W).
  destruct (find_in_list _ _ _ _ _ _ _ _ W Hi Hp Hin) as (k & x & K1 & K2 & K3 & ->).
  rewrite (index_of_paras _ _ _ _ _ Hids (wf_nodup _ _ W)) in K1. injection K1 as <-.
  exists x. apply nth_error_In, get_multi_get in K2. rewrite K3 in K2. auto.
Qed.

(** ** Several paragraphs *)

Lemma split_frag (first : fblock) g rest :
  exists mid, first :: g :: rest = first :: mid ++ [last (g :: rest) first]
   /\ removelast (first :: g :: rest) = first :: mid.
Proof.
  exists (removelast (g :: rest)). split.
  - f_equal. apply app_removelast_last. easy.
  - reflexivity.
Qed.

Definition as_para (fb : fblock) : para := (0%N, fb_text fb).

Lemma fragment_length_app a b : fragment_length (a ++ b) = fragment_length a + fragment_length b.
Proof. induction a as [|x a IH]; [easy|]. cbn [app fragment_length fold_right]. fold (fragment_length (a ++ b)) (fragment_length a). lia. Qed.

Lemma cpre_as_para fb : cpre [as_para fb] = length (fb_text fb) + 1.
Proof. apply cpre_one. Qed.

Definition ats_of (fbs : list fblock) (lids : list (option id)) : list (option id * bfmt) :=
  map (fun x => (snd x, fb_fmt (fst x))) (combine fbs lids).

Lemma combine_fst {A B} (l : list A) (m : list B) : length m = length l -> map fst (combine l m) = l.
Proof. revert m; induction l as [|x l IH]; intros [|y m]; cbn; try easy. intros [= H]. now rewrite IH. Qed.

Lemma paste_many_full L pre b before after post x fbs first mid last_ :
  let d := l_doc L in
  let t := before ++ after in
  let ps := pre ++ (b, t) :: post in
  let its := items_of (d_runs d) ps in
  let n := cpre pre + length before in
  wf d ps -> get_block d b = Some x -> fbs = first :: mid ++ [last_] -> Forall text_only fbs ->
  exists L' ps' k ats ha,
   paste_many L (get_multi d (map fst ps)) (set_b_pos x (Z.of_nat (cpre pre))) (length pre) t (blen before) fbs first last_
   = Ok (L', Z.of_nat (n + length (sep_before fbs its n) + length (fragment_items fbs) + length (sep_after fbs its n)), Z.of_nat k)
   /\ wf (l_doc L') ps'
   /\ items_of (d_runs (l_doc L')) ps' = spec_paste n fbs its
   /\ d_nblocks (l_doc L') = (d_nblocks d + Z.of_nat k)%Z
   /\ length ps' = length ps + k
   /\ (fresh d ps -> fresh (l_doc L') ps')
   /\ para_attrs (l_doc L') = firstn (length pre) (para_attrs d) ++ ha :: map Some ats ++ skipn (S (length pre)) (para_attrs d)
   /\ d_next (l_doc L') = (d_next d + N.of_nat k)%N
   /\ d_chars (l_doc L') = (d_chars d + Z.of_nat (fragment_length fbs)
        - (if is_inline_only first || nilb before then Z.of_nat (length after) else 0))%Z
   /\ (let merge := is_inline_only first in
       let over := negb merge && nilb before in
       let mids := (if merge || over then [] else [first]) ++ mid ++ (if is_inline_only last_ then [] else [last_]) in
       let '(L1, lids) := place_lists L (first_grouper L over (b_list x)) (if over then first :: mids else mids) in
       ha = Some (if over then (hd None lids, fb_fmt first) else (b_list x, b_fmt x))
       /\ l_lists L' = l_lists L1 /\ l_next L' = l_next L1
       /\ ats = ats_of mids (if over then tl lids else lids)
                ++ (if nilb after && negb (is_inline_only last_) then []
                    else [if over then (None, bfmt_default) else (b_list x, b_fmt x)])).
Proof.
  intros d t ps its n W Hx Efbs Hall.
  assert (Hi : length before <= length t) by (unfold t; rewrite app_length; lia).
  assert (Ef : firstn (length before) t = before) by (unfold t; rewrite firstn_app, firstn_all, Nat.sub_diag, app_nil_r; easy).
  assert (Es : skipn (length before) t = after) by (unfold t; rewrite skipn_app, skipn_all, Nat.sub_diag; easy).
  assert (As : at_start its n = nilb before).
  { unfold its, n. unfold ps. rewrite at_start_items by easy. now rewrite Ef. }
  assert (Ae : at_end its n = nilb after).
  { unfold its, n, ps. rewrite at_end_items by easy. now rewrite Es. }
  assert (Wt : wf_runs (before ++ after) (d_runs d b)).
  { apply (wf_runs_in _ _ W). unfold ps. rewrite in_app_iff. right. now left. }
  pose proof (find_block_some _ _ _ Hx) as [Hid _].
  assert (Hf : text_only first /\ Forall text_only mid /\ text_only last_).
  { clear - Efbs Hall. rewrite Efbs in Hall. apply Forall_cons_iff in Hall. destruct Hall as [A B].
    apply Forall_app in B. destruct B as [B C]. apply Forall_cons_iff in C. tauto. }
  destruct Hf as (Hfirst & Hmid & Hlast).
  unfold paste_many. cbv zeta. fold d. cbn [b_id b_pos b_list b_fmt set_b_pos]. rewrite Hid.
  assert (S1 : byte_slice t 0 (blen before) = Ok before).
  { pose proof (slice_0_boff t (length before)) as H. rewrite boff_split, Ef in H. exact H. }
  assert (S2 : byte_slice t (blen before) (blen t) = Ok after).
  { pose proof (slice_boff_end t (length before)) as H. rewrite boff_split, Ef, Es in H. exact H. }
  rewrite S1, S2. cbn [bind]. rewrite (wf_images _ _ W). cbn [split_images_left split_images_right filter map].
  remember (is_inline_only first) as mf eqn:Dmf. remember (is_inline_only last_) as ml eqn:Dml.
  assert (Eov : (match before with [] => negb mf | _ => false end) = negb mf && nilb before) by (destruct before, mf; reflexivity).
  rewrite Eov. remember (negb mf && nilb before) as ov eqn:Dov.
  assert (Hov : ov = true -> before = []).
  { intros ->. apply nilb_true. symmetry in Dov. apply andb_true_iff in Dov. tauto. }
  destruct (head_state before (split_runs_left (d_runs d b) (blen before)) first mf ov Hfirst (split_left_wf _ _ _ Wt) Hov)
    as (hr & -> & Whr & Shr).
  set (ext := if mf || ov then fb_text first else []) in *.
  assert (Emids : skipn (if mf || ov then 1 else 0) (if ml then removelast fbs else fbs)
     = (if mf || ov then [] else [first]) ++ mid ++ (if ml then [] else [last_])).
  { rewrite Efbs. rewrite app_comm_cons, removelast_last. destruct ml, (mf || ov); cbn [skipn app]; try reflexivity; now rewrite app_nil_r. }
  rewrite Emids. set (mids := (if mf || ov then [] else [first]) ++ mid ++ (if ml then [] else [last_])) in *.
  destruct (place_lists L (first_grouper L ov (b_list x)) (if ov then first :: mids else mids)) as [L1 lids] eqn:EL.
  assert (Hlen : length (if ov then tl lids else lids) = length mids).
  { pose proof (place_lists_length (if ov then first :: mids else mids) L (first_grouper L ov (b_list x))) as Hl.
    rewrite EL in Hl. cbn [snd] in Hl. destruct ov; [|exact Hl]. clear - Hl. destruct lids; cbn [length tl] in *; lia. }
  set (mlids := if ov then tl lids else lids) in *.
  assert (Hmids : Forall text_only mids).
  { unfold mids. apply Forall_app. split; [|apply Forall_app; split; [exact Hmid|]].
    - destruct (mf || ov); auto.
    - destruct ml; auto. }
  set (cur := if ov then mk_block b (Z.of_nat (cpre pre)) (hd None lids) (fb_fmt first) else set_b_pos x (Z.of_nat (cpre pre))).
  assert (Hcur : b_id cur = b /\ b_pos cur = Z.of_nat (cpre pre) /\ (ov = false -> b_list cur = b_list x)
    /\ Some (b_list cur, b_fmt cur) = Some (if ov then (hd None lids, fb_fmt first) else (b_list x, b_fmt x))).
  { unfold cur. destruct ov; cbn; repeat split; auto; discriminate. }
  destruct Hcur as (C1 & C2 & C3 & C4).
  destruct (head_set_ok d ps b x cur ov hr W ltac:(eapply wf_in_mid, W) Hx C1 C3) as (H1 & H2 & H3).
  set (d1 := write_block_state (if ov then update_block_full d cur else update_block d cur) b hr []) in *.
  rewrite (app_length before ext). cbn [length]. rewrite ?Z.add_0_r.
  assert (Hcomb : Forall (fun y => text_only (fst y)) (combine mids mlids)).
  { rewrite <- Forall_map, combine_fst by easy. exact Hmids. }
  set (pos0 := (Z.of_nat (cpre pre) + Z.of_nat (length before + length ext) + 1)%Z).
  destruct (middle_grown _ Hcomb d1 (S (length pre)) pos0) as (d2 & made & -> & Tm & G2).
  rewrite <- (map_map fst), combine_fst in G2 by easy. rewrite <- (map_map fst), combine_fst in Tm by easy.
  rewrite combine_fst by easy.
  destruct (tail_state after (split_runs_right (d_runs d b) (blen before)) last_ ml Hlast (split_right_wf _ _ _ Wt))
    as (tr & -> & Wtr & Str).
  set (tl_ := (if ml then fb_text last_ else []) ++ after) in *.
  assert (Eskip : (match tl_ with [] => negb ml | _ => false end) = nilb after && negb ml).
  { unfold tl_. destruct ml; cbn [negb app]; [rewrite andb_false_r; now destruct (fb_text last_ ++ after)|].
    rewrite andb_true_r. now destruct after. }
  set (pos1 := (pos0 + Z.of_nat (cpre made))%Z).
  set (skip := match tl_ with [] => _ | _ => _ end).
  replace skip with (nilb after && negb ml) by (unfold skip; rewrite <- Eskip; now destruct tl_).
  clear skip Eskip. set (skip := nilb after && negb ml) in *.
  (* the tail *)
  assert (Gt : exists d3 made', (if skip then (d2, made) else
       let '(dt, ni) := create_block_at d2 pos1 (if ov then None else b_list x) (if ov then bfmt_default else b_fmt x)
                          (S (length pre) + length made) in
       (write_block_state dt ni tr [], made ++ [(ni, tl_)])) = (d3, made')
     /\ grown d1 d3 made' (map fb_items mids ++ (if skip then [] else [styled tl_ tr]))
          (pos_from pos0 made')
          (ats_of mids mlids ++ (if skip then [] else [if ov then (None, bfmt_default) else (b_list x, b_fmt x)]))
     /\ Z.of_nat (cpre made') = (pos1 + (if skip then 0 else Z.of_nat (length tl_) + 1) - pos0)%Z
     /\ length made' = length made + (if skip then 0 else 1)).
  { destruct skip.
    - exists d2, made. split; [easy|]. rewrite !app_nil_r. split; [exact G2|]. split; [|lia]. unfold pos1. lia.
    - pose proof (create_grown d2 pos1 (if ov then None else b_list x) (if ov then bfmt_default else b_fmt x)
        (S (length pre) + length made) tl_ tr Wtr) as Gc.
      destruct (create_block_at d2 pos1 _ _ _) as [dt ni] eqn:Ec.
      assert (En : ni = d_next d2) by (unfold create_block_at in Ec; congruence). subst ni. cbn [fst] in Gc.
      eexists _, _. split; [reflexivity|]. split; [|split].
      + rewrite pos_from_app. cbn [pos_from]. fold pos1. pose proof (grown_trans _ _ _ _ _ _ _ _ _ _ _ G2 Gc) as Gx.
        replace (if ov then (None, bfmt_default) else (b_list x, b_fmt x))
          with ((if ov then None else b_list x), (if ov then bfmt_default else b_fmt x)) by now destruct ov.
        exact Gx.
      + rewrite cpre_app, cpre_one. unfold pos1. lia.
      + rewrite app_length. cbn. lia. }
  destruct Gt as (d3 & made' & EGt & G3 & Cm & Lm).
  match goal with |- context [if skip then (d2, made) else ?e] => set (tailpair := if skip then (d2, made) else e) end.
  assert (Etp : tailpair = (d3, made')) by exact EGt. rewrite Etp. clear tailpair Etp EGt.
  rewrite extra_text.
  destruct (assemble d d1 d3 pre b before after post ext hr made' _ _ _ W H1 Whr G3) as (rs1 & rs2 & R1 & R2 & W5 & I5).
  cbn [d_rs set_order]. rewrite (g_rs _ _ _ _ _ _ G3), (h_rs _ _ _ _ H1), R1. cbn [bind].
  rewrite R2. cbn [bind].
  match goal with |- context [shift_blocks _ _ ?e] => set (delta := e) end.
  set (d5 := set_rs _ rs2) in *.
  set (d6 := update_multi d5 _).
  assert (M : meta d5 d6) by (exact (fin_meta d d1 d3 pre b t post hr made' _ _ _ rs2 W H1 G3 delta)).
  set (d7 := set_chars _ _).
  assert (M7 : meta d6 d7) by (eapply meta_trans; [apply meta_nblocks|apply meta_chars]).
  set (ps' := pre ++ (b, before ++ ext) :: made' ++ post) in *.
  assert (W6 : wf d6 ps') by (eapply wf_meta; [exact W5|exact M]).
  assert (W7 : wf d7 ps') by (eapply wf_meta; [exact W6|exact M7]).
  eexists (mk_ldoc d7 (l_lists L1) (l_next L1)), ps', (length made'), _, _. cbn [l_doc l_lists l_next].
  assert (Sf : styled (before ++ ext) hr = styled before (d_runs d b) ++ (if mf || ov then fb_items first else [])).
  { rewrite Shr. now rewrite (split_left_styled _ _ _ Wt). }
  assert (St : styled tl_ tr = (if ml then fb_items last_ else []) ++ styled_from (blen before) after (d_runs d b)).
  { rewrite Str. now rewrite (split_right_styled _ _ _ Wt). }
  assert (F1 : firstn n its = ipre (d_runs d) pre ++ styled before (d_runs d b)).
  { unfold n, its, ps. rewrite firstn_items by easy. now rewrite Ef. }
  assert (F2 : skipn n its = styled_from (blen before) after (d_runs d b) ++ ipost (d_runs d) post).
  { unfold n, its, ps. rewrite skipn_items by easy. now rewrite boff_split, Ef, Es. }
  assert (Esb : sep_before fbs its n = if mf || ov then [] else [Brk]).
  { unfold sep_before. rewrite Efbs, As, <- Dmf, Dov. now destruct mf, (nilb before). }
  assert (Esa : sep_after fbs its n = if ml || nilb after then [] else [Brk]).
  { unfold sep_after. rewrite Efbs. cbn [rev]. rewrite rev_app_distr. cbn [rev app]. rewrite <- Dml, As, Ae.
    rewrite app_length, rev_length. cbn [length]. replace (length mid + 1 =? 0) with false by lia.
    cbn [negb]. now rewrite orb_true_r, andb_true_r. }
  assert (Efi : fragment_items fbs = fb_items first ++ flat_map (cons Brk) (map fb_items mid) ++ Brk :: fb_items last_).
  { unfold fragment_items. rewrite Efbs. cbn [map]. rewrite join_flat, map_app, flat_map_app. cbn. now rewrite app_nil_r. }
  assert (Lfi : length (flat_map (cons Brk) (map fb_items mid)) = cpre (map as_para mid)).
  { clear - Hmid. induction Hmid as [|fb mid Hfb _ IH]; [easy|]. cbn [map flat_map]. rewrite app_length. cbn [length].
    unfold as_para at 1. rewrite cpre_cons, IH, fb_items_length by easy. lia. }
  assert (Cmade : cpre made = cpre (map as_para mids)).
  { apply cpre_texts. rewrite Tm, map_map. easy. }
  assert (Cmids : cpre made = (if mf || ov then 0 else length (fb_text first) + 1) + cpre (map as_para mid)
                     + (if ml then 0 else length (fb_text last_) + 1)).
  { rewrite Cmade. unfold mids. rewrite !map_app, !cpre_app. clear. destruct (mf || ov), ml; cbn [map]; rewrite ?cpre_as_para, ?cpre_nil; lia. }
  assert (Lext : length ext = if mf || ov then length (fb_text first) else 0) by (unfold ext; now destruct (mf || ov)).
  assert (Eb : forall c : bool, (if c then length [Brk] else 0) = (if c then 1 else 0)) by (now intros []).
  split; [|split; [exact W7|split; [|split; [|split; [|split; [|split; [|split; [|split]]]]]]]].
  - f_equal. f_equal. f_equal. rewrite Esb, Esa, Efi, !app_length. cbn [length]. rewrite Lfi, !fb_items_length by easy.
    unfold pos1, pos0, n. rewrite Lext, Cmids.
    destruct (mf || ov), ml, (nilb after); cbn [andb negb orb skip length]; unfold skip; cbn [andb negb]; clear; lia.
  - transitivity (items_of (d_runs d5) ps').
    { rewrite (meta_runs _ _ M7), (meta_runs _ _ M). reflexivity. }
    unfold ps'. etransitivity; [exact I5|]. rewrite Sf. unfold spec_paste. rewrite F1, F2, Esb, Esa, Efi.
    rewrite flat_map_app. unfold mids. rewrite !map_app, !flat_map_app. rewrite St.
    unfold skip. destruct (mf || ov), ml; cbn [negb orb]; rewrite ?andb_true_r, ?andb_false_r; try (destruct (nilb after) eqn:Ena);
      cbn [app map flat_map]; rewrite ?app_nil_r; repeat (rewrite <- ?app_assoc; cbn [app]); try reflexivity.
    all: apply nilb_true in Ena; rewrite Ena; cbn [styled_from app]; reflexivity.
  - cbn [d7 d_nblocks set_chars set_nblocks]. reflexivity.
  - unfold ps', ps. rewrite !app_length. cbn [length]. rewrite app_length. lia.
  - intros F. assert (F6 : fresh d6 ps').
    { apply (fin_fresh d d1 d3 pre b t post hr made' _ _ _ rs2 W H1 G3 (before ++ ext) delta F W6).
      - now rewrite H2, C2.
      - unfold pos0. rewrite app_length. reflexivity.
      - unfold delta. rewrite ?C2, Cm, app_length. unfold t. rewrite app_length. unfold pos0. cbn [length].
        clear. destruct skip; lia. }
    apply (fresh_blocks d6 d7 ps' W6 W7); [|exact F6]. intros q _. reflexivity.
  - transitivity (para_attrs d6); [reflexivity|].
    etransitivity; [exact (fin_attrs d d1 d3 pre b t post hr made' _ _ _ rs2 W H1 G3 delta)|]. rewrite H3. reflexivity.
  - rewrite (meta_next _ _ M7), (meta_next _ _ M). cbn. rewrite (g_next _ _ _ _ _ _ G3), (h_next _ _ _ _ H1). reflexivity.
  - cbn [d7 d_chars set_chars set_nblocks].
    assert (Ec : fragment_length fbs = length (fb_text first) + fragment_length mid + length (fb_text last_)).
    { rewrite Efbs. change (first :: mid ++ [last_]) with ([first] ++ mid ++ [last_]). rewrite !fragment_length_app. cbn. clear. lia. }
    assert (Em : fragment_length mids = (if mf || ov then 0 else length (fb_text first)) + fragment_length mid + (if ml then 0 else length (fb_text last_))).
    { unfold mids. rewrite !fragment_length_app. clear. destruct ml, (mf || ov); cbn [fragment_length fold_right]; lia. }
    rewrite Ec, Em. unfold t. rewrite app_length, Lext.
    assert (Eo : mf || ov = mf || nilb before) by (rewrite Dov; now destruct mf, (nilb before)). rewrite Eo.
    clear. destruct (mf || nilb before), ml; lia.
  - cbv zeta. rewrite C4. repeat split; reflexivity.
Qed.

(** ** One paragraph without paragraph formatting *)

Lemma paste_inline_full L pre b t post i p fb :
  let d := l_doc L in
  let ps := pre ++ (b, t) :: post in
  let ps' := pre ++ (b, firstn i t ++ fb_text fb ++ skipn i t) :: post in
  let its := items_of (d_runs d) ps in
  let n := cpre pre + i in
  wf d ps -> i <= length t -> clipz (ctotal ps) p = n -> text_only fb -> is_inline_only fb = true ->
  exists d', insert_fragment L p p (Some [fb])
     = Ok (mk_ldoc d' (l_lists L) (l_next L), (p + Z.of_nat (length (fb_text fb)))%Z, 0%Z)
   /\ wf d' ps'
   /\ items_of (d_runs d') ps' = firstn n its ++ fb_items fb ++ skipn n its
   /\ para_attrs d' = para_attrs d
   /\ d_chars d' = (d_chars d + Z.of_nat (length (fb_text fb)))%Z
   /\ d_nblocks d' = d_nblocks d /\ d_next d' = d_next d
   /\ (fresh d ps -> fresh d' ps').
Proof.
  intros d ps ps' its n W Hi Hp Ht Hin. unfold insert_fragment. fold d. rewrite Z.eqb_refl. cbn [negb].
  set (bs := sort_blocks (get_multi d (collect_block_ids d))).
  assert (Pb : Permutation (map b_id bs) (map fst ps)).
  { unfold bs. rewrite (Permutation_map b_id (sort_perm _)). now rewrite (wf_multi _ _ W). }
  assert (Hb : In b (map b_id bs)) by (eapply Permutation_in; [symmetry; exact Pb|eapply wf_in_mid, W]).
  destruct (find_in_list _ _ _ _ _ _ _ bs W Hi Hp Hb) as (k & x & K1 & K2 & K3 & ->).
  cbn [bind b_id b_pos set_b_pos]. rewrite K3, (wf_content _ _ _ _ _ W). cbn [bind]. rewrite Hin.
  rewrite (wf_images _ _ W), Nat2Z.id, lob_nil. unfold paste_inline. cbn [b_id b_pos set_b_pos]. rewrite K3.
  destruct (fb_state fb Ht) as (fr & -> & Wf & Sf). cbn [length]. rewrite Z.add_0_r.
  assert (Hxb : In x bs) by (now apply nth_error_In in K2).
  assert (Hxd : get_block d b = Some x).
  { eapply Permutation_in in Hxb; [|apply sort_perm]. apply get_multi_get in Hxb. now rewrite K3 in Hxb. }
  assert (F1 : firstn n its = ipre (d_runs d) pre ++ styled (firstn i t) (d_runs d b)) by (now apply firstn_items).
  assert (F2 : skipn n its = styled_from (blen (firstn i t)) (skipn i t) (d_runs d b) ++ ipost (d_runs d) post)
    by (now apply skipn_items).
  destruct (Z.of_nat (length (fb_text fb)) =? 0)%Z eqn:E0.
  { assert (Et : fb_text fb = []) by (destruct (fb_text fb); [easy|cbn in E0; lia]).
    exists d. cbn [bind]. rewrite Et in *. cbn [length Z.of_nat app] in *. rewrite Z.add_0_r.
    split; [reflexivity|]. unfold ps'. rewrite ?Et. cbn [app]. rewrite firstn_skipn. split; [exact W|]. split.
    - rewrite <- Sf. cbn [styled styled_from app]. now rewrite firstn_skipn.
    - rewrite Z.add_0_r. repeat split. easy. }
  rewrite slice_0_boff. cbn [bind]. cbn [write_block_state d_rs set_images set_runs update_block set_blocks].
  pose proof (wf_rep _ _ W) as R. unfold ps in R. rewrite segs_mid in R. rewrite <- (firstn_skipn i t) in R.
  destruct (rep_insert_in_block _ _ _ (firstn i t) (skipn i t) (fb_text fb) _ R) as (rs & E & R2).
  rewrite boff_split, E. cbn [bind].
  fold (paste_runs (d_runs d b) (blen (firstn i t)) (blen (fb_text fb)) fr).
  set (n' := Z.of_nat (length (fb_text fb))).
  set (cur := set_b_pos x (Z.of_nat (cpre pre))).
  assert (Hcur : b_id cur = b) by exact K3.
  assert (Ic : In (b_id cur) (map b_id (d_blocks d))) by (rewrite Hcur; eapply wf_has; [exact W|eapply wf_in_mid, W]).
  assert (Wr : wf_runs (firstn i t ++ skipn i t) (d_runs d b)) by (eapply wf_runs_split, W).
  set (d2 := set_rs _ rs).
  assert (M0 : meta d (update_block d cur)) by (now apply meta_update).
  destruct (wf_edit d pre b t post (firstn i t ++ fb_text fb ++ skipn i t)
     (paste_runs (d_runs d b) (blen (firstn i t)) (blen (fb_text fb)) fr) d2 W) as [W2 I2]; try reflexivity.
  { cbn. rewrite segs_mid. exact R2. }
  { now apply paste_runs_wf. }
  { exact (meta_ids _ _ M0). }
  { intros q. cbn. unfold upd. destruct (N.eqb q b); [rewrite ?(wf_images _ _ W); unfold shift_images_for_insert; now destruct (_ =? 0)|apply (wf_images _ _ W)]. }
  assert (A2 : same_attr d d2).
  { apply (same_attr_trans _ (update_block d cur)); [|now apply same_attr_blocks].
    apply attr_update. rewrite Hcur. unfold attr. now rewrite Hxd. }
  assert (Hups : forall y, In y (shift_blocks bs k n') -> In (b_id y) (map b_id (d_blocks d2)) /\ attr d2 (b_id y) = Some (b_list y, b_fmt y)).
  { intros y Hy. apply in_map_iff in Hy. destruct Hy as (z & <- & Hz). cbn [b_id b_list b_fmt set_b_pos].
    assert (Hz' : In z bs) by (rewrite <- (firstn_skipn (S k) bs), in_app_iff; now right).
    eapply Permutation_in in Hz'; [|apply sort_perm]. split.
    - rewrite (meta_ids _ _ M0 : map b_id (d_blocks d2) = _). apply get_multi_in in Hz'. apply in_map. tauto.
    - rewrite A2. now apply get_multi_attr in Hz'. }
  assert (M : meta d2 (update_multi d2 (shift_blocks bs k n'))).
  { apply meta_update_multi. intros q Hq. apply in_map_iff in Hq. destruct Hq as (y & <- & Hy). now apply Hups. }
  assert (A : same_attr d2 (update_multi d2 (shift_blocks bs k n'))).
  { apply attr_update_multi. intros y Hy. now apply Hups. }
  eexists. split; [reflexivity|]. set (d4 := set_chars _ _).
  assert (M4 : meta d2 d4) by (eapply meta_trans; [exact M|apply meta_chars]).
  assert (W4 : wf d4 ps') by (eapply wf_meta; [exact W2|exact M4]).
  split; [exact W4|]. split; [|split; [|split; [|split; [|split]]]].
  - rewrite (meta_items _ _ _ M4). unfold ps'. rewrite I2, (paste_runs_styled _ _ _ _ _ Wr Wf), Sf, F1, F2.
    now rewrite <- !app_assoc.
  - transitivity (para_attrs d2).
    + apply para_attrs_same; [exact A|exact (meta_order _ _ M4)].
    + apply para_attrs_same; [exact A2|reflexivity].
  - reflexivity.
  - cbn [d4 d_nblocks set_chars]. now rewrite update_multi_nblocks.
  - rewrite (meta_next _ _ M4). reflexivity.
  - intros F. assert (Eb : bs = get_multi d (map fst ps)) by (apply in_order_blocks; [exact W|eapply fresh_in_order; eassumption]).
    assert (Hids : map b_id bs = map fst ps) by (rewrite Eb; apply get_multi_ids; intros q; now apply wf_has).
    assert (Ek : k = length pre).
    { rewrite (index_of_paras _ _ _ _ _ Hids (wf_nodup _ _ W)) in K1. congruence. }
    apply (fresh_list _ _ W4). pose proof F as F0. apply (fresh_list _ _ W) in F0.
    assert (P : forall q, pos_of d4 q = match find_block (shift_blocks bs k n') q with
                          | Some y => Some (b_pos y) | None => pos_of d2 q end).
    { intros q. change (pos_of d4 q) with (pos_of (update_multi d2 (shift_blocks bs k n')) q). apply pos_update_multi.
      - rewrite Eb, Ek. unfold ps. rewrite (shift_ids _ _ _ _ _ _ W). eapply nodup_post, W.
      - intros y Hy. now apply Hups. }
    assert (P2 : forall q, pos_of d2 q = if N.eqb b q then Some (Z.of_nat (cpre pre)) else pos_of d q).
    { intros q. change (pos_of d2 q) with (pos_of (update_block d cur) q). rewrite pos_update by exact Ic. now rewrite Hcur. }
    pose proof (nodup_mid _ _ _ _ (wf_nodup _ _ W)) as [N1 N2].
    assert (Npp : forall q, In q (map fst pre) -> ~ In q (map fst post)).
    { intros q Q1 Q2. pose proof (wf_nodup _ _ W) as ND. unfold ps in ND. rewrite map_app in ND.
      apply (nodup_app_disj _ _ q ND Q1). now right. }
    assert (Pout : forall q, ~ In q (map fst post) -> pos_of d4 q = pos_of d2 q).
    { intros q Hq. rewrite P, find_block_none; [easy|]. rewrite Eb, Ek. unfold ps. now rewrite (shift_ids _ _ _ _ _ _ W). }
    assert (Ppost : forall q, In q (map fst post) -> pos_of d4 q = option_map (fun z => z + n')%Z (pos_of d q)).
    { intros q Hq. rewrite P. unfold shift_blocks. rewrite find_shift by easy. rewrite Eb, Ek.
      rewrite <- (skipn_ids _ _ _ _ _ W) in Hq. unfold ps.
      destruct (find_block_in _ _ Hq) as (y & -> & Iy & Hy). cbn [option_map b_pos set_b_pos].
      assert (Hyb : In y (get_multi d (map fst ps))) by (rewrite <- (firstn_skipn (S (length pre)) (get_multi d (map fst ps))), in_app_iff; now right).
      apply get_multi_get in Hyb. rewrite Iy in Hyb. unfold pos_of. rewrite Hyb. reflexivity. }
    unfold ps, ps' in *. rewrite !map_app in F0. cbn [map fst] in F0. rewrite pos_from_app in F0. cbn [pos_from] in F0.
    rewrite map_app in F0. cbn [map] in F0.
    apply app_inv_length in F0; [|rewrite !map_length; clear; generalize 0%Z; induction pre as [|[j u] l IH]; intros z; cbn; auto].
    destruct F0 as [G1 G2]. injection G2 as _ G3.
    rewrite map_app. cbn [map fst]. rewrite map_app. cbn [map]. rewrite pos_from_app. cbn [pos_from]. rewrite map_app. cbn [map].
    rewrite Z.add_0_l in *. f_equal; [|f_equal].
    + rewrite <- G1. apply map_ext_in. intros q Hq. rewrite Pout by auto. rewrite P2.
      destruct (N.eqb_spec b q); [congruence|easy].
    + rewrite Pout, P2, N.eqb_refl by easy. reflexivity.
    + rewrite (map_ext_in _ (fun q => option_map (fun z => z + n')%Z (pos_of d q))) by (intros q Hq; now apply Ppost).
      rewrite <- (map_map (pos_of d) (option_map (fun z => z + n')%Z)), G3, map_map. cbn [option_map].
      rewrite <- (map_map (fun z => z + n')%Z Some), <- pos_from_plus. do 2 f_equal.
      rewrite !app_length, firstn_length, skipn_length. unfold n'. lia.
Qed.

(** ** One paragraph with paragraph formatting *)

Lemma length_absent d ps q : wf d ps -> ~ In q (map fst ps) -> char_length d q = Ok 0%Z.
Proof.
  intros W Hq. unfold char_length, block_char_length, range_with_successor.
  pose proof (wf_rep _ _ W) as Rp. rewrite (rep_midx _ _ Rp).
  rewrite (proj2 (seg_pos_none _ _)); [reflexivity|]. now rewrite in_segs_fst.
Qed.

Lemma set_rs_multi u : forall d rs, set_rs (update_multi d u) rs = update_multi (set_rs d rs) u.
Proof. unfold update_multi. induction u as [|y u IH]; intros d rs; [easy|]. cbn [fold_left]. now rewrite IH. Qed.

(** What a paste of one paragraph with paragraph formatting leaves. *)
Lemma one_finish d d1 d3 pre b before after post ext hr made itss ats rs2 delta k :
  let t := before ++ after in
  let ps := pre ++ (b, t) :: post in
  let h := before ++ ext in
  let ps' := pre ++ (b, h) :: made ++ post in
  let bs := get_multi d (map fst ps) in
  let pos0 := (Z.of_nat (cpre pre) + Z.of_nat (length h) + 1)%Z in
  let d5 := set_rs (set_order d3 (order_insert (d_order d) (length pre) (map fst made))) rs2 in
  let d7 := set_chars (set_nblocks (update_multi d5 (shift_blocks bs (length pre) delta)) k) in
  forall c poss,
  wf d ps -> head_set d d1 b hr -> grown d1 d3 made itss poss ats ->
  wf d5 ps' -> pos_of d1 b = Some (Z.of_nat (cpre pre)) ->
  wf (d7 c) ps'
  /\ d_runs (d7 c) = d_runs d5
  /\ para_attrs (d7 c) = firstn (length pre) (para_attrs d) ++ attr d1 b :: map Some ats ++ skipn (S (length pre)) (para_attrs d)
  /\ d_next (d7 c) = (d_next d + N.of_nat (length made))%N
  /\ (poss = pos_from pos0 made -> delta = (Z.of_nat (length h) + Z.of_nat (cpre made) - Z.of_nat (length t))%Z ->
      fresh d ps -> fresh (d7 c) ps').
Proof.
  intros t ps h ps' bs pos0 d5 d7 c poss W H G W5 Hb.
  set (d6 := update_multi d5 (shift_blocks bs (length pre) delta)) in *.
  assert (M : meta d5 d6) by (exact (fin_meta d d1 d3 pre b t post hr made _ _ _ rs2 W H G delta)).
  assert (M7 : meta d6 (d7 c)) by (eapply meta_trans; [apply meta_nblocks|apply meta_chars]).
  assert (W6 : wf d6 ps') by (eapply wf_meta; [exact W5|exact M]).
  assert (W7 : wf (d7 c) ps') by (eapply wf_meta; [exact W6|exact M7]).
  split; [exact W7|]. split; [now rewrite (meta_runs _ _ M7), (meta_runs _ _ M)|]. split; [|split].
  - transitivity (para_attrs d6); [reflexivity|].
    exact (fin_attrs d d1 d3 pre b t post hr made _ _ _ rs2 W H G delta).
  - rewrite (meta_next _ _ M7), (meta_next _ _ M). cbn. rewrite (g_next _ _ _ _ _ _ G), (h_next _ _ _ _ H). reflexivity.
  - intros Ep Ed F. assert (F6 : fresh d6 ps').
    { now apply (fin_fresh d d1 d3 pre b t post hr made _ _ _ rs2 W H G h delta F W6). }
    apply (fresh_blocks d6 (d7 c) ps' W6 W7); [|exact F6]. intros q _. reflexivity.
Qed.

Lemma paste_one_over_full L pre b after post x fb :
  let d := l_doc L in
  let ps := pre ++ (b, after) :: post in
  let its := items_of (d_runs d) ps in
  let n := cpre pre in
  let L1 := fst (make_list L (fb_list fb)) in
  let k := if nilb after then 0 else 1 in
  wf d ps -> get_block d b = Some x -> text_only fb -> is_inline_only fb = false ->
  exists L' ps',
   paste_one_over L (get_multi d (map fst ps)) (set_b_pos x (Z.of_nat (cpre pre))) (length pre) after 0 fb
   = Ok (L', Z.of_nat (n + length (fb_text fb)), Z.of_nat k)
   /\ wf (l_doc L') ps'
   /\ items_of (d_runs (l_doc L')) ps' = spec_paste n [fb] its
   /\ d_nblocks (l_doc L') = (d_nblocks d + Z.of_nat k)%Z
   /\ length ps' = length ps + k
   /\ (after = [] -> fresh d ps -> fresh (l_doc L') ps')
   /\ para_attrs (l_doc L') = firstn (length pre) (para_attrs d)
        ++ Some (snd (make_list L (fb_list fb)), fb_fmt fb)
        :: map Some (if nilb after then [] else [(None, bfmt_default)]) ++ skipn (S (length pre)) (para_attrs d)
   /\ d_next (l_doc L') = (d_next d + N.of_nat k)%N
   /\ d_chars (l_doc L') = (d_chars d + Z.of_nat (length (fb_text fb)) - Z.of_nat (length after))%Z
   /\ l_lists L' = l_lists L1 /\ l_next L' = l_next L1.
Proof.
  intros d ps its n L1 k W Hx Ht Hin.
  pose proof (find_block_some _ _ _ Hx) as [Hid _].
  assert (As : at_start its n = true).
  { unfold its, n, ps. rewrite <- (Nat.add_0_r (cpre pre)), at_start_items by lia. reflexivity. }
  assert (Ae : at_end its n = nilb after).
  { unfold its, n, ps. rewrite <- (Nat.add_0_r (cpre pre)), at_end_items by lia. reflexivity. }
  assert (Wt : wf_runs after (d_runs d b)).
  { apply (wf_runs_in _ _ W). unfold ps. rewrite in_app_iff. right. now left. }
  unfold paste_one_over. cbv zeta. fold d. cbn [b_id b_pos b_list b_fmt set_b_pos]. rewrite Hid.
  rewrite (wf_images _ _ W). cbn [split_images_right filter map length].
  destruct (fb_state fb Ht) as (fr & -> & Wf & Sf). cbn [length]. rewrite ?Z.add_0_r.
  destruct (make_list L (fb_list fb)) as [L1' l] eqn:EL. cbn [fst snd] in *.
  set (cur := mk_block b (Z.of_nat (cpre pre)) l (fb_fmt fb)).
  destruct (head_set_ok d ps b x cur true fr W ltac:(eapply wf_in_mid, W) Hx eq_refl ltac:(discriminate)) as (H1 & H2 & H3).
  set (d1 := write_block_state (if true then update_block_full d cur else update_block d cur) b fr []) in *.
  change (write_block_state (update_block_full d cur) b fr []) with d1.
  set (pos0 := (Z.of_nat (cpre pre) + Z.of_nat (length (fb_text fb)) + 1)%Z).
  assert (Wt' : wf d ps) by exact W.
  set (made := if nilb after then [] else [(d_next d1, after)]).
  set (itss := if nilb after then [] else [styled after (split_runs_right (d_runs d b) 0)]).
  set (ats := if nilb after then [] else [(@None id, bfmt_default)]).
  assert (Sr : styled after (split_runs_right (d_runs d b) 0) = styled_from 0 after (d_runs d b)).
  { exact (split_right_styled [] after _ Wt). }
  assert (Wr : wf_runs after (split_runs_right (d_runs d b) 0)) by (exact (split_right_wf [] after _ Wt)).
  assert (Gt : exists d3, grown d1 d3 made itss (pos_from pos0 made) ats
    /\ (if (match after with [] => true | _ => false end) then Ok (d1, [], pos0)
       else
         let '(dt, ni) := create_block_at d1 pos0 None bfmt_default (S (length pre)) in
         let! tl_ := char_length dt ni in
         Ok (set_order (write_block_state dt ni (split_runs_right (d_runs d b) 0) [])
                       (order_insert (d_order d) (length pre) [ni]),
             [(ni, after)], (pos0 + tl_ + 1)%Z))
      = Ok (set_order d3 (order_insert (d_order d) (length pre) (map fst made)), made,
            if nilb after then pos0 else (pos0 + 1)%Z)).
  { unfold made, itss, ats. destruct after as [|c0 u0]; cbn [nilb].
    - exists d1. split; [apply grown_refl|]. do 3 f_equal.
      assert (Eo : order_insert (d_order d) (length pre) (map fst (@nil para)) = d_order d1).
      { cbn [map]. unfold ps in W. rewrite (order_mid _ _ _ _ _ _ W), (h_order _ _ _ _ H1), (wf_order _ _ W), map_app. reflexivity. }
      rewrite Eo. now destruct d1.
    - set (after := c0 :: u0) in *.
      pose proof (create_grown d1 pos0 None bfmt_default (S (length pre)) after _ Wr) as Gc.
      destruct (create_block_at d1 pos0 None bfmt_default (S (length pre))) as [dt ni] eqn:Ec.
      assert (En : ni = d_next d1) by (unfold create_block_at in Ec; congruence).
      assert (Er : d_rs dt = d_rs d).
      { unfold create_block_at in Ec. injection Ec as <- _. reflexivity. }
      subst ni. cbn [fst] in Gc.
      assert (El : char_length dt (d_next d1) = Ok 0%Z).
      { unfold char_length. rewrite Er. apply (length_absent d ps _ W). rewrite (h_next _ _ _ _ H1).
        intros Hq. apply (wf_next _ _ W) in Hq. lia. }
      rewrite El. cbn [bind]. exists (write_block_state dt (d_next d1) (split_runs_right (d_runs d b) 0) []). split.
      + exact Gc.
      + rewrite Z.add_0_r. reflexivity. }
  destruct Gt as (d3 & G3 & EG).
  match goal with |- context [bind ?e _] => match e with context [create_block_at] => set (tailres := e) end end.
  assert (Et : tailres = Ok (set_order d3 (order_insert (d_order d) (length pre) (map fst made)), made,
            if nilb after then pos0 else (pos0 + 1)%Z)).
  { rewrite <- EG. unfold tailres. destruct after; reflexivity. }
  rewrite Et. clear tailres Et EG. cbn [bind].
  destruct (assemble d d1 d3 pre b [] after post (fb_text fb) fr made _ _ _ W H1 Wf G3) as (rs1 & rs2 & R1 & R2 & W5 & I5).
  cbn [d_rs set_order app blen] in *. rewrite (g_rs _ _ _ _ _ _ G3), (h_rs _ _ _ _ H1), R1. cbn [bind]. rewrite R2. cbn [bind].
  match goal with |- context [shift_blocks _ _ ?e] => set (delta := e) end.
  match goal with |- context [set_chars (set_nblocks _ ?k) ?c] => set (kk := k); set (cc := c) end.
  destruct (one_finish d d1 d3 pre b [] after post (fb_text fb) fr made itss ats rs2 delta kk cc _ W H1 G3 W5 H2)
    as (W7 & Er & Ea & En & Ef).
  assert (Lm : length made = k) by (unfold made, k; now destruct (nilb after)).
  cbn [app] in *.
  match goal with |- context [Ok (?l, _, _)] => exists l, (pre ++ (b, fb_text fb) :: made ++ post) end.
  split; [|split; [exact W7|]].
  { f_equal. f_equal; [f_equal; lia|]. now rewrite Lm. }
  cbn [l_doc l_lists l_next]. split; [|split; [|split; [|split; [|split; [|split; [|split]]]]]].
  - etransitivity; [exact (f_equal (fun r => items_of r (pre ++ (b, fb_text fb) :: made ++ post)) Er)|].
    etransitivity; [exact I5|]. unfold spec_paste, sep_before, sep_after, fragment_items. cbn [rev app map join_paras length].
    rewrite Hin, As, Ae. cbn [orb negb Nat.eqb]. rewrite ?andb_true_r. cbn [app].
    unfold n, its, ps. rewrite <- (Nat.add_0_r (cpre pre)), firstn_items, skipn_items by lia. rewrite Sf.
    unfold itss. rewrite Sr. cbn [firstn skipn]. rewrite boff_0. cbn [styled styled_from]. rewrite app_nil_r.
    destruct after as [|c0 u0]; cbn [nilb flat_map app styled_from]; [now rewrite ?app_nil_r|]. repeat (rewrite <- ?app_assoc; cbn [app]). reflexivity.
  - cbn. unfold kk. now rewrite Lm.
  - unfold ps. rewrite !app_length. cbn [length]. rewrite app_length, Lm. lia.
  - intros Hnil F. apply Ef; [reflexivity| |exact F].
    unfold delta, made. rewrite Hnil. cbn [nilb length]. rewrite cpre_nil. unfold pos0. lia.
  - etransitivity; [exact Ea|]. rewrite H3. reflexivity.
  - etransitivity; [exact En|]. now rewrite Lm.
  - cbn. unfold cc. lia.
  - split; reflexivity.
Qed.

Lemma paste_one_split_full L pre b before after post x fb :
  let d := l_doc L in
  let t := before ++ after in
  let ps := pre ++ (b, t) :: post in
  let its := items_of (d_runs d) ps in
  let n := cpre pre + length before in
  let L1 := fst (make_list L (fb_list fb)) in
  wf d ps -> get_block d b = Some x -> text_only fb -> is_inline_only fb = false -> nilb before = false ->
  exists L' ps',
   paste_one_split L (get_multi d (map fst ps)) (set_b_pos x (Z.of_nat (cpre pre))) (length pre) t before after (blen before) fb
   = Ok (L', Z.of_nat (n + length after + length (fb_text fb) + 2), 1%Z)
   /\ wf (l_doc L') ps'
   /\ items_of (d_runs (l_doc L')) ps' = spec_paste n [fb] its
   /\ d_nblocks (l_doc L') = (d_nblocks d + 2)%Z
   /\ length ps' = length ps + 2
   /\ (after = [] -> fresh d ps -> fresh (l_doc L') ps')
   /\ para_attrs (l_doc L') = firstn (length pre) (para_attrs d)
        ++ Some (b_list x, b_fmt x) :: Some (snd (make_list L (fb_list fb)), fb_fmt fb) :: Some (b_list x, b_fmt x)
        :: skipn (S (length pre)) (para_attrs d)
   /\ d_next (l_doc L') = (d_next d + 2)%N
   /\ d_chars (l_doc L') = (d_chars d + Z.of_nat (length (fb_text fb)))%Z
   /\ l_lists L' = l_lists L1 /\ l_next L' = l_next L1.
Proof.
  intros d t ps its n L1 W Hx Ht Hin Hbn.
  assert (Hi : length before <= length t) by (unfold t; rewrite app_length; lia).
  assert (Ef0 : firstn (length before) t = before) by (unfold t; rewrite firstn_app, firstn_all, Nat.sub_diag, app_nil_r; easy).
  assert (Es0 : skipn (length before) t = after) by (unfold t; rewrite skipn_app, skipn_all, Nat.sub_diag; easy).
  pose proof (find_block_some _ _ _ Hx) as [Hid _].
  assert (As : at_start its n = false).
  { unfold its, n, ps. rewrite at_start_items by easy. now rewrite Ef0. }
  assert (Ae : at_end its n = nilb after).
  { unfold its, n, ps. rewrite at_end_items by easy. now rewrite Es0. }
  assert (Wt : wf_runs (before ++ after) (d_runs d b)).
  { apply (wf_runs_in _ _ W). unfold ps. rewrite in_app_iff. right. now left. }
  unfold paste_one_split. cbv zeta. fold d. cbn [b_id b_pos b_list b_fmt set_b_pos]. rewrite Hid.
  rewrite (wf_images _ _ W). cbn [split_images_left split_images_right filter map length].
  destruct (fb_state fb Ht) as (fr & -> & Wf & Sf). cbn [length]. rewrite ?Z.add_0_r.
  destruct (make_list L (fb_list fb)) as [L1' l] eqn:EL. cbn [fst snd] in *.
  set (cur := set_b_pos x (Z.of_nat (cpre pre))).
  set (hr := split_runs_left (d_runs d b) (blen before)).
  destruct (head_set_ok d ps b x cur false hr W ltac:(eapply wf_in_mid, W) Hx Hid ltac:(reflexivity)) as (H1 & H2 & H3).
  set (d1 := write_block_state (if false then update_block_full d cur else update_block d cur) b hr []) in *.
  change (write_block_state (update_block d cur) b hr []) with d1.
  assert (El : char_length d1 b = Ok (Z.of_nat (length t))).
  { unfold char_length. rewrite (h_rs _ _ _ _ H1). change (char_length d b = Ok (Z.of_nat (length t))).
    apply (wf_length_in _ _ _ _ W). unfold ps. rewrite in_app_iff. right. now left. }
  rewrite El. cbn [bind].
  set (pos0 := (Z.of_nat (cpre pre) + Z.of_nat (length t) + 1)%Z).
  set (pos2 := (pos0 + Z.of_nat (length (fb_text fb)) + 1)%Z).
  pose proof (create_grown d1 pos0 l (fb_fmt fb) (S (length pre)) (fb_text fb) fr Wf) as Gm.
  destruct (create_block_at d1 pos0 l (fb_fmt fb) (S (length pre))) as [dm mi] eqn:Em.
  assert (En : mi = d_next d1) by (unfold create_block_at in Em; congruence). subst mi. cbn [fst] in Gm.
  set (d2 := write_block_state dm (d_next d1) fr []) in *.
  assert (Wr : wf_runs after (split_runs_right (d_runs d b) (blen before))) by (exact (split_right_wf before after _ Wt)).
  assert (Sr : styled after (split_runs_right (d_runs d b) (blen before)) = styled_from (blen before) after (d_runs d b))
    by (exact (split_right_styled before after _ Wt)).
  assert (Sl : styled before hr = styled before (d_runs d b)) by (exact (split_left_styled before after _ Wt)).
  pose proof (create_grown d2 pos2 (b_list x) (b_fmt x) (S (S (length pre))) after _ Wr) as Gt.
  destruct (create_block_at d2 pos2 (b_list x) (b_fmt x) (S (S (length pre)))) as [dt ti] eqn:Et.
  assert (En : ti = d_next d2) by (unfold create_block_at in Et; congruence). subst ti. cbn [fst] in Gt.
  set (d3 := write_block_state dt (d_next d2) (split_runs_right (d_runs d b) (blen before)) []) in *.
  pose proof (grown_trans _ _ _ _ _ _ _ _ _ _ _ Gm Gt) as G3. cbn [app] in G3.
  set (made := [(d_next d1, fb_text fb); (d_next d2, after)]) in *.
  change [d_next d1; d_next d2] with (map fst made).
  assert (Whr : wf_runs (before ++ []) hr) by (rewrite app_nil_r; exact (split_left_wf before after _ Wt)).
  destruct (assemble d d1 d3 pre b before after post [] hr made _ _ _ W H1 Whr G3) as (rs1 & rs2 & R1 & R2 & W5 & I5).
  match goal with |- context [shift_blocks _ _ ?e] => set (delta := e) end.
  match goal with |- context [set_chars (set_nblocks _ ?k) ?c] => set (kk := k); set (cc := c) end.
  set (d4 := set_order d3 (order_insert (d_order d) (length pre) (map fst made))) in *.
  match goal with |- context [update_multi d4 ?u] => set (ups := u) end.
  assert (Er6 : d_rs (set_chars (set_nblocks (update_multi d4 ups) kk) cc) = d_rs d).
  { transitivity (d_rs (update_multi d4 ups)); [reflexivity|].
    assert (Emr : d_rs (update_multi d4 ups) = d_rs d4).
    { clear. unfold update_multi. revert ups. clearbody d4. intros u. revert d4. induction u as [|y u IH]; intros e; [easy|]. cbn [fold_left]. now rewrite IH. }
    rewrite Emr. unfold d4. cbn [d_rs set_order]. rewrite (g_rs _ _ _ _ _ _ G3). apply (h_rs _ _ _ _ H1). }
  rewrite Er6, R1. cbn [bind]. rewrite app_nil_r in R2. rewrite R2. cbn [bind].
  assert (Ec : set_rs (set_chars (set_nblocks (update_multi d4 ups) kk) cc) rs2
     = set_chars (set_nblocks (update_multi (set_rs d4 rs2) ups) kk) cc).
  { rewrite <- set_rs_multi. reflexivity. }
  rewrite Ec.
  destruct (one_finish d d1 d3 pre b before after post [] hr made _ _ rs2 delta kk cc _ W H1 G3 W5 H2)
    as (W7 & Er & Ea & En & Ef).
  rewrite app_nil_r in W7, I5, Ef.
  match goal with |- context [Ok (?l, _, _)] => exists l, (pre ++ (b, before) :: made ++ post) end.
  split; [|split; [exact W7|]].
  { f_equal. f_equal. f_equal. unfold pos2, pos0, n, t. rewrite app_length. lia. }
  cbn [l_doc l_lists l_next]. split; [|split; [|split; [|split; [|split; [|split; [|split]]]]]].
  - etransitivity; [exact (f_equal (fun r => items_of r (pre ++ (b, before) :: made ++ post)) Er)|].
    etransitivity; [exact I5|]. unfold spec_paste, sep_before, sep_after, fragment_items. cbn [rev app map join_paras length].
    rewrite Hin, As, Ae. cbn [orb negb Nat.eqb]. rewrite andb_false_r.
    unfold n, its, ps. rewrite firstn_items, skipn_items by easy. rewrite boff_split, Ef0, Es0, Sf, Sl, Sr.
    cbn [flat_map]. repeat (rewrite <- ?app_assoc; cbn [app]). reflexivity.
  - reflexivity.
  - unfold ps. rewrite !app_length. cbn [length]. rewrite app_length. cbn [length made]. lia.
  - intros Hnil F. apply Ef; [| |exact F].
    + unfold made. cbn [pos_from app]. unfold pos2, pos0, t. rewrite Hnil, app_nil_r. reflexivity.
    + unfold delta, made, pos2, pos0, t. rewrite Hnil, app_nil_r. rewrite !cpre_cons, cpre_nil. cbn [length]. lia.
  - etransitivity; [exact Ea|]. rewrite H3. reflexivity.
  - etransitivity; [exact En|]. reflexivity.
  - cbn. unfold cc. lia.
  - split; reflexivity.
Qed.
