(** Inserting parsed paragraphs into a well-formed document. *)
From Verif Require Import Base BaseFacts FormatRunsModel FormatRunsSpec FormatRunsFacts
  RopeModel RopeSpec RopeFacts DocModel DocSpec BlockFacts DocInv DocFacts DocAttr DocDelete DocBreak DocReplace
  DocImport DocFormat DocQuery ReplaceFacts DocFresh QueryModel QuerySpec QueryText ListModel ListDocModel
  FragmentModel FragmentText FragmentSpec FragmentRuns FragmentGrow FragmentFinish FragmentPaste
  ImportModel ImportSpec ImportFacts MdInsertModel MdInsertSpec MdInsertRope.
From Coq Require Import Permutation.

(** ** The paragraphs in order *)
Lemma weakly_unique : forall l l', weakly l -> weakly l' -> Permutation l l' ->
  (forall a b, In a l -> In b l -> b_pos a = b_pos b -> a = b) -> l = l'.
Proof.
  induction l as [|x l IH]; intros l' S S' P U; [now apply Permutation_nil in P|].
  destruct l' as [|y l']; [apply Permutation_sym, Permutation_nil in P; discriminate|].
  destruct S as [F Sl], S' as [F' Sl']. assert (x = y).
  { assert (Hx := Permutation_in _ P (or_introl eq_refl)). assert (Hy := Permutation_in _ (Permutation_sym P) (or_introl eq_refl)).
    destruct Hx as [<-|Hx]; [easy|]. destruct Hy as [<-|Hy]; [easy|]. apply U; [now left|now right|].
    assert (A := proj1 (Forall_forall _ _) F y Hy). assert (B := proj1 (Forall_forall _ _) F' x Hx). cbn in *. lia. }
  subst y. f_equal. apply IH; [easy|easy|now apply Permutation_cons_inv in P|]. intros a b Ha Hb. apply U; now right.
Qed.
Lemma get_multi_perm d : forall l l', Permutation l l' -> Permutation (get_multi d l) (get_multi d l').
Proof.
  induction 1 as [|i l l' P IH|i j l|a b c P1 IH1 P2 IH2]; cbn [get_multi]; [easy| | |now rewrite IH1].
  - destruct (get_block d i); [now constructor|easy].
  - destruct (get_block d i), (get_block d j); try easy. constructor.
Qed.
Lemma pos_from_bound l : forall z p, In p (pos_from z l) -> (z <= p)%Z.
Proof. induction l as [|[i t] l IH]; intros z p; [easy|]. intros [<-|H]; [lia|]. apply IH in H. lia. Qed.
Lemma pos_from_nodup l : forall z, NoDup (pos_from z l).
Proof.
  induction l as [|[i t] l IH]; intros z; [constructor|]. cbn [pos_from]. constructor; [|apply IH].
  intros H. apply pos_from_bound in H. lia.
Qed.
Lemma nodup_map_inj {A B} (f : A -> B) l a b : NoDup (map f l) -> In a l -> In b l -> f a = f b -> a = b.
Proof.
  induction l as [|x l IH]; [easy|]. cbn [map In]. intros N Ha Hb E. inversion N as [|? ? N1 N2]; subst.
  destruct Ha as [<-|Ha], Hb as [<-|Hb]; [easy| | |now apply IH].
  - exfalso. apply N1. rewrite E. now apply in_map.
  - exfalso. apply N1. rewrite <- E. now apply in_map.
Qed.
Lemma fresh_order d ps : wf d ps -> fresh d ps -> sort_blocks (get_multi d (d_fblocks d)) = get_multi d (map fst ps).
Proof.
  intros W F. assert (F0 := F). apply (fresh_list _ _ W) in F0. apply get_multi_pos in F0.
  assert (So : sort_blocks (get_multi d (map fst ps)) = get_multi d (map fst ps)).
  { apply sort_id, ascending_sorted. rewrite F0. apply pos_from_ascending. }
  apply weakly_unique.
  - apply sort_weakly.
  - rewrite <- So. apply sort_weakly.
  - rewrite sort_perm. apply get_multi_perm, (wf_fblocks _ _ W).
  - assert (P : Permutation (sort_blocks (get_multi d (d_fblocks d))) (get_multi d (map fst ps))).
    { rewrite sort_perm. apply get_multi_perm, (wf_fblocks _ _ W). }
    intros a b Ha Hb E. apply (Permutation_in _ P) in Ha, Hb. eapply nodup_map_inj; [|exact Ha|exact Hb|exact E].
    rewrite F0. apply pos_from_nodup.
Qed.
Lemma find_fresh d pre b t post i p :
  wf d (pre ++ (b, t) :: post) -> fresh d (pre ++ (b, t) :: post) -> i <= length t -> clipz (ctotal (pre ++ (b, t) :: post)) p = cpre pre + i ->
  exists x, get_block d b = Some x /\ b_pos x = Z.of_nat (cpre pre)
   /\ find_block_at_position d (get_multi d (map fst (pre ++ (b, t) :: post))) p = Ok (x, length pre, Z.of_nat i).
Proof.
  intros W F Hi Hp. destruct (find_in_order d pre b t post i p W Hi Hp (fresh_in_order _ _ W F)) as (x & Ex & Ef & Eb).
  rewrite Eb in Ef. assert (Px := proj1 (fresh_pos _ _ W) F pre b t post eq_refl). unfold pos_of in Px. rewrite Ex in Px. injection Px as Px.
  exists x. split; [easy|]. split; [easy|]. rewrite Ef. f_equal. f_equal. f_equal. rewrite <- Px. now destruct x.
Qed.

(** ** The text of a parsed paragraph *)
Lemma payload_is b : payload b = (fst (payload b), snd (payload b)).
Proof. reflexivity. Qed.
Lemma payload_ok b : wf_runs (fst (payload b)) (snd (payload b)) /\ styled (fst (payload b)) (snd (payload b)) = block_items b.
Proof. exact (runs_from_spans_ok (pb_code b) (pb_spans b)). Qed.
Lemma block_items_length b : length (block_items b) = length (fst (payload b)).
Proof. destruct (payload_ok b) as [_ <-]. apply styled_length. Qed.

Definition text_length (bs : list pblock) : nat := fold_right (fun b n => length (fst (payload b)) + n) 0 bs.

Lemma parsed_grown fmt bs : forall d idx pos,
  exists d' made, create_parsed fmt d idx pos bs
      = (d', made, Z.of_nat (text_length (map fst bs)), (pos + Z.of_nat (cpre made))%Z)
   /\ map snd made = map (fun x => fst (payload (fst x))) bs
   /\ grown d d' made (map (fun x => block_items (fst x)) bs) (pos_from pos made)
            (map (fun x => (snd x, fmt (fst x))) bs).
Proof.
  induction bs as [|[b l] bs IH]; intros d idx pos.
  - exists d, []. cbn. rewrite Z.add_0_r. repeat split; try apply grown_refl.
  - cbn [create_parsed]. destruct (payload_ok b) as [Wr Sr]. rewrite payload_is. set (t := fst (payload b)) in *. set (rs := snd (payload b)) in *.
    pose proof (create_grown d pos l (fmt b) idx t rs Wr) as G. rewrite Sr in G.
    destruct (create_block_at d pos l (fmt b) idx) as [d1 i] eqn:Ec.
    assert (Ei : i = d_next d) by (unfold create_block_at in Ec; congruence). subst i. cbn [fst] in G.
    destruct (IH (write_block_state d1 (d_next d) rs []) (S idx) (pos + Z.of_nat (length t) + 1)%Z) as (d' & made & -> & T & G2).
    exists d', ((d_next d, t) :: made). split; [|split].
    + f_equal; [f_equal|].
      * cbn [map fst text_length fold_right]. fold (text_length (map fst bs)). fold t. lia.
      * rewrite cpre_cons. lia.
    + cbn [map snd fst]. now rewrite T.
    + exact (grown_trans _ _ _ _ _ _ _ _ _ _ _ G G2).
Qed.

(** ** The paragraph cut in two *)
Lemma untouched_ok d ps b x hr : wf d ps -> In b (map fst ps) -> get_block d b = Some x -> forall touch : bool,
  let d1 := write_block_state (if touch then update_block d x else d) b hr [] in
  head_set d d1 b hr /\ pos_of d1 b = Some (b_pos x) /\ attr d1 b = Some (b_list x, b_fmt x).
Proof.
  intros W Hb Hx touch. pose proof (find_block_some _ _ _ Hx) as [Hid _]. destruct touch.
  - exact (head_set_ok d ps b x x false hr W Hb Hx Hid (fun _ => eq_refl)).
  - cbv zeta. split; [|split].
    + constructor; try reflexivity. intros q. cbn. unfold upd. destruct (N.eqb q b); [easy|apply (wf_images _ _ W)].
    + unfold pos_of. change (get_block (write_block_state d b hr []) b) with (get_block d b). now rewrite Hx.
    + unfold attr. change (get_block (write_block_state d b hr []) b) with (get_block d b). now rewrite Hx.
Qed.

Lemma join_in d d1 d3 pre b t post h hr made itss poss ats :
  wf d (pre ++ (b, t) :: post) -> (post = [] \/ 2 <= blen (jpost (segs post))) ->
  head_set d d1 b hr -> wf_runs h hr ->
  grown d1 d3 made itss poss ats ->
  let ps' := pre ++ (b, h) :: made ++ post in
  let d4 := set_order d3 (order_insert (d_order d) (length pre) (map fst made)) in
  exists e rs1 rs2, range_of (index (d_rs d)) (MBlock b) = Ok (Some (blen (jpre (segs pre)), e))
    /\ rope_replace_block_content (d_rs d) b h = Ok rs1 /\ block_char_length rs1 b = Ok (length h)
    /\ rope_add rs1 (blen (jpre (segs pre)) + blen h) made = Ok rs2
    /\ wf (set_rs d4 rs2) ps'
    /\ items_of (d_runs (set_rs d4 rs2)) ps'
       = ipre (d_runs d) pre ++ styled h hr ++ flat_map (cons Brk) itss ++ ipost (d_runs d) post.
Proof.
  intros W Hpost H Whr G ps' d4.
  pose proof (wf_rep _ _ W) as R. rewrite segs_mid in R.
  eexists. destruct (replace_rep _ _ _ _ h _ R) as (rs1 & E1 & R1).
  { destruct Hpost as [->|Hp]; [now left|now right]. }
  exists rs1.
  assert (Nx : forall q, In q (map fst made) -> (d_next d <= q < d_next d + N.of_nat (length made))%N).
  { intros q. rewrite (g_ids _ _ _ _ _ _ G), ids_from_in, (h_next _ _ _ _ H). easy. }
  destruct (add_rep made _ _ _ _ _ R1) as (rs2 & E2 & R2).
  { rewrite (g_ids _ _ _ _ _ _ G). apply ids_from_nodup. }
  { intros q Hq Hin. rewrite <- segs_mid, in_segs_fst in Hin. apply Nx in Hq.
    assert (Hin' : In q (map fst (pre ++ (b, t) :: post))) by (rewrite map_app in *; exact Hin).
    apply (wf_next _ _ W) in Hin'. lia. }
  exists rs2. split; [exact (rep_range _ _ _ _ _ R)|]. split; [easy|]. split; [exact (rep_char_length _ _ _ _ _ R1)|]. split; [easy|].
  assert (Nb : ~ In b (map fst made)).
  { intros Hb. apply Nx in Hb. pose proof (wf_next _ _ W b ltac:(eapply wf_in_mid, W)). lia. }
  assert (Rb : d_runs (set_rs d4 rs2) b = hr).
  { cbn. rewrite (g_out _ _ _ _ _ _ G) by easy. rewrite (h_runs _ _ _ _ H). unfold upd. now rewrite N.eqb_refl. }
  destruct (wf_grow d pre b t post (set_rs d4 rs2) h made W) as [W' I'].
  - cbn. rewrite segs_mid, segs_app. exact R2.
  - change (order_insert (d_order d) (length pre) (map fst made) = map fst (pre ++ (b, h) :: made ++ post)). rewrite (order_mid _ _ _ _ _ _ W), map_app. cbn [map fst]. now rewrite map_app.
  - cbn. rewrite (g_fblocks _ _ _ _ _ _ G), (h_fblocks _ _ _ _ H). reflexivity.
  - cbn. destruct (g_blocks _ _ _ _ _ _ G) as (nb & -> & Hid & _). rewrite map_app, Hid, (h_ids _ _ _ _ H). reflexivity.
  - now rewrite Rb.
  - intros c u Hin. cbn. pose proof (g_in _ _ _ _ _ _ G) as F. clear - F Hin. induction F as [|p its made itss [S _] F IH]; [easy|].
    destruct Hin as [->|Hin]; [exact S|auto].
  - intros q Hq1 Hq2. cbn. rewrite (g_out _ _ _ _ _ _ G) by easy. rewrite (h_runs _ _ _ _ H). unfold upd.
    now rewrite (proj2 (N.eqb_neq _ _) Hq1).
  - intros q. cbn. apply (g_images _ _ _ _ _ _ G). apply (h_images _ _ _ _ H).
  - intros q Hq. cbn. rewrite (g_next _ _ _ _ _ _ G), (h_next _ _ _ _ H). now apply Nx.
  - cbn. rewrite (g_next _ _ _ _ _ _ G), (h_next _ _ _ _ H). lia.
  - split; [exact W'|]. unfold ps'. rewrite I', Rb. do 3 f_equal. cbn. apply ipost_made.
    exact (g_in _ _ _ _ _ _ G).
Qed.

Definition opt_items (o : option pblock) : list item := match o with Some b => block_items b | None => [] end.
Definition opt_length (o : option pblock) : nat := match o with Some b => length (fst (payload b)) | None => 0 end.

Lemma head_in before lr (o : option pblock) : wf_runs before lr ->
  let '(ft, fr) := match o with Some b => payload b | None => ([], []) end in
  let hr := match o with Some _ => coalesce (lr ++ map (move_run (blen before)) fr) | None => lr end in
  length ft = opt_length o /\ wf_runs (before ++ ft) hr /\ styled (before ++ ft) hr = styled before lr ++ opt_items o.
Proof.
  intros Wb. destruct o as [b|]; [|cbn; now rewrite !app_nil_r]. rewrite payload_is. destruct (payload_ok b) as [Wf Sf].
  split; [easy|]. split; [now apply cat_runs_wf|]. rewrite cat_runs_styled by easy. cbn [opt_items]. now rewrite Sf.
Qed.
Lemma tail_in after rr (o : option pblock) : wf_runs after rr ->
  let '(lt, lr) := match o with Some b => payload b | None => ([], []) end in
  let tr := match o with Some _ => coalesce (lr ++ map (move_run (blen lt)) rr) | None => rr end in
  length lt = opt_length o /\ wf_runs (lt ++ after) tr /\ styled (lt ++ after) tr = opt_items o ++ styled after rr.
Proof.
  intros Wa. destruct o as [b|]; [|cbn; easy]. rewrite payload_is. destruct (payload_ok b) as [Wf Sf].
  split; [easy|]. split; [now apply cat_runs_wf|]. rewrite cat_runs_styled by easy. cbn [opt_items]. now rewrite Sf.
Qed.

Lemma split_full d pre b before after post x first mids last_ touch :
  let t := before ++ after in
  let ps := pre ++ (b, t) :: post in
  wf d ps -> fresh d ps -> get_block d b = Some x -> b_pos x = Z.of_nat (cpre pre) ->
  (post = [] \/ 2 <= blen (jpost (segs post))) ->
  let its := items_of (d_runs d) ps in
  let n := cpre pre + length before in
  let new := opt_items first ++ flat_map (cons Brk) (map (fun y => block_items (fst y)) mids) ++ [Brk] in
  exists d' ps', split_in d (get_multi d (map fst ps)) x (length pre) t (blen before) first mids last_ touch
     = Ok (d', Z.of_nat (n + length new), Z.of_nat (S (length mids)))
   /\ wf d' ps' /\ fresh d' ps'
   /\ items_of (d_runs d') ps' = firstn n its ++ new ++ opt_items last_ ++ skipn n its
   /\ d_nblocks d' = (d_nblocks d + Z.of_nat (S (length mids)))%Z
   /\ d_chars d' = (d_chars d + Z.of_nat (opt_length first + text_length (map fst mids) + opt_length last_))%Z
   /\ para_attrs d' = firstn (length pre) (para_attrs d)
        ++ map Some ((b_list x, b_fmt x) :: map (fun y => (snd y, inserted_fmt (fst y))) mids ++ [(b_list x, b_fmt x)])
        ++ skipn (S (length pre)) (para_attrs d).
Proof.
  intros t ps W F Hx Px Hpost its n new.
  assert (Hi : length before <= length t) by (unfold t; rewrite app_length; lia).
  assert (Ef : firstn (length before) t = before) by (unfold t; rewrite firstn_app, firstn_all, Nat.sub_diag, app_nil_r; easy).
  assert (Es : skipn (length before) t = after) by (unfold t; rewrite skipn_app, skipn_all, Nat.sub_diag; easy).
  assert (Wt : wf_runs (before ++ after) (d_runs d b)).
  { apply (wf_runs_in _ _ W). unfold ps. rewrite in_app_iff. right. now left. }
  pose proof (find_block_some _ _ _ Hx) as [Hid _].
  unfold split_in. cbv zeta. rewrite Hid.
  assert (S1 : byte_slice t 0 (blen before) = Ok before).
  { pose proof (slice_0_boff t (length before)) as H. rewrite boff_split, Ef in H. exact H. }
  assert (S2 : byte_slice t (blen before) (blen t) = Ok after).
  { pose proof (slice_boff_end t (length before)) as H. rewrite boff_split, Ef, Es in H. exact H. }
  rewrite S1, S2. cbn [bind]. rewrite (wf_images _ _ W). cbn [split_images_left split_images_right filter map length].
  pose proof (head_in before (split_runs_left (d_runs d b) (blen before)) first (split_left_wf _ _ _ Wt)) as Hh.
  destruct (match first with Some b0 => payload b0 | None => ([], []) end) as [ft fr]. cbv zeta in Hh.
  pose proof (tail_in after (split_runs_right (d_runs d b) (blen before)) last_ (split_right_wf _ _ _ Wt)) as Ht.
  destruct (match last_ with Some b0 => payload b0 | None => ([], []) end) as [lt lr]. cbv zeta in Ht.
  set (hr := match first with Some _ => _ | None => split_runs_left (d_runs d b) (blen before) end) in *.
  set (tr := match last_ with Some _ => _ | None => split_runs_right (d_runs d b) (blen before) end) in *.
  destruct Hh as (Lf & Whr & Shr), Ht as (Ll & Wtr & Str).
  destruct (untouched_ok d ps b x hr W ltac:(eapply wf_in_mid, W) Hx touch) as (H1 & H2 & H3).
  set (d1 := write_block_state (if touch then update_block d x else d) b hr []) in *.
  rewrite (h_rs _ _ _ _ H1).
  (* the new paragraphs *)
  set (pos0 := (Z.of_nat (cpre pre) + Z.of_nat (length (before ++ ft)) + 1)%Z).
  destruct (parsed_grown inserted_fmt mids d1 (S (length pre)) pos0) as (d2 & made & Ecp & Tm & G2).
  set (pos1 := (pos0 + Z.of_nat (cpre made))%Z) in *.
  pose proof (create_grown d2 pos1 (b_list x) (b_fmt x) (S (length pre) + length made) (lt ++ after) tr Wtr) as Gc.
  set (tl_ := lt ++ after) in *. set (ni := d_next d2) in *.
  set (d3 := write_block_state (fst (create_block_at d2 pos1 (b_list x) (b_fmt x) (S (length pre) + length made))) ni tr []) in *.
  set (made' := made ++ [(ni, tl_)]).
  assert (G3 : grown d1 d3 made' (map (fun y => block_items (fst y)) mids ++ [styled tl_ tr]) (pos_from pos0 made')
     (map (fun y => (snd y, inserted_fmt (fst y))) mids ++ [(b_list x, b_fmt x)])).
  { unfold made'. rewrite pos_from_app. cbn [pos_from]. fold pos1. exact (grown_trans _ _ _ _ _ _ _ _ _ _ _ G2 Gc). }
  destruct (join_in d d1 d3 pre b t post (before ++ ft) hr made' _ _ _ W Hpost H1 Whr G3) as (e & rs1 & rs2 & Er & R1 & Hl & R2 & W5 & I5).
  rewrite Er. cbn [bind]. rewrite R1. cbn [bind]. rewrite Hl. cbn [bind]. rewrite Px. fold pos0. rewrite Ecp.
  change (create_block_at d2 pos1 (b_list x) (b_fmt x) (S (length pre) + length made))
    with (fst (create_block_at d2 pos1 (b_list x) (b_fmt x) (S (length pre) + length made)), ni).
  cbv iota beta. fold made'. fold d3. rewrite R2. cbn [bind].
  assert (Tl : block_char_length rs2 ni = Ok (length tl_)).
  { pose proof (wf_rep _ _ W5) as R5. change (d_rs (set_rs (set_order d3 (order_insert (d_order d) (length pre) (map fst made'))) rs2)) with rs2 in R5.
    unfold made' in R5. rewrite <- app_assoc in R5. cbn [app] in R5. rewrite app_comm_cons, app_assoc, segs_mid in R5.
    exact (rep_char_length _ _ _ _ _ R5). }
  rewrite Tl. cbn [bind].
  match goal with |- context [shift_blocks _ _ ?v] => set (delta := v) end.
  match goal with |- context [set_chars _ ?v] => set (c := v) end.
  set (k := (d_nblocks d + Z.of_nat (length made'))%Z).
  destruct (one_finish d d1 d3 pre b before after post ft hr made' _ _ rs2 delta k c _ W H1 G3 W5 ltac:(now rewrite H2, Px)) as (W7 & Rn & At & _ & Fr).
  set (d7 := set_chars _ c) in *.
  assert (Lm : length made' = S (length mids)).
  { unfold made'. rewrite app_length. apply (f_equal (@length _)) in Tm. rewrite !map_length in Tm. cbn. lia. }
  assert (Cm : cpre made = length (flat_map (cons Brk) (map (fun y => block_items (fst y)) mids))).
  { clear - Tm. revert made Tm. induction mids as [|m mids IH]; intros [|[j u] made] Tm; try discriminate; [easy|]. cbn [map snd] in Tm. injection Tm as -> Tm.
    rewrite cpre_cons. cbn [map flat_map]. rewrite app_length, <- (IH _ Tm). cbn [length]. rewrite block_items_length. change (fst (payload (fst m))) with (span_text (pb_spans (fst m))). lia. }
  exists d7, (pre ++ (b, before ++ ft) :: made' ++ post).
  split; [|split; [exact W7|split; [|split; [|split; [|split]]]]].
  - f_equal. f_equal; [f_equal|now rewrite Lm].
    unfold pos1, pos0, new, n. rewrite !app_length, Cm, Lf. destruct first; cbn [opt_length opt_items length]; rewrite ?block_items_length; lia.
  - apply Fr; [reflexivity| |exact F]. unfold delta, made', pos1, pos0. rewrite cpre_app, cpre_one. unfold t. rewrite !app_length. lia.
  - rewrite Rn. etransitivity; [exact I5|]. unfold n, its, ps. rewrite firstn_items, skipn_items, boff_split, Ef, Es by easy.
    rewrite Shr, Str, (split_left_styled _ _ _ Wt), (split_right_styled _ _ _ Wt), flat_map_app. unfold new. cbn [flat_map app].
    repeat (rewrite <- ?app_assoc; cbn [app]). rewrite ?app_nil_r. reflexivity.
  - unfold d7, k. cbn [d_nblocks set_chars set_nblocks]. now rewrite Lm.
  - unfold d7, c. cbn [d_chars set_chars]. rewrite Lf, Ll. lia.
  - rewrite At, H3. cbn [map app]. reflexivity.
Qed.

(** ** One bare paragraph *)
Lemma merge_full d pre b t post i p x pb :
  let ps := pre ++ (b, t) :: post in
  let u := fst (payload pb) in
  let ps' := pre ++ (b, firstn i t ++ u ++ skipn i t) :: post in
  let its := items_of (d_runs d) ps in
  let n := cpre pre + i in
  wf d ps -> fresh d ps -> i <= length t -> get_block d b = Some x -> b_pos x = Z.of_nat (cpre pre) ->
  exists d', merge_in d (get_multi d (map fst ps)) x (length pre) p t (blen (firstn i t)) pb = Ok (d', (p + Z.of_nat (length u))%Z)
   /\ wf d' ps'
   /\ items_of (d_runs d') ps' = firstn n its ++ block_items pb ++ skipn n its
   /\ para_attrs d' = para_attrs d
   /\ d_chars d' = (d_chars d + Z.of_nat (length u))%Z
   /\ d_nblocks d' = d_nblocks d
   /\ fresh d' ps'.
Proof.
  intros ps u ps' its n W F Hi Hxd Px. pose proof (find_block_some _ _ _ Hxd) as [K3 _].
  set (bs := get_multi d (map fst ps)). set (k := length pre).
  unfold merge_in. rewrite K3, payload_is. fold u. destruct (payload_ok pb) as [Wf Sf]. set (fr := snd (payload pb)) in *. fold u in Wf, Sf.
  assert (F1 : firstn n its = ipre (d_runs d) pre ++ styled (firstn i t) (d_runs d b)) by (now apply firstn_items).
  assert (F2 : skipn n its = styled_from (blen (firstn i t)) (skipn i t) (d_runs d b) ++ ipost (d_runs d) post)
    by (now apply skipn_items).
  destruct (Z.of_nat (length (u)) =? 0)%Z eqn:E0.
  { assert (Et : u = []) by (clear - E0; destruct u; [easy|cbn in E0; lia]).
    exists d. cbn [bind]. clearbody fr. clearbody u. subst u. cbn [length Z.of_nat app] in *. rewrite Z.add_0_r.
    split; [reflexivity|]. unfold ps'. cbn [app]. rewrite firstn_skipn. split; [exact W|]. split.
    - rewrite <- Sf. cbn [styled styled_from app]. now rewrite firstn_skipn.
    - rewrite Z.add_0_r. repeat split. exact F. }
  pose proof (slice_0_boff t i) as S1. rewrite boff_split in S1. rewrite S1. cbn [bind]. cbn [write_block_state d_rs set_images set_runs update_block set_blocks].
  pose proof (wf_rep _ _ W) as R. unfold ps in R. rewrite segs_mid in R. rewrite <- (firstn_skipn i t) in R.
  destruct (rep_insert_in_block _ _ _ (firstn i t) (skipn i t) u _ R) as (rs & E & R2).
  rewrite E. cbn [bind].
  fold (paste_runs (d_runs d b) (blen (firstn i t)) (blen u) fr).
  set (n' := Z.of_nat (length u)).
  set (cur := x).
  assert (Hcur : b_id cur = b) by exact K3.
  assert (Ic : In (b_id cur) (map b_id (d_blocks d))) by (rewrite Hcur; eapply wf_has; [exact W|eapply wf_in_mid, W]).
  assert (Wr : wf_runs (firstn i t ++ skipn i t) (d_runs d b)) by (eapply wf_runs_split, W).
  set (d2 := set_rs _ rs).
  assert (M0 : meta d (update_block d cur)) by (now apply meta_update).
  destruct (wf_edit d pre b t post (firstn i t ++ u ++ skipn i t)
     (paste_runs (d_runs d b) (blen (firstn i t)) (blen u) fr) d2 W) as [W2 I2]; try reflexivity.
  { cbn. rewrite segs_mid. exact R2. }
  { now apply paste_runs_wf. }
  { exact (meta_ids _ _ M0). }
  { intros q. cbn. unfold upd. destruct (N.eqb q b); [rewrite ?(wf_images _ _ W); unfold shift_images_for_insert; now destruct (_ =? 0)|apply (wf_images _ _ W)]. }
  assert (A2 : same_attr d d2).
  { apply (same_attr_trans _ (update_block d cur)); [|now apply same_attr_blocks].
    apply attr_update. rewrite Hcur. unfold attr. now rewrite Hxd. }
  assert (Hups : forall y, In y (shift_blocks bs k n') -> In (b_id y) (map b_id (d_blocks d2)) /\ attr d2 (b_id y) = Some (b_list y, b_fmt y)).
  { intros y Hy. apply in_map_iff in Hy. destruct Hy as (z & <- & Hz). cbn [b_id b_list b_fmt set_b_pos].
    assert (Hz' : In z bs) by (rewrite <- (firstn_skipn (S k) bs), in_app_iff; now right).
    split.
    - rewrite (meta_ids _ _ M0 : map b_id (d_blocks d2) = _). apply get_multi_in in Hz'. apply in_map. tauto.
    - rewrite A2. now apply get_multi_attr in Hz'. }
  assert (M : meta d2 (update_multi d2 (shift_blocks bs k n'))).
  { apply meta_update_multi. intros q Hq. apply in_map_iff in Hq. destruct Hq as (y & <- & Hy). now apply Hups. }
  assert (A : same_attr d2 (update_multi d2 (shift_blocks bs k n'))).
  { apply attr_update_multi. intros y Hy. now apply Hups. }
  eexists. split; [reflexivity|]. set (d4 := set_chars _ _).
  assert (M4 : meta d2 d4) by (eapply meta_trans; [exact M|apply meta_chars]).
  assert (W4 : wf d4 ps') by (eapply wf_meta; [exact W2|exact M4]).
  split; [exact W4|]. split; [|split; [|split; [|split]]].
  - rewrite (meta_items _ _ _ M4). unfold ps'. rewrite I2, (paste_runs_styled _ _ _ _ _ Wr Wf), Sf, F1, F2.
    now rewrite <- !app_assoc.
  - transitivity (para_attrs d2).
    + apply para_attrs_same; [exact A|exact (meta_order _ _ M4)].
    + apply para_attrs_same; [exact A2|reflexivity].
  - reflexivity.
  - cbn [d4 d_nblocks set_chars]. now rewrite update_multi_nblocks.
  - assert (Eb : bs = get_multi d (map fst ps)) by reflexivity. assert (Ek : k = length pre) by reflexivity.
    apply (fresh_list _ _ W4). pose proof F as F0. apply (fresh_list _ _ W) in F0.
    assert (P : forall q, pos_of d4 q = match find_block (shift_blocks bs k n') q with
                          | Some y => Some (b_pos y) | None => pos_of d2 q end).
    { intros q. change (pos_of d4 q) with (pos_of (update_multi d2 (shift_blocks bs k n')) q). apply pos_update_multi.
      - rewrite Eb, Ek. unfold ps. rewrite (shift_ids _ _ _ _ _ _ W). eapply nodup_post, W.
      - intros y Hy. now apply Hups. }
    assert (P2 : forall q, pos_of d2 q = if N.eqb b q then Some (Z.of_nat (cpre pre)) else pos_of d q).
    { intros q. change (pos_of d2 q) with (pos_of (update_block d cur) q). rewrite pos_update by exact Ic. rewrite Hcur. unfold cur. now rewrite Px. }
    pose proof (nodup_mid _ _ _ _ (wf_nodup _ _ W)) as [N1 N2].
    assert (Npp : forall q, In q (map fst pre) -> ~ In q (map fst post)).
    { intros q Q1 Q2. pose proof (wf_nodup _ _ W) as ND. unfold ps in ND. rewrite map_app in ND.
      apply (nodup_app_disj _ _ q ND Q1). now right. }
    assert (Pout : forall q, ~ In q (map fst post) -> pos_of d4 q = pos_of d2 q).
    { intros q Hq. rewrite P, find_block_none; [easy|]. rewrite Eb, Ek. unfold ps. now rewrite (shift_ids _ _ _ _ _ _ W). }
    assert (Ppost : forall q, In q (map fst post) -> pos_of d4 q = option_map (fun z => z + n')%Z (pos_of d q)).
    { intros q Hq. rewrite P. unfold shift_blocks. rewrite find_shift by easy. rewrite Eb, Ek.
      rewrite <- (skipn_ids _ _ _ _ _ W) in Hq. unfold ps.
      destruct (find_block_in _ _ Hq) as (y & -> & Iy & Hy). cbn [option_map b_pos set_b_pos].
      assert (Hyb : In y (get_multi d (map fst ps))) by (rewrite <- (firstn_skipn (S (length pre)) (get_multi d (map fst ps))), in_app_iff; now right).
      apply get_multi_get in Hyb. rewrite Iy in Hyb. unfold pos_of. rewrite Hyb. reflexivity. }
    unfold ps, ps' in *. rewrite !map_app in F0. cbn [map fst] in F0. rewrite pos_from_app in F0. cbn [pos_from] in F0.
    rewrite map_app in F0. cbn [map] in F0.
    apply app_inv_length in F0; [|rewrite !map_length; clear; generalize 0%Z; induction pre as [|[j u] l IH]; intros z; cbn; auto].
    destruct F0 as [G1 G2]. injection G2 as _ G3.
    rewrite map_app. cbn [map fst]. rewrite map_app. cbn [map]. rewrite pos_from_app. cbn [pos_from]. rewrite map_app. cbn [map].
    rewrite Z.add_0_l in *. f_equal; [|f_equal].
    + rewrite <- G1. apply map_ext_in. intros q Hq. rewrite Pout by auto. rewrite P2.
      destruct (N.eqb_spec b q); [congruence|easy].
    + rewrite Pout, P2, N.eqb_refl by easy. reflexivity.
    + rewrite (map_ext_in _ (fun q => option_map (fun z => z + n')%Z (pos_of d q))) by (intros q Hq; now apply Ppost).
      rewrite <- (map_map (pos_of d) (option_map (fun z => z + n')%Z)), G3, map_map. cbn [option_map].
      rewrite <- (map_map (fun z => z + n')%Z Some), <- pos_from_plus. do 2 f_equal.
      rewrite !app_length, firstn_length, skipn_length. unfold n'. lia.
Qed.
