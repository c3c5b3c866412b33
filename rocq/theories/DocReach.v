(** Reachable documents are well formed; every edit in terms of items. *)
From Verif Require Import Base BaseFacts FormatRunsModel FormatRunsSpec FormatRunsFacts
  RopeModel RopeSpec RopeFacts DocModel DocSpec BlockFacts DocInv DocFacts DocAttr DocDelete DocBreak DocReplace
  DocImport DocFormat HistModel SearchModel ReplaceFacts ListDocModel FragmentModel FragmentText FragmentSpec FragmentInsert ImportModel ImportFacts.
From Coq Require Import Permutation.

(** ** One operation on a well-formed document *)

Lemma op_insert d ps p text : wf d ps ->
  let its := items_of (d_runs d) ps in
  exists d' u ps', insert_text_simple d p text = Ok (d', Z.of_nat (clip its p + length text), u)
   /\ wf d' ps' /\ items_of (d_runs d') ps' = spec_insert (clip its p) text its
   /\ para_attrs d' = para_attrs d
   /\ (d_chars d' - Z.of_nat (csum ps') = d_chars d - Z.of_nat (csum ps))%Z
   /\ (d_nblocks d' - Z.of_nat (length ps') = d_nblocks d - Z.of_nat (length ps))%Z
   /\ d_next d' = d_next d.
Proof.
  intros W its. destruct (wf_loc _ _ p W) as (pre & b & t & post & i & -> & Hi & Hp).
  destruct (insert_simple_full _ _ _ _ _ _ _ text W Hi Hp)
    as (d' & x & _ & E & W' & I & B1 & B2 & B3 & B4 & B5 & B6 & _).
  unfold its. rewrite clip_items, Hp. eexists d', _, _. split; [exact E|]. split; [exact W'|]. split; [exact I|].
  split; [|split; [|split]].
  - apply para_attrs_same; [now apply same_attr_blocks|easy].
  - rewrite B2, !csum_app, !csum_cons. unfold ins_text. rewrite !app_length, firstn_length, skipn_length. lia.
  - rewrite B3, !app_length. cbn [length]. lia.
  - exact B4.
Qed.

Lemma op_break d ps p : wf d ps ->
  let its := items_of (d_runs d) ps in
  exists d' ps', insert_block d p = Ok (d', Z.of_nat (clip its p + 1), d_next d)
   /\ wf d' ps' /\ items_of (d_runs d') ps' = spec_break (clip its p) its
   /\ (let k := breaks (clip its p) its in
       para_attrs d' = firstn (S k) (para_attrs d) ++ skipn k (para_attrs d))
   /\ (d_chars d' - Z.of_nat (csum ps') = d_chars d - Z.of_nat (csum ps))%Z
   /\ (d_nblocks d' - Z.of_nat (length ps') = d_nblocks d - Z.of_nat (length ps))%Z
   /\ d_next d' = N.succ (d_next d).
Proof.
  intros W its. destruct (wf_loc _ _ p W) as (pre & b & t & post & i & -> & Hi & Hp).
  destruct (insert_block_full _ _ _ _ _ _ _ W Hi Hp) as (d' & E & W' & I & A & C1 & C2 & C3).
  unfold its. rewrite clip_items, Hp. eexists d', _. split; [exact E|]. split; [exact W'|]. split; [exact I|].
  split; [|split; [|split]].
  - rewrite breaks_items by easy. exact A.
  - rewrite C1, !csum_app, !csum_cons, firstn_length, skipn_length. lia.
  - rewrite C2, !app_length. cbn [length]. lia.
  - exact C3.
Qed.

Lemma op_delete d ps p a : wf d ps ->
  let its := items_of (d_runs d) ps in
  let s := clip its (Z.min p a) in
  let e := clip its (Z.max p a) in
  exists d' ps', delete_text d p a = Ok (d', Z.min p a, plain (firstn (e - s) (skipn s its)))
   /\ wf d' ps' /\ items_of (d_runs d') ps' = spec_delete s e its
   /\ ((p <> a)%Z -> para_attrs d' = firstn (S (breaks s its)) (para_attrs d) ++ skipn (S (breaks e its)) (para_attrs d))
   /\ ((0 <= Z.min p a)%Z -> (Z.max p a <= Z.of_nat (length its))%Z ->
       (d_chars d' - Z.of_nat (csum ps') = d_chars d - Z.of_nat (csum ps))%Z)
   /\ (d_nblocks d' - Z.of_nat (length ps') = d_nblocks d - Z.of_nat (length ps))%Z
   /\ d_next d' = d_next d.
Proof.
  intros W its s e. destruct (Z.eq_dec p a) as [->|Hpa].
  - exists d, ps. unfold s, e. rewrite Z.min_id, Z.max_id, Nat.sub_diag. unfold delete_text. rewrite Z.eqb_refl.
    split; [easy|]. split; [exact W|]. split; [unfold spec_delete; now rewrite firstn_skipn|]. repeat split. easy.
  - destruct (delete_full _ _ p a W Hpa) as (d' & cut & ps' & E & D & C). unfold s, e, its.
    rewrite !clip_items. exists d', ps'. rewrite E. destruct D as [D1 D2 D3 D4 D5 D6].
    split; [now rewrite D3|]. split; [exact D1|]. split; [exact D2|]. split; [easy|].
    rewrite items_length. auto.
Qed.

Lemma op_replace d ps p a text : wf d ps ->
  let its := items_of (d_runs d) ps in
  let s := clip its (Z.min p a) in
  let e := clip its (Z.max p a) in
  insert_text_selection d p a text = Err
  \/ exists d' ps', insert_text_selection d p a text = Ok (d', Z.of_nat (s + length text))
   /\ wf d' ps' /\ items_of (d_runs d') ps' = spec_insert s text (spec_delete s e its)
   /\ para_attrs d' = para_attrs d
   /\ (d_chars d' - Z.of_nat (csum ps') = d_chars d - Z.of_nat (csum ps))%Z
   /\ (d_nblocks d' - Z.of_nat (length ps') = d_nblocks d - Z.of_nat (length ps))%Z
   /\ d_next d' = d_next d
   /\ breaks s its = breaks e its.
Proof.
  intros W its s e. unfold s, e, its. rewrite !clip_items.
  destruct (locate2 ps (clipz (ctotal ps) (Z.min p a)) (clipz (ctotal ps) (Z.max p a)) (wf_ne _ _ W))
    as [(pre & b & t & post & i & j & -> & Hij & Hj & Es & Ee)
    |(pre & b & t & mid & c & u & post & i & j & -> & Hi & Hj & Es & Ee)].
  - apply clipz_mono. lia.
  - apply clipz_le.
  - right. destruct (selection_same _ _ _ _ _ _ _ _ _ text W Hij Hj Es Ee) as (d' & E & W' & I & A & C1 & C2 & C3).
    rewrite Es, Ee. eexists d', _. split; [exact E|]. split; [exact W'|]. split; [exact I|]. split; [exact A|].
    split; [|split; [|split]].
    + rewrite C1, !csum_app, !csum_cons, !app_length, firstn_length, skipn_length. lia.
    + rewrite C2, !app_length. cbn [length]. lia.
    + exact C3.
    + rewrite !breaks_items by lia. easy.
  - left. eapply selection_cross; eassumption.
Qed.

Lemma op_insert_fmt d ps p text f : wf d ps -> (0 <= p)%Z -> text <> [] ->
  let its := items_of (d_runs d) ps in
  exists d' u ps', insert_formatted_simple d p text f = Ok (d', (p + Z.of_nat (length text))%Z, u)
   /\ wf d' ps' /\ items_of (d_runs d') ps' = spec_insert_fmt (clip its p) text f its
   /\ para_attrs d' = para_attrs d
   /\ (d_chars d' - Z.of_nat (csum ps') = d_chars d - Z.of_nat (csum ps))%Z
   /\ (d_nblocks d' - Z.of_nat (length ps') = d_nblocks d - Z.of_nat (length ps))%Z
   /\ d_next d' = d_next d.
Proof.
  intros W Hp0 Hne its. destruct (wf_loc _ _ p W) as (pre & b & t & post & i & -> & Hi & Hp).
  destruct (insert_formatted_simple_full _ _ _ _ _ _ _ text f W Hp0 Hi Hne Hp)
    as (d' & x & _ & E & W' & I & A & B1 & B2 & B3 & B4 & _).
  unfold its. rewrite clip_items, Hp. eexists d', _, _. split; [exact E|]. split; [exact W'|]. split; [exact I|].
  split; [exact A|]. split; [|split; [|exact B4]].
  - rewrite B2, !csum_app, !csum_cons. unfold ins_text. rewrite !app_length, firstn_length, skipn_length. lia.
  - rewrite B3, !app_length. cbn [length]. lia.
Qed.

Lemma op_replace_fmt d ps p a text f : wf d ps -> (0 <= Z.min p a)%Z -> text <> [] ->
  let its := items_of (d_runs d) ps in
  let s := clip its (Z.min p a) in
  let e := clip its (Z.max p a) in
  insert_formatted_selection d p a text f = Err
  \/ exists d' ps', insert_formatted_selection d p a text f = Ok (d', (Z.min p a + Z.of_nat (length text))%Z)
   /\ wf d' ps' /\ items_of (d_runs d') ps' = spec_insert_fmt s text f (spec_delete s e its)
   /\ para_attrs d' = para_attrs d
   /\ (d_chars d' - Z.of_nat (csum ps') = d_chars d - Z.of_nat (csum ps))%Z
   /\ (d_nblocks d' - Z.of_nat (length ps') = d_nblocks d - Z.of_nat (length ps))%Z
   /\ d_next d' = d_next d.
Proof.
  intros W Hp0 Hne its s e. unfold s, e, its. rewrite !clip_items.
  destruct (locate2 ps (clipz (ctotal ps) (Z.min p a)) (clipz (ctotal ps) (Z.max p a)) (wf_ne _ _ W))
    as [(pre & b & t & post & i & j & -> & Hij & Hj & Es & Ee)
    |(pre & b & t & mid & c & u & post & i & j & -> & Hi & Hj & Es & Ee)].
  - apply clipz_mono. lia.
  - apply clipz_le.
  - right. destruct (formatted_selection_same _ _ _ _ _ _ _ _ _ text f W Hp0 Hij Hj Hne Es Ee)
      as (d' & E & W' & I & A & C1 & C2 & C3).
    rewrite Es, Ee. eexists d', _. split; [exact E|]. split; [exact W'|]. split; [exact I|]. split; [exact A|].
    split; [|split; [|exact C3]].
    + rewrite C1, !csum_app, !csum_cons, !app_length, firstn_length, skipn_length. lia.
    + rewrite C2, !app_length. cbn [length]. lia.
  - left. eapply formatted_selection_cross; eassumption.
Qed.

(** ** Reachable documents *)

Lemma reach_wf d : reach d -> exists ps, wf d ps.
Proof.
  induction 1 as [|d s _ [ps W]|d p text d' np u _ [ps W] E|d p a text d' np _ [ps W] E
    |d p a d' np cut _ [ps W] E|d p d' np i _ [ps W] E|d m p a d' ivs _ [ps W] E|d q p a d' _ [ps W] E
    |d p text f d' np u _ [ps W] Hne Hp E|d p a text f d' np _ [ps W] Hne Hp E|d ms all r d' n s _ [ps W] E|d snap _ [ps W] _ [ps' W'] Hn|d i l _ [ps W]
    |L fbs p L' np k _ [ps W] Ht Ho E|html L bs _ [ps W] Hbs].
  - eexists. apply new_wf.
  - eexists. apply (import_full _ _ s W).
  - destruct (op_insert _ _ p text W) as (d1 & u1 & ps1 & E1 & W1 & _). rewrite E1 in E. injection E as <- _ _. eauto.
  - destruct (op_replace _ _ p a text W) as [E1|(d1 & ps1 & E1 & W1 & _)]; rewrite E1 in E; [easy|]. injection E as <- _. eauto.
  - destruct (op_delete _ _ p a W) as (d1 & ps1 & E1 & W1 & _). rewrite E1 in E. injection E as <- _ _. eauto.
  - destruct (op_break _ _ p W) as (d1 & ps1 & E1 & W1 & _). rewrite E1 in E. injection E as <- _ _. eauto.
  - destruct (format_text_full m _ _ p a W) as (d1 & iv1 & E1 & W1 & _). rewrite E1 in E. injection E as <- _. eauto.
  - destruct (set_block_format_full q _ _ p a W) as (d1 & E1 & W1 & _). rewrite E1 in E. injection E as <-. eauto.
  - destruct (op_insert_fmt _ _ p text f W Hp Hne) as (d1 & u1 & ps1 & E1 & W1 & _). rewrite E1 in E. injection E as <- _ _. eauto.
  - destruct (op_replace_fmt _ _ p a text f W Hp Hne) as [E1|(d1 & ps1 & E1 & W1 & _)]; rewrite E1 in E; [easy|]. injection E as <- _. eauto.
  - destruct (op_matches _ _ ms all r W) as (d1 & n1 & s1 & ps1 & E1 & W1 & _). rewrite E1 in E. injection E as <- _ _. eauto.
  - exists ps'. destruct W'. constructor; try assumption. intros b Hb. cbn. specialize (wf_next b Hb). cbn in *. lia.
  - exists ps. eapply wf_meta; [exact W|apply meta_set_list].
  - assert (Hne : fbs <> []) by (now intros ->).
    destruct (insert_fragment_full _ _ p _ W Hne Ht Ho) as (L1 & ps1 & n1 & k1 & E1 & W1 & _). rewrite E1 in E.
    injection E as <- _ _. eauto.
  - eexists. apply (import_parsed_full html _ _ _ W Hbs).
Qed.

(** ** Counting *)

Lemma count_app a b : count_chars (a ++ b) = count_chars a + count_chars b.
Proof. unfold count_chars. now rewrite filter_app, app_length. Qed.
Lemma count_styled off t runs : count_chars (styled_from off t runs) = length t.
Proof. revert off; induction t as [|c t IH]; intros off; cbn; [easy|]. unfold count_chars in IH. now rewrite IH. Qed.
Lemma breaks_styled off t runs : filter is_break (styled_from off t runs) = [].
Proof. revert off; induction t as [|c t IH]; intros off; cbn; [easy|]. apply IH. Qed.

Lemma count_items R ps : ps <> [] -> count_chars (items_of R ps) = csum ps /\ count_paras (items_of R ps) = length ps.
Proof.
  destruct ps as [|[b t] ps]; [easy|]. intros _. rewrite items_cons.
  assert (H : count_chars (ipost R ps) = csum ps /\ length (filter is_break (ipost R ps)) = length ps).
  { induction ps as [|[c u] ps [I1 I2]]; [easy|]. rewrite ipost_cons.
    change (Brk :: styled u (R c) ++ ipost R ps) with ([Brk] ++ styled u (R c) ++ ipost R ps).
    rewrite !count_app, !filter_app, !app_length, I1, csum_cons. unfold styled.
    rewrite count_styled, breaks_styled, I2. cbn. split; lia. }
  destruct H as [H1 H2]. rewrite count_app, csum_cons, H1. unfold count_paras.
  rewrite filter_app, app_length. unfold styled. rewrite count_styled, breaks_styled, H2. cbn. split; lia.
Qed.

(** ** Plain text *)

Lemma export_wf d ps : wf d ps -> export_plain_text d = Ok (join (map snd ps)).
Proof.
  intros W. unfold export_plain_text, rope_flat_text_if_simple. cbn [Nat.eqb negb].
  pose proof (wf_rep _ _ W) as R. rewrite (rep_entries _ _ R).
  assert (H : forall off, existsb (fun e => is_anchor_marker (fst e)) (starts off (segs ps)) = false).
  { clear. induction ps as [|[b t] ps IH]; intros off; [easy|]. cbn. apply IH. }
  rewrite H, (rep_rope _ _ R), segs_snd. reflexivity.
Qed.

Lemma export_items d its : reach d -> doc_items d = Ok its -> export_plain_text d = Ok (plain its).
Proof.
  intros H E. destruct (reach_wf _ H) as [ps W]. rewrite (doc_items_wf _ _ W) in E. injection E as <-.
  now rewrite plain_items, (export_wf _ _ W).
Qed.
