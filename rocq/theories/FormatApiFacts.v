(** Proofs about the formats of the public API. *)
From Verif Require Import Base BaseFacts FormatRunsModel FormatRunsSpec FormatRunsFacts
  RopeModel RopeSpec RopeFacts DocModel DocSpec BlockFacts DocInv DocFacts DocAttr DocDelete DocBreak DocReplace
  DocImport DocFormat HistModel HistSpec DocReach DocHist DocQuery DocFresh QueryModel QuerySpec QueryFacts QueryText
  PropSpec DocTheorems SearchModel SearchSpec ReplaceExact
  ListModel ListDocModel FragmentModel FragmentText FragmentSpec FragmentFinish FragmentInsert DeletePos ImportModel ImportFacts QueryTheorems FormatApiModel FormatApiSpec.
From Coq Require Import SpecFloat.

(** ** Casts *)
Lemma u8_fit v : is_u8 v -> option_map u8 v = v.
Proof. destruct v as [n|]; cbn; [|easy]. intros H. unfold u8, as_u. rewrite Z.mod_small by lia. easy. Qed.
Lemma u32_fit v : is_u32 v -> option_map u32 v = v.
Proof. destruct v as [n|]; cbn; [|easy]. intros H. unfold u32, as_u. rewrite Z.mod_small by lia. easy. Qed.
Lemma i32_fit v : is_i32 v -> option_map i32 v = v.
Proof.
  destruct v as [n|]; cbn; [|easy]. intros H. unfold i32, as_i. change (2 ^ (32 - 1))%Z with 2147483648%Z.
  change (2 ^ 32)%Z with 4294967296%Z. rewrite Z.mod_small by lia. do 2 f_equal. lia.
Qed.

Lemma takes_plain {A} (new old : option A) : takes new old (over new old).
Proof. now destruct new. Qed.
Lemma takes_cast (g : Z -> Z) new old : option_map g new = new -> takes new (option_map g old) (option_map g (over new old)).
Proof. intros E. destruct new as [v|]; cbn in *; [|easy]. exact E. Qed.

(** ** Characters *)
Lemma find_fmt_at runs k : find (fun r => (rstart r <=? k) && (k <? rend r)) runs = None -> fmt_at runs k = None.
Proof.
  induction runs as [|r rest IH]; [easy|]. cbn [find fmt_at]. unfold FormatRunsSpec.covers. destruct (_ && _); [easy|exact IH].
Qed.
Lemma find_fmt_some runs k r : find (fun r => (rstart r <=? k) && (k <? rend r)) runs = Some r -> fmt_at runs k = Some (rfmt r).
Proof.
  induction runs as [|x rest IH]; [easy|]. cbn [find fmt_at]. unfold FormatRunsSpec.covers. destruct (_ && _); [congruence|exact IH].
Qed.
Lemma t_of_default : t_of cfmt_default = tfmt_default.
Proof. reflexivity. Qed.
Lemma read_run runs k :
  match find (fun r => (rstart r <=? k) && (k <? rend r)) runs with Some r => t_of (rfmt r) | None => tfmt_default end
  = t_of (eff_at runs k).
Proof.
  unfold eff_at. destruct (find _ runs) as [r|] eqn:E.
  - now rewrite (find_fmt_some _ _ _ E).
  - now rewrite (find_fmt_at _ _ E).
Qed.
Lemma styled_from_nth t : forall runs o i c, nth_error t i = Some c ->
  nth_error (styled_from o t runs) i = Some (Chr c (eff_at runs (o + boff t i))).
Proof.
  induction t as [|x t IH]; intros runs o [|i] c H; try easy; cbn [styled_from nth_error] in *.
  - injection H as ->. rewrite boff_0. do 3 f_equal. lia.
  - rewrite (IH runs (o + utf8_len x) i c H), boff_cons. do 3 f_equal. lia.
Qed.
Lemma runs_end t runs : wf_runs t runs -> eff_at runs (blen t) = cfmt_default.
Proof.
  intros (_ & _ & E). unfold eff_at. rewrite fmt_at_above; [easy|]. unfold edges in E. rewrite Forall_forall in *.
  intros r Hr. destruct (E r Hr) as [_ (i & _ & ->)]. apply boff_le.
Qed.

Lemma items_nth_chr R pre b t post i c : nth_error t i = Some c ->
  nth_error (items_of R (pre ++ (b, t) :: post)) (cpre pre + i) = Some (Chr c (eff_at (R b) (boff t i))).
Proof.
  intros H. assert (Hi : i < length t) by (apply nth_error_Some; congruence).
  rewrite items_mid, nth_error_app2 by (rewrite ipre_length; lia). rewrite ipre_length.
  replace (cpre pre + i - cpre pre) with i by lia.
  rewrite nth_error_app1 by (unfold styled; rewrite styled_length; lia). unfold styled.
  rewrite (styled_from_nth _ _ _ _ _ H). reflexivity.
Qed.

(** Reading in a paragraph found by position. *)
Lemma char_format_in d pre b t post pos s n k : wf d (pre ++ (b, t) :: post) ->
  block_at_position d (Z.of_nat pos) = Ok (b, s, n, k) ->
  cursor_char_format d pos = Ok (match nth_error t (pos - cpre pre) with
                                 | Some c => t_of (eff_at (d_runs d b) (boff t (pos - cpre pre)))
                                 | None => tfmt_default end).
Proof.
  intros W E. unfold cursor_char_format. rewrite E. cbn [bind]. destruct (wf_get_mid _ _ _ _ _ W) as [x Ex]. rewrite Ex.
  pose proof (find_block_some _ _ _ Ex) as [Hx _]. rewrite (refreshed_wf _ _ _ _ _ x W Hx). cbn [bind].
  rewrite (wf_content _ _ _ _ _ W). cbn [bind set_b_pos b_pos]. rewrite Nat2Z.id, (wf_images _ _ W b). cbn [find].
  rewrite read_run. destruct (nth_error t (pos - cpre pre)) as [c|] eqn:Ec.
  - assert (pos - cpre pre < length t) as H by (apply nth_error_Some; congruence).
    destruct (Nat.ltb_spec (pos - cpre pre) (length t)); [easy|lia].
  - apply nth_error_None in Ec. destruct (Nat.ltb_spec (pos - cpre pre) (length t)); [lia|].
    rewrite runs_end; [easy|]. apply (wf_runs_in _ _ W). rewrite in_app_iff. right. now left.
Qed.

Lemma clipz_nat total pos : clipz total (Z.of_nat pos) = Nat.min pos total.
Proof. unfold clipz. lia. Qed.

Definition as_read (f : option cfmt) : tfmt := match f with Some f => t_of f | None => tfmt_default end.
Lemma char_format_wf d ps pos : wf d ps -> cursor_char_format d pos = Ok (as_read (format_here (items_of (d_runs d) ps) pos)).
Proof.
  intros W. destruct (wf_loc _ _ (Z.of_nat pos) W) as (pre & b & t & post & i & -> & Hi & Hp).
  pose proof (block_at_full _ _ _ _ _ _ _ W Hi Hp) as E. rewrite clipz_nat in Hp.
  assert (Ht : ctotal (pre ++ (b, t) :: post) = length (items_of (d_runs d) (pre ++ (b, t) :: post))).
  { now rewrite items_length by (now destruct pre). }
  destruct (Nat.ltb_spec i (length t)) as [Hlt|Hge].
  - destruct (nth_error t i) as [c|] eqn:Ec; [|apply nth_error_None in Ec; lia].
    assert (Hpos : pos = cpre pre + i).
    { pose proof (items_nth_chr (d_runs d) pre b t post i c Ec) as Hn.
      assert (cpre pre + i < ctotal (pre ++ (b, t) :: post)) by (rewrite Ht; apply nth_error_Some; congruence). lia. }
    unfold format_here. rewrite Hpos at 2. rewrite (items_nth_chr _ _ _ _ _ _ _ Ec). cbn [as_read].
    replace (i =? length t) with false in E by lia. rewrite andb_false_r in E.
    assert (E' : block_at_position d (Z.of_nat pos) = Ok (b, Z.of_nat (cpre pre), Z.of_nat (length t), Z.of_nat (length pre)))
      by (destruct post as [|[? ?] ?]; exact E).
    rewrite (char_format_in _ _ _ _ _ _ _ _ _ W E'). replace (pos - cpre pre) with i by lia. now rewrite Ec.
  - assert (i = length t) by lia. subst i. pose proof (items_nth_end (d_runs d) pre b t post) as Hn.
    destruct post as [|[c u] post].
    + rewrite (char_format_in _ _ _ _ _ _ _ _ _ W E).
      destruct (nth_error t (pos - cpre pre)) as [x|] eqn:Ex.
      { assert (pos - cpre pre < length t) by (apply nth_error_Some; congruence). lia. }
      unfold format_here. destruct (nth_error (items_of _ _) pos) as [y|] eqn:Ey; [|easy].
      assert (pos < ctotal (pre ++ [(b, t)])) by (rewrite Ht; apply nth_error_Some; congruence).
      apply nth_error_None in Hn. rewrite <- Ht in Hn. lia.
    + assert (Hpos : pos = cpre pre + length t).
      { assert (cpre pre + length t < ctotal (pre ++ (b, t) :: (c, u) :: post)) by (rewrite Ht; apply nth_error_Some; congruence). lia. }
      subst pos. unfold format_here. rewrite Hn.
      destruct (Nat.eq_dec (length t) 0) as [H0|H0].
      * rewrite H0 in *. cbn [Nat.ltb Nat.leb andb] in E. destruct t; [|easy]. rewrite (char_format_in _ _ _ _ _ _ _ _ _ W E).
        replace (cpre pre + 0 - cpre pre) with 0 by lia. cbn [nth_error].
        destruct (cpre pre + 0) as [|q] eqn:Eq; [easy|]. rewrite Nat.add_0_r in *.
        destruct pre as [|[b' t'] pre' _] using rev_ind; [easy|].
        rewrite <- app_assoc in *. pose proof (items_nth_end (d_runs d) pre' b' t' ((b, []) :: (c, u) :: post)) as Hb. cbn [app] in *.
        assert (q = cpre pre' + length t') as -> by (rewrite cpre_app, cpre_cons, cpre_nil in Eq; lia).
        unfold char_at. rewrite Hb. easy.
      * replace (0 <? length t) with true in E by lia. rewrite Nat.eqb_refl in E. cbn [andb] in E.
        assert (W2 : wf d ((pre ++ [(b, t)]) ++ (c, u) :: post)) by (rewrite <- app_assoc; exact W).
        rewrite (char_format_in _ _ _ _ _ _ _ _ _ W2 E). rewrite cpre_app, cpre_cons, cpre_nil.
        replace (cpre pre + length t - (cpre pre + (length t + 1 + 0))) with 0 by lia.
        destruct (cpre pre + length t) as [|q] eqn:Eq; [lia|].
        assert (Hq : char_at (items_of (d_runs d) (pre ++ (b, t) :: (c, u) :: post)) q <> None).
        { destruct (nth_error t (length t - 1)) as [x|] eqn:Ex; [|apply nth_error_None in Ex; lia].
          pose proof (items_nth_chr (d_runs d) pre b t ((c, u) :: post) _ _ Ex) as Hx. unfold char_at.
          replace (cpre pre + (length t - 1)) with q in Hx by lia. now rewrite Hx. }
        destruct (char_at _ q) as [g|]; [|easy]. clear g Hq. unfold char_at.
        replace (S (S q)) with (cpre (pre ++ [(b, t)]) + 0) by (rewrite cpre_app, cpre_cons, cpre_nil; lia).
        replace (pre ++ (b, t) :: (c, u) :: post) with ((pre ++ [(b, t)]) ++ (c, u) :: post) by (now rewrite <- app_assoc).
        destruct u as [|x u].
        -- cbn [nth_error]. pose proof (items_nth_end (d_runs d) (pre ++ [(b, t)]) c [] post) as H2. cbn [length] in H2. rewrite H2.
           now destruct post.
        -- cbn [nth_error]. rewrite (items_nth_chr (d_runs d) (pre ++ [(b, t)]) c (x :: u) post 0 x eq_refl). reflexivity.
Qed.

Lemma char_format_theorem d its p : reach d -> doc_items d = Ok its -> cursor_char_format d p = Ok (as_read (format_here its p)).
Proof. intros R E. destruct (reach_its _ _ R E) as (ps & W & ->). now apply char_format_wf. Qed.

Lemma nth_firstn {A} (l : list A) n k : k < n -> nth_error (firstn n l) k = nth_error l k.
Proof.
  revert n l; induction k as [|k IH]; intros [|n] [|x l] H; try lia; cbn; try easy.
  apply IH. lia.
Qed.
Lemma nth_skipn {A} (l : list A) n k : nth_error (skipn n l) k = nth_error l (n + k).
Proof. revert l; induction n as [|n IH]; intros [|x l]; cbn; try easy. now destruct k. Qed.
Lemma spec_format_nth m s e its k : s <= e <= length its ->
  nth_error (spec_format m s e its) k =
  if (s <=? k) && (k <? e) then option_map (restyle m) (nth_error its k) else nth_error its k.
Proof.
  intros H. unfold spec_format. destruct (Nat.leb_spec s k) as [Hs|Hs]; cbn [andb].
  - rewrite nth_error_app2 by (rewrite firstn_length; lia). rewrite firstn_length. replace (Nat.min s (length its)) with s by lia.
    destruct (Nat.ltb_spec k e) as [He|He].
    + rewrite nth_error_app1 by (rewrite map_length, firstn_length, skipn_length; lia).
      rewrite nth_error_map, nth_firstn, nth_skipn by lia. now replace (s + (k - s)) with k by lia.
    + rewrite nth_error_app2 by (rewrite map_length, firstn_length, skipn_length; lia).
      rewrite map_length, firstn_length, skipn_length, nth_skipn. f_equal. lia.
  - rewrite nth_error_app1 by (rewrite firstn_length; lia). apply nth_firstn. lia.
Qed.

Lemma format_read m d p a : reach d -> fresh_positions d ->
  exists its d' ivs, doc_items d = Ok its /\ format_text m d (Z.of_nat p) (Z.of_nat a) = Ok (d', ivs)
   /\ forall k c g, nth_error its k = Some (Chr c g) ->
      cursor_char_format d k = Ok (t_of g)
      /\ (Nat.min p a <= k < Nat.max p a -> cursor_char_format d' k = Ok (t_of (m g)))
      /\ (~ Nat.min p a <= k < Nat.max p a -> cursor_char_format d' k = Ok (t_of g)).
Proof.
  intros R F. destruct (format_theorem m d (Z.of_nat p) (Z.of_nat a) R) as (its & d' & ivs & its' & E & E' & I & _ & _ & _ & _ & S).
  specialize (S F). exists its, d', ivs. split; [easy|]. split; [easy|]. intros k c g Hk.
  assert (R' : reach d') by (eapply reach_format; eassumption).
  rewrite (char_format_theorem _ _ k R E), !(char_format_theorem _ _ k R' I).
  assert (Hlen : k < length its) by (apply nth_error_Some; congruence).
  set (s := clip its _) in S. set (e := clip its _) in S.
  assert (Hse : s <= e <= length its) by (subst s e; unfold clip; lia).
  assert (Hin : (s <=? k) && (k <? e) = true <-> Nat.min p a <= k < Nat.max p a).
  { subst s e. unfold clip. rewrite andb_true_iff, Nat.leb_le, Nat.ltb_lt. lia. }
  unfold format_here. rewrite Hk, S, (spec_format_nth _ _ _ _ _ Hse), Hk.
  split; [easy|]. split; intros H.
  - apply Hin in H. rewrite H. easy.
  - destruct (_ && _); [exfalso; tauto|easy].
Qed.

Lemma set_read f g : t_ok f -> t_set f (t_of g) (t_of (set_merge g (t_to_set f))).
Proof.
  intros (H1 & H2 & H3 & H4). unfold t_set, t_common. destruct f, g. cbn in *. unfold t_links, t_colors. cbn.
  repeat match goal with
  | |- _ /\ _ => split
  | |- takes ?n _ (match ?n with _ => _ end) => now destruct n
  | |- _ = _ => reflexivity
  | |- _ => first [apply (takes_plain (A := _)) | apply takes_cast; first [now apply u32_fit | now apply i32_fit]]
  end.
Qed.
Lemma merge_read f g : t_family f <> Some [] -> t_merged f (t_of g) (t_of (merge_merge g (t_to_merge f))).
Proof.
  intros Hf. unfold t_merged, t_common. destruct f as [fam ? ? ? ? ? ? ? ? ? ? ? ? ? ? ? ? ? ?], g. cbn in *. unfold t_links, t_colors. cbn.
  repeat match goal with
  | |- _ /\ _ => split
  | |- _ = _ => reflexivity
  | |- _ => first [apply (takes_plain (A := _)) | (destruct fam as [[|? ?]|]; [now elim Hf|reflexivity|reflexivity])]
  end.
Qed.

Lemma set_char_theorem f d p a : reach d -> fresh_positions d -> t_ok f ->
  exists its d', doc_items d = Ok its /\ set_char_format f d p a = Ok d'
   /\ forall k c g, nth_error its k = Some (Chr c g) -> exists old now,
      cursor_char_format d k = Ok old /\ cursor_char_format d' k = Ok now
      /\ (Nat.min p a <= k < Nat.max p a -> t_set f old now) /\ (~ Nat.min p a <= k < Nat.max p a -> now = old).
Proof.
  intros R F K. destruct (format_read (fun g => set_merge g (t_to_set f)) d p a R F) as (its & d' & ivs & E & E' & H).
  exists its, d'. split; [easy|]. split. { unfold set_char_format, set_text_format. now rewrite E'. }
  intros k c g Hk. destruct (H k c g Hk) as (A & B & C).
  destruct (le_dec (Nat.min p a) k) as [H1|H1]; [destruct (lt_dec k (Nat.max p a)) as [H2|H2]|].
  1: exists (t_of g), (t_of (set_merge g (t_to_set f))); split; [easy|]; split; [now apply B|]; split; [intros _; now apply set_read|lia].
  all: exists (t_of g), (t_of g); split; [easy|]; split; [apply C; lia|]; split; [lia|easy].
Qed.
Lemma merge_char_theorem f d p a : reach d -> fresh_positions d -> t_family f <> Some [] ->
  exists its d', doc_items d = Ok its /\ merge_char_format f d p a = Ok d'
   /\ forall k c g, nth_error its k = Some (Chr c g) -> exists old now,
      cursor_char_format d k = Ok old /\ cursor_char_format d' k = Ok now
      /\ (Nat.min p a <= k < Nat.max p a -> t_merged f old now) /\ (~ Nat.min p a <= k < Nat.max p a -> now = old).
Proof.
  intros R F K. destruct (format_read (fun g => merge_merge g (t_to_merge f)) d p a R F) as (its & d' & ivs & E & E' & H).
  exists its, d'. split; [easy|]. split. { unfold merge_char_format, merge_text_format. now rewrite E'. }
  intros k c g Hk. destruct (H k c g Hk) as (A & B & C).
  destruct (le_dec (Nat.min p a) k) as [H1|H1]; [destruct (lt_dec k (Nat.max p a)) as [H2|H2]|].
  1: exists (t_of g), (t_of (merge_merge g (t_to_merge f))); split; [easy|]; split; [now apply B|]; split; [intros _; now apply merge_read|lia].
  all: exists (t_of g), (t_of g); split; [easy|]; split; [apply C; lia|]; split; [lia|easy].
Qed.

(** ** Paragraphs *)
Lemma clamp_heading v : is_u8 v -> option_map u8 (option_map (clamp 0 6) v) = option_map (Z.min 6) v.
Proof.
  destruct v as [n|]; cbn; [|easy]. intros H. unfold u8, as_u, clamp. f_equal. rewrite Z.mod_small; lia.
Qed.
Lemma takes_heading v old : is_u8 v ->
  takes (option_map (Z.min 6) v) (option_map u8 old) (option_map u8 (over (option_map (clamp 0 6) v) old)).
Proof. intros H. pose proof (clamp_heading v H) as E. destruct v as [n|]; cbn in *; [|easy]. exact E. Qed.
Lemma takes_height v old : takes (option_map reread v) (option_map height_of old) (option_map height_of (over (option_map height_to v) old)).
Proof. now destruct v. Qed.
Lemma block_read f g : p_ok f -> p_set f (p_of g) (p_of (apply_bfmt (p_to_set f) g)).
Proof.
  intros (H1 & H2 & H3 & H4 & H5 & H6 & H7). unfold p_set. destruct f, g.
  cbn -[height_to height_of reread u8 i32 clamp over option_map takes Z.min] in *.
  repeat match goal with
  | |- _ /\ _ => split
  | |- _ = _ => reflexivity
  | |- takes (option_map reread _) _ _ => apply takes_height
  | |- takes (option_map (Z.min 6) _) _ _ => now apply takes_heading
  | |- _ => first [apply (takes_plain (A := _)) | apply takes_cast; first [now apply u8_fit | now apply i32_fit]]
  end.
Qed.

Lemma paragraph_attr d i : paragraph_format d i = option_map (fun x => p_of (snd x)) (attr d i).
Proof. unfold paragraph_format, attr. now destruct (get_block d i). Qed.
Lemma set_paragraph_theorem f d p a : reach d -> fresh_positions d -> p_ok f ->
  exists its d', doc_items d = Ok its /\ set_paragraph_format f d p a = Ok d'
   /\ forall k i para, nth_error (d_order d) k = Some i -> nth_error (paragraphs its) k = Some para -> exists old now,
      paragraph_format d i = Some old /\ paragraph_format d' i = Some now
      /\ (selected_para (para_start k its) (length para) (Z.of_nat (Nat.min p a)) (Z.of_nat (Nat.max p a)) -> p_set f old now)
      /\ (~ selected_para (para_start k its) (length para) (Z.of_nat (Nat.min p a)) (Z.of_nat (Nat.max p a)) -> now = old).
Proof.
  intros R F K. destruct (block_format_theorem (p_to_set f) d (Z.of_nat p) (Z.of_nat a) R) as (its & d' & E & E' & _ & _ & H).
  specialize (H F). exists its, d'. split; [easy|]. split; [easy|]. intros k i para Hk Hp.
  destruct (reach_its _ _ R E) as (ps & W & Ei). destruct (nth_para _ _ _ _ W Hk) as (pre & t & post & Eps & _). subst ps.
  destruct (wf_get_mid _ _ _ _ _ W) as [x Ex]. assert (Ha : attr d i = Some (b_list x, b_fmt x)) by (unfold attr; now rewrite Ex).
  specialize (H k i _ _ para Hk Ha Hp). rewrite Nat2Z.inj_min, Nat2Z.inj_max. destruct H as [H1 H2].
  rewrite !paragraph_attr, Ha. cbn [option_map snd].
  assert (D : forall rs re, (rs <= re)%Z -> selected_para (para_start k its) (length para) rs re \/ ~ selected_para (para_start k its) (length para) rs re).
  { intros rs re Hr. destruct (selected_spec (para_start k its) (length para) rs re Hr) as [S1 S2].
    destruct (overlaps _ _ _ _); [left; now apply S1|]. right. intros X. discriminate (S2 X). }
  specialize (D (Z.min (Z.of_nat p) (Z.of_nat a)) (Z.max (Z.of_nat p) (Z.of_nat a)) ltac:(lia)).
  destruct D as [D|D].
  - rewrite (H1 D). exists (p_of (b_fmt x)), (p_of (apply_bfmt (p_to_set f) (b_fmt x))).
    split; [easy|]. split; [easy|]. split; [intros _; now apply block_read|easy].
  - rewrite (H2 D). exists (p_of (b_fmt x)), (p_of (b_fmt x)). split; [easy|]. split; [easy|]. split; [easy|]. easy.
Qed.
Lemma cursor_block_theorem d p : reach d ->
  exists its i F, doc_items d = Ok its /\ nth_error (d_order d) (owner its (Nat.min p (length its))) = Some i
   /\ paragraph_format d i = Some F /\ cursor_block_format d p = Ok F.
Proof.
  intros R. destruct (block_at_theorem d (Z.of_nat p) R) as (its & i & n & para & E & -> & Hn & Hp & B).
  replace (clip its (Z.of_nat p)) with (Nat.min p (length its)) in * by (unfold clip; lia).
  destruct (reach_its _ _ R E) as (ps & W & Ei). destruct (nth_para _ _ _ _ W Hn) as (pre & t & post & Eps & _). subst ps.
  destruct (wf_get_mid _ _ _ _ _ W) as [x Ex]. exists its, i, (p_of (b_fmt x)). split; [easy|]. split; [easy|].
  unfold cursor_block_format, paragraph_format. rewrite B. cbn [bind]. rewrite Ex. easy.
Qed.

(** ** Line heights *)
Fixpoint heights_hold (n : nat) : bool :=
  (let z := Z.of_nat n in let w := height_to (thousandths z) in
   ((w =? z) || (w =? z - 1) && (height_to (thousandths w) =? w))%Z)
  && match n with 0 => true | S m => heights_hold m end.
Lemma heights_checked : heights_hold 4000 = true.
Proof. vm_compute. reflexivity. Qed.
Lemma heights_each n m : heights_hold n = true -> m <= n -> heights_hold m = true.
Proof.
  induction n as [|n IH]; intros H Hm; [now replace m with 0 by lia|].
  destruct (Nat.eq_dec m (S n)) as [->|D]; [exact H|]. apply IH; [|lia]. cbn [heights_hold] in H. now apply andb_true_iff in H.
Qed.
Lemma height_theorem n : (0 <= n <= 4000)%Z ->
  exists w, reread (thousandths n) = thousandths w /\ (w = n \/ w = n - 1)%Z /\ reread (thousandths w) = thousandths w.
Proof.
  intros H. pose proof (heights_each 4000 (Z.to_nat n) heights_checked ltac:(lia)) as C.
  exists (height_to (thousandths n)). split; [reflexivity|].
  assert (C' : (let z := Z.of_nat (Z.to_nat n) in let w := height_to (thousandths z) in
   ((w =? z) || (w =? z - 1) && (height_to (thousandths w) =? w))%Z) = true).
  { destruct (Z.to_nat n); cbn [heights_hold] in C; apply andb_true_iff in C; apply C. }
  clear C. rewrite Z2Nat.id in C' by lia. cbv zeta in C'. apply orb_true_iff in C'. destruct C' as [C|C].
  - apply Z.eqb_eq in C. rewrite C. split; [now left|]. unfold reread. now rewrite C.
  - apply andb_true_iff in C. destruct C as [C1 C2]. apply Z.eqb_eq in C1. apply Z.eqb_eq in C2. split; [now right|].
    unfold reread. rewrite C2. reflexivity.
Qed.

(** ** Frames, tables, cells, lists *)
Lemma sets_one_any {A B} (store : A -> A) (read : A -> B) (promised : B -> B -> Prop) :
  (forall x, promised (read x) (read (store x))) -> sets_one store read promised.
Proof.
  intros P l i. induction l as [|[j x] l [IH1 IH2]].
  - split; [easy|]. intros old H. discriminate H.
  - unfold get_in in *. cbn [find set_in fst]. destruct (N.eqb_spec j i) as [->|D].
    + split; [easy|]. intros old H. cbn in H. injection H as <-. exists ((i, store x) :: l), (store x). split; [easy|].
      cbn [find fst]. rewrite N.eqb_refl. split; [easy|]. split; [apply P|]. intros k Hk. cbn [find fst].
      destruct (N.eqb_spec i k); [congruence|easy].
    + split.
      * intros H. now rewrite (IH1 H).
      * intros old H. destruct (IH2 old H) as (l' & now & E & G & Q & O). exists ((j, x) :: l'), now. rewrite E. cbn [bind].
        split; [easy|]. cbn [find fst]. destruct (N.eqb_spec j i); [congruence|]. split; [easy|]. split; [easy|].
        intros k Hk. cbn [find fst]. destruct (N.eqb_spec j k); [easy|]. now apply O.
Qed.
Lemma frame_theorem f : ff_ok f -> sets_one (store_frame f) read_frame (ff_set f).
Proof.
  intros (H1 & H2 & H3 & H4 & H5 & H6 & H7 & H8). apply sets_one_any. intros [a b c d e g h i j k]. unfold ff_set. destruct f.
  cbn -[i32 over option_map takes] in *.
  repeat match goal with
  | |- _ /\ _ => split
  | |- _ = _ => reflexivity
  | |- _ => first [apply (takes_plain (A := _)) | apply takes_cast; now apply i32_fit]
  end.
Qed.
Lemma table_theorem f : g_ok f -> sets_one (store_table f) read_table (g_set f).
Proof.
  intros (H1 & H2 & H3 & H4). apply sets_one_any. intros [a b c d e]. unfold g_set. destruct f.
  cbn -[i32 over option_map takes] in *.
  repeat match goal with
  | |- _ /\ _ => split
  | |- _ => first [apply (takes_plain (A := _)) | apply takes_cast; now apply i32_fit]
  end.
Qed.
Lemma cell_theorem f : z_ok f -> sets_one (store_cell f) read_cell (z_set f).
Proof.
  intros (H1 & H2). apply sets_one_any. intros [a b c d]. unfold z_set. destruct f.
  cbn -[i32 over option_map takes] in *.
  repeat match goal with
  | |- _ /\ _ => split
  | |- _ => first [apply (takes_plain (A := _)) | apply takes_cast; now apply i32_fit]
  end.
Qed.
Lemma list_theorem f : j_ok f -> sets_one (store_list f) read_list (j_set f).
Proof.
  intros H. unfold j_ok in H. apply sets_one_any. intros [a b c d]. unfold j_set. destruct f as [s n p q].
  cbn -[u8 takes] in *. repeat match goal with |- _ /\ _ => split end; try (destruct s; reflexivity); try (destruct p; reflexivity);
    try (destruct q; reflexivity). apply u8_fit in H. destruct n as [n|]; cbn in *; [|easy]. exact H.
Qed.

(** ** Stored formats *)
Lemma t_of_shown f : c_ok f -> t_of f = text_shown f.
Proof. intros (H1 & H2 & H3 & H4). unfold t_of, text_shown. now rewrite !u32_fit, !i32_fit by easy. Qed.
Lemma i32_all l : Forall (fun v => is_i32 (Some v)) l -> map i32 l = l.
Proof.
  induction 1 as [|v l H _ IH]; [easy|]. cbn [map]. rewrite IH. apply i32_fit in H. cbn in H. injection H as H. now rewrite H.
Qed.
Lemma p_of_shown f : b_ok f -> p_of f = paragraph_shown f.
Proof.
  intros (H1 & H2 & H3 & H4 & H5 & H6 & H7 & H8). unfold p_of, paragraph_shown.
  now rewrite !u8_fit, !i32_fit, i32_all by easy.
Qed.
Lemma text_read_theorem d its p f : reach d -> doc_items d = Ok its -> format_here its p = Some f -> c_ok f ->
  cursor_char_format d p = Ok (text_shown f).
Proof. intros R E H K. rewrite (char_format_theorem _ _ _ R E), H. cbn. now rewrite t_of_shown. Qed.
Lemma paragraph_read_theorem d i b : get_block d i = Some b -> b_ok (b_fmt b) -> paragraph_format d i = Some (paragraph_shown (b_fmt b)).
Proof. intros E K. unfold paragraph_format. rewrite E. cbn. now rewrite p_of_shown. Qed.
