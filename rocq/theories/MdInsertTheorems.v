(** What inserting Markdown does to a document. *)
From Verif Require Import Base BaseFacts FormatRunsModel FormatRunsSpec FormatRunsFacts
  RopeModel RopeSpec RopeFacts DocModel DocSpec BlockFacts DocInv DocFacts DocAttr DocDelete DocBreak DocReplace DocImport DocFormat DocQuery ReplaceFacts DocFresh DocReach DocTheorems QueryModel QuerySpec PropSpec QueryTheorems
  ListModel ListDocModel FragmentModel FragmentText FragmentSpec FragmentFinish FragmentPaste FragmentLists FragmentTheorems
  ImportModel ImportSpec ImportFacts MdInsertModel MdInsertSpec MdInsertRope MdInsertFacts.

Lemma inline_bare b : is_inline b = true <-> bare b.
Proof.
  unfold is_inline, bare. rewrite !andb_true_iff, negb_true_iff, Nat.eqb_eq.
  assert (N : forall A (o : option A), is_none o = true <-> o = None) by (intros A [a|]; split; easy).
  rewrite !N. tauto.
Qed.
Lemma blocks_ne es : flatten_to_blocks es <> [].
Proof. unfold flatten_to_blocks. now destruct (flat_map flatten_element es). Qed.

Lemma items_of_blocks_cons l : forall b, items_of_blocks (b :: l) = block_items b ++ flat_map (cons Brk) (map block_items l).
Proof.
  induction l as [|c l IH]; intros b; [cbn; now rewrite app_nil_r|].
  change (items_of_blocks (b :: c :: l)) with (block_items b ++ Brk :: items_of_blocks (c :: l)). rewrite IH. reflexivity.
Qed.

Definition opt (c : bool) (b : pblock) : option pblock := if c then Some b else None.

Lemma several_shape first mid last_ :
  let bs := first :: mid ++ [last_] in
  let mf := is_inline first in let ml := is_inline last_ in
  own_paragraphs bs = skipn (if mf then 1 else 0) (if ml then removelast bs else bs)
  /\ inserted bs = (opt_items (opt mf first) ++ flat_map (cons Brk) (map block_items (own_paragraphs bs)) ++ [Brk]) ++ opt_items (opt ml last_).
Proof.
  intros bs mf ml.
  assert (O : own_paragraphs bs = skipn (if mf then 1 else 0) (if ml then removelast bs else bs)).
  { unfold own_paragraphs, bs. cbn [rev]. rewrite rev_app_distr. reflexivity. }
  split; [exact O|]. rewrite O. unfold bs at 2. rewrite app_comm_cons, removelast_last. unfold inserted, break_after.
  assert (Rv : rev bs = last_ :: rev mid ++ [first]) by (unfold bs; cbn [rev]; rewrite rev_app_distr; reflexivity).
  rewrite Rv. cbn [break_before]. unfold bs at 1 2. cbn [break_before]. fold mf ml.
  rewrite items_of_blocks_cons, map_app, flat_map_app. unfold bs.
  destruct mf, ml; cbn [opt opt_items skipn app map flat_map]; rewrite ?map_app, ?flat_map_app; cbn [map flat_map];
    repeat (rewrite <- ?app_assoc; cbn [app]); rewrite ?app_nil_r; reflexivity.
Qed.
Lemma one_shape b : is_inline b = false ->
  own_paragraphs [b] = [b] /\ inserted [b] = [Brk] ++ block_items b ++ [Brk].
Proof. intros E. unfold own_paragraphs, inserted, break_after. cbn [rev app break_before]. rewrite E. now split. Qed.
Lemma bare_shape b : is_inline b = true -> own_paragraphs [b] = [] /\ inserted [b] = block_items b.
Proof. intros E. unfold own_paragraphs, inserted, break_after. cbn [rev app break_before]. rewrite E. cbn. now rewrite app_nil_r. Qed.

Lemma no_break_in b : filter is_break (block_items b) = [].
Proof.
  unfold block_items. induction (pb_spans b) as [|s l IH]; [easy|]. cbn [flat_map]. rewrite filter_app, IH, app_nil_r.
  unfold span_items. induction (sp_text s) as [|c t IHt]; [easy|]. exact IHt.
Qed.
Lemma chars_in b : count_chars (block_items b) = length (fst (payload b)).
Proof.
  unfold count_chars. rewrite <- block_items_length. assert (H := no_break_in b). induction (block_items b) as [|x l IH]; [easy|]. cbn [filter] in *.
  destruct (is_break x); [discriminate|]. cbn [negb length]. now rewrite IH.
Qed.
Lemma count_chars_app a b : count_chars (a ++ b) = count_chars a + count_chars b.
Proof. unfold count_chars. now rewrite filter_app, app_length. Qed.
Lemma opt_breaks o : filter is_break (opt_items o) = [].
Proof. destruct o; [apply no_break_in|easy]. Qed.
Lemma opt_chars o : count_chars (opt_items o) = opt_length o.
Proof. destruct o; [apply chars_in|easy]. Qed.
Lemma mids_breaks l : length (filter is_break (flat_map (cons Brk) (map block_items l))) = length l.
Proof. induction l as [|b l IH]; [easy|]. cbn [map flat_map]. rewrite filter_app, app_length. cbn [filter is_break length]. rewrite no_break_in, IH. easy. Qed.
Lemma mids_chars l : count_chars (flat_map (cons Brk) (map block_items l)) = text_length l.
Proof.
  induction l as [|b l IH]; [easy|]. cbn [map flat_map]. rewrite count_chars_app, IH. change (count_chars (Brk :: block_items b)) with (count_chars (block_items b)).
  rewrite chars_in. reflexivity.
Qed.

Lemma not_before_end pre b t post R i : i <= length t ->
  ~ before_empty_end (cpre pre + i) (items_of R (pre ++ (b, t) :: post)) -> post = [] \/ 2 <= blen (jpost (segs post)).
Proof.
  intros Hi H. destruct post as [|[c u] post]; [now left|right].
  change (jpost (segs ((c, u) :: post))) with (NL :: u ++ jpost (segs post)). rewrite blen_NL_cons, blen_app.
  destruct u as [|a u].
  - destruct post as [|[e v] post].
    + exfalso. apply H. exists (styled_from (blen (firstn i t)) (skipn i t) (R b)). rewrite skipn_items by easy.
      rewrite ipost_cons. cbn [styled styled_from app]. split; [now rewrite boff_split|].
      assert (G : forall o s, ~ In Brk (styled_from o s (R b))) by (intros o s; revert o; induction s as [|x s IH]; intros o; cbn; [tauto|intros [X|X]; [discriminate|now apply IH in X]]).
      apply G.
    + change (jpost (segs ((e, v) :: post))) with (NL :: v ++ jpost (segs post)). rewrite blen_NL_cons. lia.
  - assert (Z : 0 < blen (a :: u)) by (destruct (blen (a :: u)) eqn:E; [apply blen_nil_inv in E; discriminate|lia]). lia.
Qed.

Lemma cut_at (t : str) i : i <= length t -> exists before after, t = before ++ after /\ length before = i.
Proof. intros H. exists (firstn i t), (skipn i t). rewrite firstn_skipn, firstn_length. split; [easy|lia]. Qed.
Lemma firstn_before (a b : str) i : length a = i -> firstn i (a ++ b) = a.
Proof. intros <-. rewrite firstn_app, firstn_all, Nat.sub_diag, app_nil_r. reflexivity. Qed.

(** Everything about an insertion. *)
Lemma insert_full L ps n es :
  let d := l_doc L in
  let its := items_of (d_runs d) ps in
  let bs := flatten_to_blocks es in
  wf d ps -> fresh d ps -> n <= length its -> one_bare bs \/ ~ before_empty_end n its ->
  exists L' ps' k, insert_markdown_at L (Z.of_nat n) (Z.of_nat n) es = Ok (L', Z.of_nat (n + length (inserted bs)), Z.of_nat k)
   /\ wf (l_doc L') ps' /\ fresh (l_doc L') ps'
   /\ items_of (d_runs (l_doc L')) ps' = with_markdown n bs its
   /\ d_nblocks (l_doc L') = (d_nblocks d + Z.of_nat (added bs))%Z
   /\ d_chars (l_doc L') = (d_chars d + Z.of_nat (count_chars (inserted bs)))%Z
   /\ (length bs <> 1 \/ one_bare bs -> k = added bs)
   /\ (one_bare bs -> para_attrs (l_doc L') = para_attrs d /\ l_lists L' = l_lists L /\ l_next L' = l_next L)
   /\ (~ one_bare bs -> exists cur own,
        nth_error (para_attrs d) (breaks n its) = Some (Some cur)
        /\ para_attrs (l_doc L') = firstn (breaks n its) (para_attrs d) ++ map Some (cur :: own ++ [cur]) ++ skipn (S (breaks n its)) (para_attrs d)
        /\ map snd own = map inserted_fmt (own_paragraphs bs)
        /\ (lists_numbered L -> Forall2 (joins L') (map list_of (own_paragraphs bs)) (map fst own) /\ more_lists L L' /\ lists_numbered L')).
Proof.
  intros d its bs W F Hn C.
  destruct (wf_loc _ _ (Z.of_nat n) W) as (pre & b & t & post & i & E & Hi & Hp). subst ps.
  assert (Hc : n = cpre pre + i).
  { rewrite <- Hp. unfold its in Hn. rewrite items_length in Hn. unfold clipz. lia. }
  destruct (find_fresh _ _ _ _ _ _ _ W F Hi Hp) as (x & Ex & Px & Ef).
  pose proof (find_block_some _ _ _ Ex) as [Hid _].
  assert (Br : breaks n its = length pre).
  { unfold its. rewrite Hc. apply breaks_items. exact Hi. }
  assert (Ncur : nth_error (para_attrs d) (length pre) = Some (Some (b_list x, b_fmt x))).
  { unfold para_attrs. rewrite (wf_order _ _ W), map_map, map_app. rewrite nth_error_app2 by (rewrite map_length; lia). rewrite map_length, Nat.sub_diag. cbn [map nth_error fst].
    unfold attr. now rewrite Ex. }
  unfold insert_markdown_at. fold bs. assert (Bne : bs <> []) by apply blocks_ne. clearbody bs.
  unfold insert_parsed. fold d. rewrite Z.eqb_refl. cbn [negb]. rewrite (fresh_order _ _ W F), Ef. cbn [bind]. rewrite Hid, (wf_content _ _ _ _ _ W). cbn [bind].
  rewrite (wf_images _ _ W), Nat2Z.id, lob_nil, boff_split.
  destruct bs as [|first [|g rest]]; [easy| |].
  - destruct (is_inline first) eqn:Ei.
    + destruct (merge_full d pre b t post i (Z.of_nat n) x first W F Hi Ex Px) as (d' & Em & W' & I' & A' & C' & N' & F').
      rewrite Em. cbn [bind]. destruct (bare_shape first Ei) as [_ Es].
      eexists (mk_ldoc d' (l_lists L) (l_next L)), _, 0. cbn [l_doc l_lists l_next]. split.
      { f_equal. f_equal. f_equal. rewrite Es, block_items_length. lia. }
      split; [exact W'|]. split; [exact F'|]. split; [rewrite I'; unfold with_markdown; now rewrite Es, <- Hc|].
      assert (A0 : added [first] = 0) by (unfold added; now rewrite Es, no_break_in). rewrite A0.
      split; [rewrite N'; lia|]. split; [rewrite C', Es, chars_in; lia|]. split; [easy|]. split; [easy|].
      intros X. exfalso. apply X. exists first. split; [easy|]. now apply inline_bare.
    + destruct C as [(y & Ey & By)|Hb].
      { injection Ey as <-. apply inline_bare in By. congruence. }
      rewrite Hc in Hb. pose proof (not_before_end _ _ _ _ _ _ Hi Hb) as Hpost.
      pose proof (make_list_ok L (list_of first)) as Hm.
      destruct (make_list L (list_of first)) as [L1 l]. destruct (one_shape first Ei) as [Eo Es].
      destruct (cut_at t i Hi) as (before & after & -> & Lb). rewrite (firstn_before _ _ _ Lb).
      destruct (split_full d pre b before after post x None [(first, l)] None true W F Ex Px Hpost) as (d' & ps' & Em & W' & F' & I' & N' & C' & A').
      rewrite Em. cbn [bind]. eexists (mk_ldoc d' (l_lists L1) (l_next L1)), ps', 1. cbn [l_doc l_lists l_next].
      assert (A0 : added [first] = 2) by (unfold added; rewrite Es, !filter_app, no_break_in; easy).
      split; [f_equal; f_equal; f_equal; rewrite Es, Lb, Hc; cbn [opt_items map flat_map fst app]; rewrite !app_nil_r; reflexivity|].
      split; [exact W'|]. split; [exact F'|]. split.
      { rewrite I', Lb, <- Hc. unfold with_markdown. rewrite Es. cbn [opt_items map flat_map fst app]. rewrite app_nil_r. fold its. repeat (rewrite <- ?app_assoc; cbn [app]). reflexivity. }
      split; [rewrite N', A0; reflexivity|]. split.
      { rewrite C', Es, !count_chars_app, chars_in. cbn [opt_length text_length fold_right map fst]. change (count_chars [Brk]) with 0. lia. }
      split; [intros [X|(y & Ey & By)]; [easy|]; injection Ey as <-; apply inline_bare in By; congruence|].
      split; [intros (y & Ey & By); injection Ey as <-; apply inline_bare in By; congruence|].
      intros _. exists (b_list x, b_fmt x), [(l, inserted_fmt first)]. rewrite Br. split; [exact Ncur|]. split; [exact A'|]. rewrite Eo. split; [easy|].
      intros Hln. specialize (Hm Hln). cbn [map fst]. apply (lists_same L L1); [easy|easy|]. destruct Hm as (M1 & M2 & M3). repeat split; [repeat constructor; easy|easy|easy].
  - destruct C as [(y & Ey & By)|Hb]; [discriminate|].
    rewrite Hc in Hb. pose proof (not_before_end _ _ _ _ _ _ Hi Hb) as Hpost.
    set (bs := first :: g :: rest) in *. set (last_ := last (g :: rest) first) in *.
    assert (Eb : bs = first :: removelast (g :: rest) ++ [last_]).
    { unfold bs. f_equal. apply app_removelast_last. easy. }
    destruct (several_shape first (removelast (g :: rest)) last_) as [Eo Es]. rewrite <- Eb in Eo, Es. rewrite <- Eo.
    set (mids := own_paragraphs bs) in *.
    pose proof (fun Hln => place_lists_ok (map listed mids) L [] Hln) as Hm.
    pose proof (place_lists_length (map listed mids) L []) as Hl. rewrite map_length in Hl.
    destruct (place_lists L [] (map listed mids)) as [L1 lids]. cbn [snd] in Hl.
    destruct (cut_at t i Hi) as (before & after & -> & Lb). rewrite (firstn_before _ _ _ Lb).
    fold (opt (is_inline first) first). fold (opt (is_inline last_) last_).
    destruct (split_full d pre b before after post x (opt (is_inline first) first) (combine mids lids) (opt (is_inline last_) last_) false W F Ex Px Hpost) as (d' & ps' & Em & W' & F' & I' & N' & C' & A').
    rewrite Em. cbn [bind].
    assert (Cf : map (fun y : pblock * option id => block_items (fst y)) (combine mids lids) = map block_items mids)
      by (rewrite <- (map_map fst block_items), combine_fst; easy).
    rewrite Cf in *. assert (Cl : length (combine mids lids) = length mids) by (rewrite combine_length; lia).
    assert (A0 : added bs = S (length mids)).
    { unfold added. rewrite Es, !filter_app, !app_length, !opt_breaks, mids_breaks. cbn. lia. }
    eexists (mk_ldoc d' (l_lists L1) (l_next L1)), ps', (S (length mids)). cbn [l_doc l_lists l_next].
    split.
    { f_equal. rewrite Cl. f_equal. f_equal. rewrite Es, Lb, <- Hc, !app_length.
      destruct (is_inline last_); cbn [opt opt_items]; [rewrite block_items_length|cbn [length]]; lia. }
    split; [exact W'|]. split; [exact F'|]. split.
    { rewrite I', Lb, <- Hc. unfold with_markdown. rewrite Es. fold its. now rewrite <- !app_assoc. }
    split; [rewrite N', A0, Cl; reflexivity|]. split.
    { rewrite C', Es, !count_chars_app, !opt_chars, mids_chars. rewrite combine_fst by easy. change (count_chars [Brk]) with 0. lia. }
    split; [easy|]. split; [intros (y & Ey & By); discriminate|].
    intros _. exists (b_list x, b_fmt x), (map (fun y => (snd y, inserted_fmt (fst y))) (combine mids lids)). rewrite Br.
    split; [exact Ncur|]. split; [exact A'|]. split.
    { rewrite map_map. cbn [snd]. rewrite <- (map_map fst inserted_fmt), combine_fst; easy. }
    intros Hln. apply (lists_same L L1); [easy|easy|]. rewrite map_map. cbn [fst].
    assert (Cs : map (fun y : pblock * option id => snd y) (combine mids lids) = lids).
    { clear - Hl. revert lids Hl. induction mids as [|m mids IH]; intros [|l lids] Hl; try easy. cbn. f_equal. apply IH. now injection Hl. }
    rewrite Cs. specialize (Hm Hln). rewrite map_map in Hm. apply Hm. intros [|k] j st H; discriminate.
Qed.

Lemma insert_theorem L its n es : tidy (l_doc L) -> doc_items (l_doc L) = Ok its -> n <= length its ->
  let bs := flatten_to_blocks es in one_bare bs \/ ~ before_empty_end n its ->
  exists L' k, insert_markdown_at L (Z.of_nat n) (Z.of_nat n) es = Ok (L', Z.of_nat (length (firstn n its ++ inserted bs)), k)
   /\ doc_items (l_doc L') = Ok (with_markdown n bs its)
   /\ fresh_positions (l_doc L')
   /\ d_nblocks (l_doc L') = (d_nblocks (l_doc L) + Z.of_nat (added bs))%Z
   /\ d_chars (l_doc L') = (d_chars (l_doc L) + Z.of_nat (count_chars (inserted bs)))%Z
   /\ (length bs <> 1 \/ one_bare bs -> k = Z.of_nat (added bs)).
Proof.
  intros T E Hn bs C. destruct (tidy_facts _ T) as (_ & ps & W & F). rewrite (doc_items_wf _ _ W) in E. injection E as <-.
  destruct (insert_full L ps n es W F Hn C) as (L' & ps' & k & E' & W' & F' & I' & N' & C' & K' & _).
  exists L', (Z.of_nat k). rewrite app_length, firstn_length, Nat.min_l by easy. split; [exact E'|]. split; [now rewrite (doc_items_wf _ _ W'), I'|].
  split; [now apply (fresh_equiv _ _ W')|]. split; [exact N'|]. split; [exact C'|]. intros H. now rewrite K'.
Qed.

Lemma joins_read L b l : joins L (list_of b) l -> in_read_list L b l.
Proof.
  unfold joins, list_of, in_read_list. destruct (pb_list b) as [st|]; [|easy]. cbn [option_map]. intros (i & e & H1 & H2 & H3 & H4).
  exists i, e. cbn [l_style l_indent] in *. rewrite Nat2Z.id in H4. auto.
Qed.
Lemma reads_as L bs : forall own, map snd own = map inserted_fmt bs -> Forall2 (joins L) (map list_of bs) (map fst own) -> Forall2 (as_read L) bs own.
Proof.
  induction bs as [|b bs IH]; intros [|a own] H1 H2; try discriminate; constructor.
  - inversion H2; subst. injection H1 as H1 _. split; [now apply joins_read|exact H1].
  - inversion H2; subst. injection H1 as _ H1. now apply IH.
Qed.

Lemma attrs_theorem L its n es : tidy (l_doc L) -> lists_numbered L -> doc_items (l_doc L) = Ok its -> n <= length its ->
  let bs := flatten_to_blocks es in let k := breaks n its in let before := para_attrs (l_doc L) in
  one_bare bs \/ ~ before_empty_end n its ->
  exists L' np c, insert_markdown_at L (Z.of_nat n) (Z.of_nat n) es = Ok (L', np, c)
   /\ (one_bare bs -> para_attrs (l_doc L') = before)
   /\ (~ one_bare bs -> exists cur own, nth_error before k = Some (Some cur)
        /\ para_attrs (l_doc L') = firstn k before ++ map Some (cur :: own ++ [cur]) ++ skipn (S k) before
        /\ Forall2 (as_read L') (own_paragraphs bs) own)
   /\ more_lists L L' /\ lists_numbered L'.
Proof.
  intros T Hln E Hn bs k before C. destruct (tidy_facts _ T) as (_ & ps & W & F). rewrite (doc_items_wf _ _ W) in E. injection E as <-.
  destruct (insert_full L ps n es W F Hn C) as (L' & ps' & c & E' & _ & _ & _ & _ & _ & _ & A1 & A2).
  eexists L', _, _. split; [exact E'|]. split; [intros H; now apply A1|]. split.
  - intros H. destruct (A2 H) as (cur & own & X1 & X2 & X3 & X4). exists cur, own. repeat (split; [assumption|]). apply reads_as; [exact X3|now apply X4].
  - assert (D : one_bare bs \/ ~ one_bare bs).
    { unfold bs. destruct (flatten_to_blocks es) as [|y [|z r]]; [right; now intros (? & ? & _)| |right; now intros (? & ? & _)].
      destruct (is_inline y) eqn:Ey; [left; exists y; split; [easy|now apply inline_bare]|right]. intros (w & Ew & Bw). injection Ew as <-. apply inline_bare in Bw. congruence. }
    destruct D as [D|D].
    + destruct (A1 D) as (_ & X & Y). split.
      * intros j e H. now rewrite (get_list_same _ _ j X).
      * intros j Hj. rewrite (get_list_same _ _ j X). apply Hln. now rewrite <- Y.
    + destruct (A2 D) as (cur & own & _ & _ & _ & X). destruct (X Hln) as (_ & Y). exact Y.
Qed.

Lemma selected_theorem L p a es : p <> a -> insert_markdown_at L p a es = Err.
Proof. intros H. unfold insert_markdown_at, insert_parsed. apply Z.eqb_neq in H. now rewrite H. Qed.
