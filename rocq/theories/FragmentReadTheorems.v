From Coq Require Import Lia Ascii String.
From Verif Require Import Base BaseFacts FormatRunsModel RopeModel DocModel DocSpec DocInv PropSpec DocReach DocTheorems QueryModel QuerySpec QueryTheorems HistModel
  DocRefuted ListModel ListSpec ListDocModel ListDocSpec ListDocFacts FragmentModel FragmentText FragmentSpec FragmentCopySpec FragmentCopy FragmentTheorems FragmentRefuted
  ExportSpec ImportModel ImportSpec MdReadModel DocShows ImportTheorems MdReadSpec MdReadFacts MdReadTheorems MdReadRefuted HtmlReadModel HtmlReadSpec HtmlReadTheorems FragmentReadModel FragmentReadSpec FragmentReadFacts.

(** ** Parsed Markdown has no styles *)
Definition plain_element (x : pelement) : Prop := match x with PBlock b => unstyled b | PTable _ => True end.
Lemma md_event_plain s e : Forall plain_element (m_done s) -> Forall plain_element (m_done (md_event s e)).
Proof.
  intros H. assert (P : forall s' h l i c lang, m_done s' = m_done s -> Forall plain_element (m_done (push_block s' h l i c lang))).
  { intros s' h l i c lang E. cbn. rewrite E. apply Forall_app. split; [easy|]. constructor; [repeat split|constructor]. }
  destruct e; cbn; try easy; unfold push_span;
    repeat match goal with |- context [if ?x then _ else _] => destruct x end; cbn; try easy; try (apply Forall_app; split; [easy|]; repeat constructor).
Qed.
Lemma markdown_plain es bs : flat_blocks (parse_markdown es) = Some bs -> Forall unstyled bs.
Proof.
  assert (G : Forall plain_element (parse_markdown es)).
  { unfold parse_markdown.
    assert (G : forall s, Forall plain_element (m_done s) -> Forall plain_element (m_done (fold_left md_event es s))).
    { induction es as [|e es IH]; [easy|]. intros s H. cbn [fold_left]. apply IH, md_event_plain, H. }
    specialize (G md_start (Forall_nil _)). set (s := fold_left md_event es md_start) in *. clearbody s.
    assert (G2 : Forall plain_element (m_done (if has_spans s then push_block s (m_heading s) (m_list s) (m_indent s) (m_code s) (m_language s) else s))).
    { destruct (has_spans s); [|easy]. cbn. apply Forall_app. split; [easy|]. repeat constructor. }
    revert G2. generalize (m_done (if has_spans s then push_block s (m_heading s) (m_list s) (m_indent s) (m_code s) (m_language s) else s)).
    intros [|x l] G2; [repeat constructor|easy]. }
  revert bs. induction G as [|x l Hx _ IH]; cbn [flat_blocks]; intros bs E; [injection E as <-; constructor|].
  destruct x as [b|t]; [|easy]. destruct (pb_quotes b =? 0); [|easy]. destruct (flat_blocks l) as [r|]; [|easy]. cbn in E. injection E as <-.
  constructor; [easy|now apply IH].
Qed.
Lemma parsed_ne l : l <> [] -> forall bs, flat_blocks l = Some bs -> bs <> [].
Proof.
  destruct l as [|[b|t] l]; [easy| |easy]. cbn. intros _ bs H. destruct (pb_quotes b =? 0); [|easy]. destruct (flat_blocks l); [|easy]. now injection H as <-.
Qed.
Lemma markdown_ne es bs : flat_blocks (parse_markdown es) = Some bs -> bs <> [].
Proof. apply parsed_ne. unfold parse_markdown. now destruct (m_done _). Qed.
Lemma html_ne lh page bs : flat_blocks (parse_html lh page) = Some bs -> bs <> [].
Proof. apply parsed_ne. unfold parse_html. destruct (collect _ _ _ _ _ _ _) as [sp el]. now destruct (el ++ _). Qed.

(** ** Inserting *)
Lemma last_rev {A} (x : A) l : exists y r, rev (x :: l) = y :: r /\ last (x :: l) x = y /\ length r = length l.
Proof.
  destruct (rev (x :: l)) as [|y r] eqn:E; [apply (f_equal (@length A)) in E; rewrite rev_length in E; easy|].
  exists y, r. split; [easy|]. assert (E2 : x :: l = rev r ++ [y]) by (rewrite <- (rev_involutive (x :: l)), E; reflexivity).
  rewrite E2, last_last. split; [easy|]. apply (f_equal (@length A)) in E. rewrite rev_length in E. cbn in E. lia.
Qed.
Lemma paste_put fb fbs n m its : n <= length its -> n <= m ->
  let all := fb :: fbs in let fp := is_inline_only fb in let lp := is_inline_only (last all fb) in
  let rest := firstn n its ++ skipn m its in let one := length all =? 1 in
  spec_paste n all (spec_delete n m its)
    = firstn n its ++ break_before fp rest n ++ fragment_items all ++ break_after lp one rest n ++ skipn m its
  /\ sep_before all (spec_delete n m its) n = break_before fp rest n
  /\ sep_after all (spec_delete n m its) n = break_after lp one rest n.
Proof.
  intros Hn Hm all fp lp rest one. unfold spec_paste. change (spec_delete n m its) with rest.
  assert (Ef : firstn n rest = firstn n its).
  { unfold rest. rewrite firstn_app, firstn_firstn, Nat.min_id. replace (n - length (firstn n its)) with 0 by (rewrite firstn_length; lia).
    cbn. apply app_nil_r. }
  assert (Es : skipn n rest = skipn m its).
  { unfold rest. rewrite skipn_app. replace (n - length (firstn n its)) with 0 by (rewrite firstn_length; lia).
    rewrite skipn_all2 by (rewrite firstn_length; lia). reflexivity. }
  rewrite Ef, Es.
  assert (Eb : sep_before all rest n = break_before fp rest n) by reflexivity.
  assert (Ea : sep_after all rest n = break_after lp one rest n).
  { unfold sep_after, break_after, lp, one. destruct (last_rev fb fbs) as (y & r & E1 & E2 & E3). fold all in E1, E2. rewrite E1, E2.
    replace (length r =? 0) with (length all =? 1); [reflexivity|]. unfold all. cbn [length]. rewrite E3. destruct (length fbs); reflexivity. }
  rewrite Eb, Ea. repeat split.
Qed.

Lemma one_para_length its : one_para its = (length (paragraphs its) =? 1).
Proof. unfold one_para. destruct (paragraphs its) as [|x [|y l]]; reflexivity. Qed.
Lemma hd_map_some (l : list (option id * bfmt)) a : hd None (map Some (a :: l)) = Some a.
Proof. reflexivity. Qed.
Lemma last_any {A} (a x y : A) l : last (a :: l) x = last (a :: l) y.
Proof. revert a. induction l as [|b l IH]; intros a; [reflexivity|]. exact (IH b). Qed.
Lemma last_map_some (l : list (option id * bfmt)) a : last (map Some (a :: l)) None = Some (last (a :: l) a).
Proof.
  revert a. induction l as [|b l IH]; intros a; [reflexivity|].
  change (last (map Some (a :: b :: l)) None) with (last (map Some (b :: l)) None). rewrite IH.
  change (last (a :: b :: l) a) with (last (b :: l) a). now rewrite (last_any b b a).
Qed.
Lemma last_map {A B} (f : A -> B) l a : last (map f (a :: l)) (f a) = f (last (a :: l) a).
Proof.
  assert (G : forall d, last (map f (a :: l)) (f d) = f (last (a :: l) d)); [|apply G].
  revert a. induction l as [|b l IH]; intros a d; [reflexivity|]. exact (IH b d).
Qed.
Lemma last_forall2 {A B} (R : A -> B -> Prop) a b l l' : Forall2 R (a :: l) (b :: l') -> R (last (a :: l) a) (last (b :: l') b).
Proof.
  assert (G : forall x y, Forall2 R (a :: l) (b :: l') -> R (last (a :: l) x) (last (b :: l') y)); [|apply G].
  revert a b l'. induction l as [|a' l IH]; intros a b l' x y H.
  - inversion H as [|? ? ? ? H1 H2]; subst. inversion H2; subst. easy.
  - inversion H as [|? ? ? ? H1 H2]; subst. destruct l' as [|b' l']; [inversion H2|]. exact (IH a' b' l' x y H2).
Qed.
Lemma last_forall {A} (P : A -> Prop) a l : Forall P (a :: l) -> P (last (a :: l) a).
Proof.
  assert (G : forall x, Forall P (a :: l) -> P (last (a :: l) x)); [|apply G].
  revert a. induction l as [|a' l IH]; intros a x H; inversion H; subst; [easy|]. now apply (IH a' x).
Qed.

Lemma put_theorem html L0 bs L its its2 t p a fp lp : lreach L0 -> bs <> [] -> (html = false -> Forall unstyled bs) ->
  reach (l_doc L) -> doc_items (l_doc L) = Ok its -> p <= length its -> a <= length its ->
  let Li := import_parsed html L0 bs in doc_items (l_doc Li) = Ok its2 -> no_code_blocks Li ->
  (fp = true <-> plain_attr (hd None (para_attrs (l_doc Li)))) -> (lp = true <-> plain_attr (last (para_attrs (l_doc Li)) None)) ->
  p <> a \/ in_order (l_doc L) \/ one_para its2 = true /\ fp = true ->
  let n := Nat.min p a in let m := Nat.max p a in
  exists L' r, cursor_insert_fragment L p a (mk_dfrag (Some (map fblock_of bs)) t) = Ok (L', Some r)
   /\ doc_items (l_doc L') = Ok (put fp lp n m its its2)
   /\ (one_para its2 = false \/ lp = true \/ at_end (firstn n its ++ skipn m its) n = true -> r = put_end fp lp n m its its2).
Proof.
  intros R0 Hne U R E Hp Ha Li E2 N Hfp Hlp O n m.
  destruct (imported html L0 bs R0 Hne) as (its2' & atts & E2' & P & A & F). fold Li in E2', A, F. rewrite E2 in E2'. injection E2' as <-.
  pose proof (no_code_all _ _ _ _ F A N) as C. destruct bs as [|b bs]; [easy|]. destruct atts as [|at1 atts]; [inversion F|].
  set (fbs := map fblock_of (b :: bs)). rewrite A, hd_map_some in Hfp. rewrite A, last_map_some in Hlp.
  assert (If : is_inline_only (fblock_of b) = fp).
  { apply Bool.eq_true_iff_eq. rewrite Hfp. unfold plain_attr. inversion F; subst. inversion C; subst.
    rewrite (agrees_plain html Li b at1); [split; congruence|easy| |easy]. intros Hh. specialize (U Hh). now inversion U. }
  assert (Il : is_inline_only (last fbs (fblock_of b)) = lp).
  { apply Bool.eq_true_iff_eq. rewrite Hlp. unfold plain_attr, fbs. rewrite last_map.
    pose proof (last_forall2 _ _ _ _ _ F) as Fl. pose proof (last_forall _ _ _ C) as Cl.
    rewrite (agrees_plain html Li _ _ Fl); [split; congruence| |easy]. intros Hh. specialize (U Hh). now apply last_forall in U. }
  assert (Ei : fragment_items fbs = its2).
  { rewrite <- (join_paragraphs its2), P. unfold fragment_items, fbs. f_equal. rewrite map_map. apply map_ext_in.
    intros x Hx. apply fblock_items. rewrite Forall_forall in C. apply (C x Hx). }
  assert (On : (length fbs =? 1) = one_para its2).
  { rewrite one_para_length, P. unfold fbs. now rewrite !map_length. }
  assert (Hne2 : fbs <> []) by easy.
  destruct (cursor_paste_theorem L its fbs t p a R E Hne2 (fblocks_text _) Hp Ha) as (L' & r & H1 & H2 & H3).
  { destruct O as [O|[O|[O1 O2]]]; [now left|now right; right|]. right; left. rewrite <- On in O1. exists (fblock_of b).
    unfold fbs in *. destruct bs; [split; [reflexivity|now rewrite If]|easy]. }
  fold n in H2, H3. fold m in H2, H3.
  destruct (paste_put (fblock_of b) (map fblock_of bs) n m its) as (Q1 & Q2 & Q3); [lia|lia|].
  change (fblock_of b :: map fblock_of bs) with fbs in Q1, Q2, Q3. rewrite Ei, Il, If, On in Q1. rewrite If in Q2. rewrite Il, On in Q3.
  exists L', r. split; [exact H1|]. split; [rewrite H2, Q1; reflexivity|].
  intros K. unfold put_end. rewrite H3.
  - rewrite Q2, Q3, Ei, !app_length, firstn_length. lia.
  - unfold keeps_positions, fbs. cbn [map]. destruct bs as [|b' bs]; [|reflexivity]. cbn [map]. rewrite If.
    assert (Elf : lp = fp) by (rewrite <- Il, <- If; reflexivity). rewrite <- On in K. cbn in K.
    destruct K as [K|[K|K]]; [easy|rewrite <- Elf, K; reflexivity|]. change (spec_delete n m its) with (firstn n its ++ skipn m its). rewrite K. apply Bool.orb_true_r.
Qed.

(** The text, code blocks included. *)
Lemma put_text_theorem html L0 bs L its its2 t p a : lreach L0 -> bs <> [] ->
  reach (l_doc L) -> doc_items (l_doc L) = Ok its -> p <= length its -> a <= length its ->
  let Li := import_parsed html L0 bs in doc_items (l_doc Li) = Ok its2 -> p <> a \/ in_order (l_doc L) ->
  let n := Nat.min p a in let m := Nat.max p a in
  exists L' r its' fp lp, cursor_insert_fragment L p a (mk_dfrag (Some (map fblock_of bs)) t) = Ok (L', Some r)
   /\ doc_items (l_doc L') = Ok its' /\ plain its' = plain (put fp lp n m its its2).
Proof.
  intros R0 Hne R E Hp Ha Li E2 O n m.
  destruct (imported html L0 bs R0 Hne) as (its2' & atts & E2' & P & _). fold Li in E2'. rewrite E2 in E2'. injection E2' as <-.
  destruct (fragment_plain html L0 bs R0 Hne) as (its2' & E2' & _ & Pt). fold Li in E2'. rewrite E2 in E2'. injection E2' as <-.
  destruct bs as [|b bs]; [easy|]. set (fbs := map fblock_of (b :: bs)) in *. assert (Hne2 : fbs <> []) by easy.
  assert (On : (length fbs =? 1) = one_para its2).
  { rewrite one_para_length, P. unfold fbs. now rewrite !map_length. }
  destruct (cursor_paste_theorem L its fbs t p a R E Hne2 (fblocks_text _) Hp Ha) as (L' & r & H1 & H2 & _); [tauto|].
  destruct (paste_put (fblock_of b) (map fblock_of bs) n m its) as (Q1 & _); [lia|lia|].
  change (fblock_of b :: map fblock_of bs) with fbs in Q1. rewrite On in Q1.
  exists L', r. eexists. exists (is_inline_only (fblock_of b)), (is_inline_only (last fbs (fblock_of b))). split; [exact H1|]. split; [exact H2|].
  fold n m. rewrite Q1. unfold put. rewrite !plain_app, Pt. reflexivity.
Qed.

(** ** Into an empty document *)
Definition carries (L : ldoc) (fb : fblock) (a : option id * bfmt) : Prop := snd a = fb_fmt fb /\ joins L (fb_list fb) (fst a).
Lemma carries_all L fbs own : map snd own = map fb_fmt fbs -> Forall2 (joins L) (map fb_list fbs) (map fst own) -> Forall2 (carries L) fbs own.
Proof.
  revert own. induction fbs as [|fb fbs IH]; intros [|a own] E F; try easy. cbn in E, F. injection E as E1 E2.
  inversion F; subst. constructor; [split; easy|now apply IH].
Qed.
Lemma all_carries L fbs own : Forall2 (carries L) fbs own -> map snd own = map fb_fmt fbs /\ Forall2 (joins L) (map fb_list fbs) (map fst own).
Proof.
  induction 1 as [|fb a fbs own [H1 H2] F IH]; [split; [reflexivity|cbn; constructor]|]. destruct IH as [I1 I2]. cbn. split; [congruence|now constructor].
Qed.
Lemma inline_bare b : is_inline_only (fblock_of b) = true -> fb_fmt (fblock_of b) = bfmt_default /\ fb_list (fblock_of b) = None.
Proof. rewrite inline_attr. intros (A & B & C & D & E & F). cbn. now rewrite A, B, C, D, E, F. Qed.
Lemma attrs_blank L fbs own : fbs <> [] -> (forall fb, In fb fbs -> is_inline_only fb = true -> carries L fb (None, bfmt_default)) ->
  Forall2 (carries L) (own_format fbs) own -> Forall2 (carries L) fbs (paste_attrs fbs [] 0 (None, bfmt_default) own).
Proof.
  intros Hne I F. destruct fbs as [|fb rest]; [easy|]. destruct (exists_last (l := fb :: rest) Hne) as (mid & l & E).
  destruct mid as [|fb' mid].
  - cbn in E. injection E as -> ->. unfold paste_attrs, takes_over, keeps_tail. cbn in F |- *. destruct (is_inline_only l) eqn:Ei; cbn in F |- *.
    + inversion F; subst. cbn. constructor; [|constructor]. apply I; [now left|easy].
    + now rewrite app_nil_r.
  - cbn in E. injection E as <- ->. unfold paste_attrs, takes_over, keeps_tail. cbn [at_start at_end firstn skipn rev].
    rewrite rev_app_distr. cbn [rev app].
    assert (Ed : own_format (fb :: mid ++ [l]) = (if is_inline_only fb then [] else [fb]) ++ mid ++ (if is_inline_only l then [] else [l])).
    { unfold own_format. f_equal. rewrite last_last, removelast_last. now destruct mid. }
    rewrite Ed in F. apply Forall2_app_inv_l in F as (o1 & o' & F1 & F & ->). apply Forall2_app_inv_l in F as (o2 & o3 & F2 & F3 & ->).
    assert (Er : exists y r, rev mid ++ [fb] = y :: r) by (destruct (rev mid); cbn; eauto). destruct Er as (y & r & Er). rewrite Er.
    change (at_start [] 0) with true. change (at_end [] 0) with true. rewrite Bool.andb_true_r. cbn [negb]. rewrite Bool.orb_false_r.
    change (fb :: mid ++ [l]) with ([fb] ++ mid ++ [l]).
    replace ((if negb (is_inline_only fb) then [] else [(None, bfmt_default)]) ++ (o1 ++ o2 ++ o3) ++
      (if is_inline_only l then [if negb (is_inline_only fb) then (None, bfmt_default) else (None, bfmt_default)] else []))
      with (((if negb (is_inline_only fb) then [] else [(@None id, bfmt_default)]) ++ o1) ++ o2 ++ (o3 ++ (if is_inline_only l then [(None, bfmt_default)] else []))).
    2:{ rewrite <- !app_assoc. repeat f_equal. destruct (is_inline_only fb); reflexivity. }
    apply Forall2_app; [|apply Forall2_app; [easy|]].
    + destruct (is_inline_only fb) eqn:Ei; cbn [negb app]; [|easy]. inversion F1; subst. constructor; [|constructor]. apply I; [now left|easy].
    + destruct (is_inline_only l) eqn:Ei; [|now rewrite app_nil_r]. inversion F3; subst. cbn. constructor; [|constructor]. apply I; [|easy].
      right. apply in_or_app. right. now left.
Qed.
Lemma single_in_order d : reach d -> doc_items d = Ok [] -> in_order d.
Proof.
  intros R E. pose proof (paragraphs_number _ _ R E) as N. cbn in N. destruct (d_order d) as [|i [|j l]] eqn:Eo; try easy.
  unfold in_order. rewrite Eo. unfold get_multi. cbn. destruct (get_block d i); cbn; easy.
Qed.
Lemma blank_theorem html L0 bs L t : lreach L0 -> bs <> [] -> (html = false -> Forall unstyled bs) ->
  lreach L -> doc_items (l_doc L) = Ok [] -> para_attrs (l_doc L) = [Some (None, bfmt_default)] ->
  let Li := import_parsed html L0 bs in no_code_blocks Li ->
  exists L' r atts atts', cursor_insert_fragment L 0 0 (mk_dfrag (Some (map fblock_of bs)) t) = Ok (L', Some r)
   /\ doc_items (l_doc L') = doc_items (l_doc Li)
   /\ para_attrs (l_doc Li) = map Some atts /\ para_attrs (l_doc L') = map Some atts'
   /\ map snd atts' = map snd atts /\ Forall2 (joins L') (map (list_at Li) atts) (map fst atts').
Proof.
  intros R0 Hne U R E B Li N. destruct (lists_ok _ R) as [Rd Hl]. pose proof (single_in_order _ Rd E) as O.
  destruct (fragment_shows html L0 bs R0 Hne U N) as (its2 & atts & E2 & A & P & Fm & Ls). fold Li in E2, A, Ls.
  assert (Hne2 : map fblock_of bs <> []) by (now destruct bs).
  assert (Hln : lists_numbered L) by exact Hl.
  destruct (paste_attrs_theorem L [] (map fblock_of bs) 0%Z Rd Hln E Hne2 (fblocks_text _) (or_intror O)) as (L' & np & k & cur & own & H1 & H2 & H3 & H4 & H5 & _).
  destruct (paste_theorem L [] (map fblock_of bs) 0%Z Rd E Hne2 (fblocks_text _) (or_intror O)) as (L2 & np2 & k2 & G1 & G2 & _ & G4 & _).
  rewrite H1 in G1. injection G1 as <- <- <-. change (clip [] 0) with 0 in *. cbn [breaks] in H2, H3. rewrite B in H2, H3. cbn in H2. injection H2 as <-.
  change (breaks 0 []) with 0 in H3. cbn [firstn skipn app] in H3. rewrite app_nil_r in H3.
  unfold cursor_insert_fragment. cbn [Nat.eqb df_data]. change (Z.of_nat 0) with 0%Z. rewrite H1.
  assert (Hnp : (0 <= np)%Z) by (apply G4; lia). unfold to_usize. destruct (Z.leb_spec 0 np); [|lia]. cbn [bind].
  eexists _, _, atts, _. split; [reflexivity|]. split.
  { rewrite G2, E2. f_equal. unfold spec_paste. cbn [firstn skipn]. rewrite app_nil_r. cbn [app].
    assert (S1 : sep_before (map fblock_of bs) [] 0 = []) by (destruct bs; [easy|]; cbn; now rewrite Bool.orb_true_r).
    assert (S2 : sep_after (map fblock_of bs) [] 0 = []) by (unfold sep_after; destruct (rev _); [easy|]; cbn; now rewrite Bool.orb_true_r).
    rewrite S1, S2, app_nil_r. cbn. unfold fragment_items. now rewrite P, join_paragraphs. }
  split; [easy|]. split; [exact H3|]. rewrite <- Fm, <- Ls. apply all_carries, attrs_blank; [easy| |now apply carries_all].
  intros fb Hin Hi. apply in_map_iff in Hin as (b & <- & _). destruct (inline_bare b Hi) as [X Y]. split; cbn [fst snd]; [easy|]. rewrite Y. reflexivity.
Qed.

(** ** Markdown and HTML *)
Lemma markdown_parsed L0 es Li : import_markdown L0 es = Some Li -> exists bs, Li = import_parsed false L0 bs /\ bs <> [] /\ Forall unstyled bs
  /\ fragment_from_markdown es = Some (mk_dfrag (Some (map fblock_of bs)) (join_lines (map fb_text (map fblock_of bs)))).
Proof.
  unfold import_markdown, fragment_from_markdown, fragment_of_parsed. destruct (flat_blocks (parse_markdown es)) as [bs|] eqn:E; [|easy]. cbn [option_map]. intros H. injection H as <-.
  exists bs. split; [easy|]. split; [exact (markdown_ne _ _ E)|]. split; [exact (markdown_plain _ _ E)|]. rewrite (blocks_flat _ _ E). reflexivity.
Qed.
Lemma html_parsed lh L0 page Li : import_html lh L0 page = Some Li -> exists bs, Li = import_parsed true L0 bs /\ bs <> []
  /\ fragment_from_html lh page = Some (mk_dfrag (Some (map fblock_of bs)) (join_lines (map fb_text (map fblock_of bs)))).
Proof.
  unfold import_html, fragment_from_html, fragment_of_parsed. destruct (flat_blocks (parse_html lh page)) as [bs|] eqn:E; [|easy]. cbn [option_map]. intros H. injection H as <-.
  exists bs. split; [easy|]. split; [exact (html_ne _ _ _ E)|]. rewrite (blocks_flat _ _ E). reflexivity.
Qed.

Lemma from_markdown_theorem L0 es Li its : lreach L0 -> import_markdown L0 es = Some Li -> doc_items (l_doc Li) = Ok its ->
  exists fbs, fragment_from_markdown es = Some (mk_dfrag (Some fbs) (plain its)) /\ (no_code_blocks Li -> same_paragraphs fbs Li).
Proof.
  intros R H E. destruct (markdown_parsed _ _ _ H) as (bs & -> & Hne & U & F). exists (map fblock_of bs). rewrite F.
  destruct (fragment_plain false L0 bs R Hne) as (its' & E' & T & _). rewrite E in E'. injection E' as <-. rewrite T. split; [easy|].
  intros N. now apply fragment_shows.
Qed.
Lemma from_html_theorem lh L0 page Li its : lreach L0 -> import_html lh L0 page = Some Li -> doc_items (l_doc Li) = Ok its ->
  exists fbs, fragment_from_html lh page = Some (mk_dfrag (Some fbs) (plain its)) /\ (no_code_blocks Li -> same_paragraphs fbs Li).
Proof.
  intros R H E. destruct (html_parsed _ _ _ _ H) as (bs & -> & Hne & F). exists (map fblock_of bs). rewrite F.
  destruct (fragment_plain true L0 bs R Hne) as (its' & E' & T & _). rewrite E in E'. injection E' as <-. rewrite T. split; [easy|].
  intros N. now apply fragment_shows.
Qed.

Lemma insert_markdown_theorem L0 es Li L its its2 p a fp lp : lreach L0 -> import_markdown L0 es = Some Li ->
  reach (l_doc L) -> doc_items (l_doc L) = Ok its -> p <= length its -> a <= length its ->
  doc_items (l_doc Li) = Ok its2 -> no_code_blocks Li ->
  (fp = true <-> plain_attr (hd None (para_attrs (l_doc Li)))) -> (lp = true <-> plain_attr (last (para_attrs (l_doc Li)) None)) ->
  p <> a \/ in_order (l_doc L) \/ one_para its2 = true /\ fp = true ->
  let n := Nat.min p a in let m := Nat.max p a in
  exists L' r, cursor_insert_markdown L p a es = Some (Ok (L', Some r))
   /\ doc_items (l_doc L') = Ok (put fp lp n m its its2)
   /\ (one_para its2 = false \/ lp = true \/ at_end (firstn n its ++ skipn m its) n = true -> r = put_end fp lp n m its its2).
Proof.
  intros R0 H R E Hp Ha E2 N Hf Hl O n m. destruct (markdown_parsed _ _ _ H) as (bs & -> & Hne & U & F). unfold cursor_insert_markdown. rewrite F. cbn [option_map].
  destruct (put_theorem false L0 bs L its its2 (join_lines (map fb_text (map fblock_of bs))) p a fp lp R0 Hne (fun _ => U) R E Hp Ha E2 N Hf Hl O) as (L' & r & H1 & H2 & H3).
  exists L', r. rewrite H1. easy.
Qed.
Lemma insert_html_theorem lh L0 page Li L its its2 p a fp lp : lreach L0 -> import_html lh L0 page = Some Li ->
  reach (l_doc L) -> doc_items (l_doc L) = Ok its -> p <= length its -> a <= length its ->
  doc_items (l_doc Li) = Ok its2 -> no_code_blocks Li ->
  (fp = true <-> plain_attr (hd None (para_attrs (l_doc Li)))) -> (lp = true <-> plain_attr (last (para_attrs (l_doc Li)) None)) ->
  p <> a \/ in_order (l_doc L) \/ one_para its2 = true /\ fp = true ->
  let n := Nat.min p a in let m := Nat.max p a in
  exists L' r, cursor_insert_html lh L p a page = Some (Ok (L', Some r))
   /\ doc_items (l_doc L') = Ok (put fp lp n m its its2)
   /\ (one_para its2 = false \/ lp = true \/ at_end (firstn n its ++ skipn m its) n = true -> r = put_end fp lp n m its its2).
Proof.
  intros R0 H R E Hp Ha E2 N Hf Hl O n m. destruct (html_parsed _ _ _ _ H) as (bs & -> & Hne & F). unfold cursor_insert_html. rewrite F. cbn [option_map].
  destruct (put_theorem true L0 bs L its its2 (join_lines (map fb_text (map fblock_of bs))) p a fp lp R0 Hne ltac:(easy) R E Hp Ha E2 N Hf Hl O) as (L' & r & H1 & H2 & H3).
  exists L', r. rewrite H1. easy.
Qed.
Lemma insert_markdown_text_theorem L0 es Li L its its2 p a : lreach L0 -> import_markdown L0 es = Some Li ->
  reach (l_doc L) -> doc_items (l_doc L) = Ok its -> p <= length its -> a <= length its ->
  doc_items (l_doc Li) = Ok its2 -> p <> a \/ in_order (l_doc L) ->
  exists L' r its' fp lp, cursor_insert_markdown L p a es = Some (Ok (L', Some r))
   /\ doc_items (l_doc L') = Ok its' /\ plain its' = plain (put fp lp (Nat.min p a) (Nat.max p a) its its2).
Proof.
  intros R0 H R E Hp Ha E2 O. destruct (markdown_parsed _ _ _ H) as (bs & -> & Hne & U & F). unfold cursor_insert_markdown. rewrite F. cbn [option_map].
  destruct (put_text_theorem false L0 bs L its its2 (join_lines (map fb_text (map fblock_of bs))) p a R0 Hne R E Hp Ha E2 O) as (L' & r & its' & fp & lp & H1 & H2).
  exists L', r, its', fp, lp. rewrite H1. easy.
Qed.
Lemma insert_html_text_theorem lh L0 page Li L its its2 p a : lreach L0 -> import_html lh L0 page = Some Li ->
  reach (l_doc L) -> doc_items (l_doc L) = Ok its -> p <= length its -> a <= length its ->
  doc_items (l_doc Li) = Ok its2 -> p <> a \/ in_order (l_doc L) ->
  exists L' r its' fp lp, cursor_insert_html lh L p a page = Some (Ok (L', Some r))
   /\ doc_items (l_doc L') = Ok its' /\ plain its' = plain (put fp lp (Nat.min p a) (Nat.max p a) its its2).
Proof.
  intros R0 H R E Hp Ha E2 O. destruct (html_parsed _ _ _ _ H) as (bs & -> & Hne & F). unfold cursor_insert_html. rewrite F. cbn [option_map].
  destruct (put_text_theorem true L0 bs L its its2 (join_lines (map fb_text (map fblock_of bs))) p a R0 Hne R E Hp Ha E2 O) as (L' & r & its' & fp & lp & H1 & H2).
  exists L', r, its', fp, lp. rewrite H1. easy.
Qed.

Lemma blank_markdown_theorem L0 es Li L : lreach L0 -> import_markdown L0 es = Some Li -> no_code_blocks Li ->
  lreach L -> doc_items (l_doc L) = Ok [] -> para_attrs (l_doc L) = [Some (None, bfmt_default)] ->
  exists L' r atts atts', cursor_insert_markdown L 0 0 es = Some (Ok (L', Some r))
   /\ doc_items (l_doc L') = doc_items (l_doc Li)
   /\ para_attrs (l_doc Li) = map Some atts /\ para_attrs (l_doc L') = map Some atts'
   /\ map snd atts' = map snd atts /\ Forall2 (joins L') (map (list_at Li) atts) (map fst atts').
Proof.
  intros R0 H N R E B. destruct (markdown_parsed _ _ _ H) as (bs & -> & Hne & U & F). unfold cursor_insert_markdown. rewrite F. cbn [option_map].
  destruct (blank_theorem false L0 bs L (join_lines (map fb_text (map fblock_of bs))) R0 Hne (fun _ => U) R E B N) as (L' & r & atts & atts' & H1 & H2).
  exists L', r, atts, atts'. rewrite H1. easy.
Qed.
Lemma blank_html_theorem lh L0 page Li L : lreach L0 -> import_html lh L0 page = Some Li -> no_code_blocks Li ->
  lreach L -> doc_items (l_doc L) = Ok [] -> para_attrs (l_doc L) = [Some (None, bfmt_default)] ->
  exists L' r atts atts', cursor_insert_html lh L 0 0 page = Some (Ok (L', Some r))
   /\ doc_items (l_doc L') = doc_items (l_doc Li)
   /\ para_attrs (l_doc Li) = map Some atts /\ para_attrs (l_doc L') = map Some atts'
   /\ map snd atts' = map snd atts /\ Forall2 (joins L') (map (list_at Li) atts) (map fst atts').
Proof.
  intros R0 H N R E B. destruct (html_parsed _ _ _ _ H) as (bs & -> & Hne & F). unfold cursor_insert_html. rewrite F. cbn [option_map].
  destruct (blank_theorem true L0 bs L (join_lines (map fb_text (map fblock_of bs))) R0 Hne ltac:(easy) R E B N) as (L' & r & atts & atts' & H1 & H2).
  exists L', r, atts, atts'. rewrite H1. easy.
Qed.

(** ** One line *)
Lemma shows_line L x : document_shows L [mk_dpara x bfmt_default Other] ->
  exists its, doc_items (l_doc L) = Ok its /\ its = x /\ one_para its = true /\ para_attrs (l_doc L) = [Some (None, bfmt_default)] /\ no_code_blocks L.
Proof.
  intros (its & ls & E & P & Ln & A & _ & N & _). exists its. split; [easy|]. cbn in P.
  assert (Ei : its = x) by (rewrite <- (join_paragraphs its), P; reflexivity). split; [easy|].
  split; [unfold one_para; now rewrite P|]. destruct ls as [|l [|]]; try easy. cbn in A.
  specialize (N 0 eq_refl). cbn in N. injection N as ->. split; [easy|]. intros a Ha. rewrite A in Ha. destruct Ha as [<-|[]]. now exists None, bfmt_default.
Qed.
Lemma put_line n m its x : put true true n m its x = firstn n its ++ x ++ skipn m its.
Proof. reflexivity. Qed.
Lemma markdown_line_theorem L its l p a : reach (l_doc L) -> doc_items (l_doc L) = Ok its -> p <= length its -> a <= length its ->
  clean_all l = true -> one_line l = true ->
  let n := Nat.min p a in let m := Nat.max p a in
  exists L', cursor_insert_markdown L p a (page_events [MPara l]) = Some (Ok (L', Some (n + length (one_shown l))))
   /\ doc_items (l_doc L') = Ok (firstn n its ++ shown_items (one_shown l) ++ skipn m its).
Proof.
  intros R E Hp Ha C O n m. destruct (markdown_import_theorem MdReadRefuted.blank [MPara l] blank_lreach) as (Li & H & _ & S).
  { unfold gentle_page. cbn. now rewrite C. }
  assert (Ex : page_paras [MPara l] = [(KPara, one_shown l)]).
  { unfold page_paras, one_shown. cbn. rewrite app_nil_r. unfold one_line in O. destruct (shown_lines l) as [|x [|]]; try easy. cbn. now rewrite app_nil_r. }
  rewrite Ex in S. cbn in S. destruct (shows_line _ _ S) as (its2 & E2 & X & O2 & A & N).
  destruct (insert_markdown_theorem _ _ _ L its its2 p a true true blank_lreach H R E Hp Ha E2 N) as (L' & r & H1 & H2 & H3).
  - rewrite A. split; easy.
  - rewrite A. split; easy.
  - right. right. easy.
  - exists L'. rewrite H1, H2. fold n m. rewrite put_line, X. split; [|easy]. rewrite H3 by (now right; left). fold n m. unfold put_end. cbn.
    rewrite X. unfold shown_items. rewrite map_length. do 4 f_equal. cbn [snd]. lia.
Qed.
Lemma inline_paras lh d : inline_only d = true -> elem_paras lh None 0 d = [].
Proof. destruct d as [t|n attrs kids|k]; try easy. cbn. destruct (special n); easy. Qed.
Lemma html_line_theorem lh L its page p a : reach (l_doc L) -> doc_items (l_doc L) = Ok its -> p <= length its -> a <= length its ->
  forallb inline_only page = true -> Forall (fun d => height d <= 128) page ->
  let n := Nat.min p a in let m := Nat.max p a in
  exists L', cursor_insert_html lh L p a page = Some (Ok (L', Some (n + length (own_chars bare page))))
   /\ doc_items (l_doc L') = Ok (firstn n its ++ shown_items (own_chars bare page) ++ skipn m its).
Proof.
  intros R E Hp Ha C O n m. destruct (html_import_theorem lh MdReadRefuted.blank page blank_lreach) as (Li & H & _ & S); [split; [now left|easy]|].
  assert (Ex : page_shown lh page = [mk_dpara (shown_items (own_chars bare page)) bfmt_default Other]).
  { unfold page_shown. replace (flat_map (elem_paras lh None 0) page) with (@nil dpara).
    - destruct (own_chars bare page); reflexivity.
    - clear - C. induction page as [|d l IH]; [easy|]. cbn in C |- *. apply andb_prop in C as [C1 C2]. rewrite (inline_paras lh d C1). now apply IH. }
  rewrite Ex in S. destruct (shows_line _ _ S) as (its2 & E2 & X & O2 & A & N).
  destruct (insert_html_theorem _ _ _ _ L its its2 p a true true blank_lreach H R E Hp Ha E2 N) as (L' & r & H1 & H2 & H3).
  - rewrite A. split; easy.
  - rewrite A. split; easy.
  - right. right. easy.
  - exists L'. rewrite H1, H2. fold n m. rewrite put_line, X. split; [|easy]. rewrite H3 by (now right; left). fold n m. unfold put_end. cbn.
    rewrite X. unfold shown_items. rewrite map_length. do 4 f_equal. cbn [snd]. lia.
Qed.

(** ** Refuted *)
Definition code_page : list mblock := [MCode (Some (txt "rust")) [txt "f"]].
Lemma insert_code_w : exists es Li L' r f f', import_markdown MdReadRefuted.blank es = Some Li /\ para_attrs (l_doc Li) = [Some (None, f)]
  /\ f_is_code_block f = Some true /\ f_code_language f = Some (txt "rust")
  /\ cursor_insert_markdown MdReadRefuted.blank 0 0 es = Some (Ok (L', r)) /\ para_attrs (l_doc L') = [Some (None, f')]
  /\ f_is_code_block f' = None /\ f_code_language f' = None.
Proof.
  exists (page_events code_page). do 5 eexists. split; [vm_compute; reflexivity|]. split; [vm_compute; reflexivity|]. do 2 (split; [reflexivity|]).
  split; [vm_compute; reflexivity|]. split; [vm_compute; reflexivity|]. split; reflexivity.
Qed.
Lemma insert_pre_w : exists page Li L' r f f', import_html no_number MdReadRefuted.blank page = Some Li
  /\ doc_items (l_doc Li) = Ok [Chr 120%N f] /\ font_family f = Some (txt "monospace")
  /\ cursor_insert_html no_number MdReadRefuted.blank 0 0 page = Some (Ok (L', r))
  /\ doc_items (l_doc L') = Ok [Chr 120%N f'] /\ font_family f' = None.
Proof.
  exists [el "pre" [tx "x"]]. do 5 eexists. split; [vm_compute; reflexivity|]. split; [vm_compute; reflexivity|]. split; [reflexivity|].
  split; [vm_compute; reflexivity|]. split; [vm_compute; reflexivity|]. reflexivity.
Qed.
Definition quoted (t : str) : list event := [EStartQuote; EStartParagraph; EText t; EEndParagraph; EEndQuote].
Lemma insert_quote_w : exists es es' b b', parse_markdown es = [PBlock b] /\ pb_quotes b = 1 /\ parse_markdown es' = [PBlock b'] /\ pb_quotes b' = 0
  /\ fragment_from_markdown es = fragment_from_markdown es'.
Proof. exists (quoted (txt "q")), (page_events [MPara (word "q")]). do 2 eexists. repeat split. Qed.

Definition mixed_page : list mblock :=
  [MHead 1 (word "T"); MPara [IText (txt "a"); IStrong [IText (txt "b")]]; MList false true [[MPara (word "x")]]].
Lemma checked_no_code L :
  forallb (fun a => match a with Some (_, f) => match f_is_code_block f, f_code_language f with None, None => true | _, _ => false end | None => false end) (para_attrs (l_doc L)) = true ->
  no_code_blocks L.
Proof.
  intros F a Ha. rewrite forallb_forall in F. specialize (F _ Ha). destruct a as [[l f]|]; [|easy].
  exists l, f. destruct (f_is_code_block f); [easy|]. destruct (f_code_language f); easy.
Qed.
Lemma mixed_no_code : no_code_blocks (MdReadRefuted.read mixed_page).
Proof. apply checked_no_code. vm_compute. reflexivity. Qed.
