From Coq Require Import Lia.
From Verif Require Import Base BaseFacts FormatRunsModel RopeModel DocModel DocSpec DocInv PropSpec DocReach DocTheorems QueryModel QuerySpec QueryTheorems HistModel
  ListModel ListSpec ListDocModel ListDocSpec ListDocFacts FragmentModel FragmentText FragmentSpec FragmentCopySpec FragmentCopy FragmentTheorems
  ImportModel ImportSpec MdReadModel DocShows ImportTheorems HtmlReadModel FragmentReadModel FragmentReadSpec.

Definition unstyled (b : pblock) : Prop := pb_line_height b = None /\ pb_non_breakable b = None /\ pb_direction b = None /\ pb_background b = None.
Definition uncoded (b : pblock) : Prop := pb_code b = false /\ pb_language b = None.

Lemma blocks_flat l bs : flat_blocks l = Some bs -> fragment_blocks l = Some (map fblock_of bs).
Proof.
  revert bs. induction l as [|[b|t] l IH]; cbn [flat_blocks fragment_blocks]; intros bs H; [injection H as <-; reflexivity| |easy].
  destruct (pb_quotes b =? 0); [|easy]. destruct (flat_blocks l) as [r|]; [|easy]. cbn in H. injection H as <-.
  now rewrite (IH _ eq_refl).
Qed.
Lemma fblock_text b : text_only (fblock_of b).
Proof.
  split; cbn [fblock_of fb_text fb_elems].
  - induction (pb_spans b); cbn; constructor; easy.
  - unfold span_text. induction (pb_spans b) as [|s l IH]; [easy|]. cbn [map flat_map]. now rewrite IH.
Qed.
Lemma fblocks_text bs : Forall text_only (map fblock_of bs).
Proof. induction bs; cbn; constructor; [apply fblock_text|easy]. Qed.
Lemma fblock_items b : pb_code b = false -> fb_items (fblock_of b) = block_items b.
Proof.
  intros H. unfold fb_items, block_items. cbn [fblock_of fb_elems]. rewrite H.
  induction (pb_spans b) as [|s l IH]; [easy|]. cbn [map flat_map]. now rewrite IH.
Qed.
Lemma plain_app a b : plain (a ++ b) = plain a ++ plain b.
Proof. apply map_app. Qed.
Lemma plain_chars t f : plain (map (fun c => Chr c f) t) = t.
Proof. unfold plain. rewrite map_map. cbn. apply map_id. Qed.
Lemma fblock_plain b : plain (fb_items (fblock_of b)) = plain (block_items b).
Proof.
  unfold fb_items, block_items. cbn [fblock_of fb_elems].
  induction (pb_spans b) as [|s l IH]; [easy|]. cbn [map flat_map]. rewrite !plain_app, IH. f_equal.
  unfold span_items. cbn [element_of seg_items]. now rewrite !plain_chars.
Qed.
Lemma fblock_fmt html b : uncoded b -> (html = false -> unstyled b) -> fb_fmt (fblock_of b) = pblock_fmt html b.
Proof.
  intros [H1 H2] H3. unfold pblock_fmt. cbn. rewrite H1, H2. destruct html; [easy|].
  destruct (H3 eq_refl) as (A & B & C & D). now rewrite A, B, C, D.
Qed.
Lemma inline_attr b : is_inline_only (fblock_of b) = true <-> pb_heading b = None /\ pb_list b = None /\ unstyled b.
Proof.
  unfold unstyled. destruct b as [sp [h|] [li|] ind c lang q [l|] [n|] [d|] [g|]]; cbn; split; intros H; try easy; destruct H as (H1 & H2 & H3 & H4 & H5 & H6); easy.
Qed.

Lemma join_plain_same l l' : Forall2 (fun a b => plain a = plain b) l l' -> plain (join_paras l) = plain (join_paras l').
Proof.
  induction 1 as [|x y l l' E F IH]; [easy|]. destruct F as [|x' y' l l' E' F].
  - cbn. easy.
  - change (join_paras (x :: x' :: l)) with (x ++ Brk :: join_paras (x' :: l)).
    change (join_paras (y :: y' :: l')) with (y ++ Brk :: join_paras (y' :: l')).
    rewrite !plain_app, E. cbn [plain map]. f_equal. f_equal. exact IH.
Qed.

(** The attributes of the imported document. *)
Definition agrees (html : bool) (Li : ldoc) (b : pblock) (a : option id * bfmt) : Prop :=
  snd a = pblock_fmt html b /\ list_at Li a = fb_list (fblock_of b) /\ (fst a = None <-> pb_list b = None).
Lemma agree_all html Li bs ls : length ls = length bs ->
  (forall k b l, nth_error bs k = Some b -> nth_error ls k = Some l ->
     list_at Li (l, pblock_fmt html b) = fb_list (fblock_of b) /\ (l = None <-> pb_list b = None)) ->
  Forall2 (agrees html Li) bs (combine ls (map (pblock_fmt html) bs)).
Proof.
  revert ls. induction bs as [|b bs IH]; intros [|l ls] E H; try easy; cbn [map combine]; [constructor|].
  constructor.
  - destruct (H 0 b l eq_refl eq_refl) as [A B]. split; [easy|]. split; easy.
  - apply IH; [now injection E|]. intros k b' l' H1 H2. apply (H (S k) b' l' H1 H2).
Qed.
Lemma imported html L bs : lreach L -> bs <> [] -> let Li := import_parsed html L bs in
  exists its atts, doc_items (l_doc Li) = Ok its /\ paragraphs its = map block_items bs /\ para_attrs (l_doc Li) = map Some atts
   /\ Forall2 (agrees html Li) bs atts.
Proof.
  intros R Hne Li. destruct (import_shows html L bs R Hne) as (its & ls & E & P & Ln & A & G & N & _). fold Li in E, A, G.
  rewrite map_length in Ln. rewrite map_map in P. cbn [block_para dp_items] in P. rewrite map_map in A. cbn [block_para dp_fmt] in A.
  exists its, (combine ls (map (pblock_fmt html) bs)). repeat (split; [assumption|]).
  apply agree_all; [exact Ln|]. intros k b l H1 H2. unfold list_at. cbn [fst fblock_of fb_list].
  rewrite map_map in G, N. cbn [block_para dp_piece] in G, N.
  destruct (pb_list b) as [st|] eqn:El; cbn [option_map].
  - destruct (G k st (pb_indent b)) as (l0 & H3 & H4).
    { rewrite nth_error_map, H1. cbn. unfold piece_of. now rewrite El. }
    rewrite H2 in H3. injection H3 as ->. rewrite H4. split; [easy|]. split; easy.
  - assert (H3 : nth_error ls k = Some None).
    { apply N. rewrite nth_error_map, H1. cbn. unfold piece_of. now rewrite El. }
    rewrite H2 in H3. injection H3 as ->. easy.
Qed.
Lemma agrees_coded html Li b a : agrees html Li b a -> f_is_code_block (snd a) = None -> f_code_language (snd a) = None -> uncoded b.
Proof. intros (H & _) H1 H2. rewrite H in H1, H2. cbn in H1, H2. unfold some_true in H1. destruct (pb_code b) eqn:E; [easy|]. split; easy. Qed.
Lemma no_code_all html Li bs atts : Forall2 (agrees html Li) bs atts -> para_attrs (l_doc Li) = map Some atts -> no_code_blocks Li -> Forall uncoded bs.
Proof.
  intros F A N. assert (G : forall a, In a atts -> f_is_code_block (snd a) = None /\ f_code_language (snd a) = None).
  { intros a Ha. destruct (N (Some a)) as (l & f & H1 & H2 & H3); [rewrite A; now apply in_map|]. injection H1 as ->. easy. }
  clear A N. induction F as [|b a bs atts H F IH]; constructor.
  - destruct (G a (or_introl eq_refl)) as [G1 G2]. exact (agrees_coded _ _ _ _ H G1 G2).
  - apply IH. intros x Hx. apply G. now right.
Qed.
(** A plain paragraph is one that is merged. *)
Lemma agrees_plain html Li b a : agrees html Li b a -> (html = false -> unstyled b) -> uncoded b ->
  is_inline_only (fblock_of b) = true <-> a = (None, bfmt_default).
Proof.
  intros (H1 & H2 & H3) U [C1 C2]. rewrite inline_attr. destruct a as [l f]. cbn in H1, H3. subst f. split.
  - intros (A & B & D & E & F & G). f_equal; [tauto|]. unfold pblock_fmt. rewrite A, C1, C2, D, E, F, G. now destruct html.
  - intros E. pose proof (f_equal snd E) as E0. apply (f_equal fst) in E. cbn in E, E0. split; [|split; [tauto|]].
    + unfold pblock_fmt in E0. now injection E0.
    + destruct html; [|now apply U]. unfold pblock_fmt in E0. unfold unstyled. now injection E0.
Qed.

Lemma fragment_shows html L bs : lreach L -> bs <> [] -> (html = false -> Forall unstyled bs) ->
  let Li := import_parsed html L bs in no_code_blocks Li -> same_paragraphs (map fblock_of bs) Li.
Proof.
  intros R Hne U Li N. destruct (imported html L bs R Hne) as (its & atts & E & P & A & F). fold Li in E, A, F.
  pose proof (no_code_all _ _ _ _ F A N) as C. exists its, atts. split; [easy|]. split; [easy|]. rewrite P. clear E P A N Hne. clearbody Li.
  assert (U' : html = false -> Forall unstyled bs) by easy. clear U. rewrite !map_map.
  induction F as [|b a bs atts H F IH]; [easy|]. inversion C as [|? ? C1 C2]; subst. cbn [map].
  destruct IH as (I1 & I2 & I3); [easy|intros Hh; specialize (U' Hh); now inversion U'|].
  destruct H as (H1 & H2 & H3). split; [|split]; f_equal; try easy.
  - apply fblock_items, C1.
  - rewrite H1. apply fblock_fmt; [easy|]. intros Hh. specialize (U' Hh). now inversion U'.
Qed.
Lemma fragment_plain html L bs : lreach L -> bs <> [] -> let Li := import_parsed html L bs in
  exists its, doc_items (l_doc Li) = Ok its /\ join_lines (map fb_text (map fblock_of bs)) = plain its
    /\ plain (fragment_items (map fblock_of bs)) = plain its.
Proof.
  intros R Hne Li. destruct (imported html L bs R Hne) as (its & atts & E & P & A & F). exists its. split; [easy|].
  assert (X : plain (fragment_items (map fblock_of bs)) = plain its).
  { rewrite <- (join_paragraphs its), P. unfold fragment_items. apply join_plain_same. rewrite map_map. clear.
    induction bs; cbn; constructor; [apply fblock_plain|easy]. }
  split; [|easy]. rewrite <- X. apply join_plain, fblocks_text.
Qed.
