(** Writing a document as HTML and reading it back. *)
From Coq Require Import Ascii String.
From Verif Require Import Base BaseFacts FormatRunsModel RopeModel DocModel DocSpec DocInv DocReach DocTheorems ListModel ListSpec ListDocModel ListDocSpec ListDocFacts PropSpec QueryModel QueryTheorems
  DocRefuted FragmentRefuted ExportModel ExportSpec ExportUnique ExportHtml ExportRefuted ExportTheorems ImportModel ImportSpec MdReadModel DocShows MdReadSpec MdReadTheorems MdReadRefuted
  HtmlReadModel HtmlReadSpec HtmlReadFacts HtmlReadTheorems HtmlRoundSpec HtmlRoundFacts.

Lemma paragraphs_clean its p : In p (paragraphs its) -> forall x, In x p -> x <> Brk.
Proof.
  revert p. induction its as [|y its IH]; intros p Hp x Hx; cbn [paragraphs] in Hp.
  - destruct Hp as [<-|[]]. easy.
  - destruct y as [c f|].
    + destruct (paragraphs its) as [|q qs].
      * destruct Hp as [<-|[]]. destruct Hx as [<-|[]]. discriminate.
      * destruct Hp as [<-|Hp]; [|apply (IH p); [now right|exact Hx]]. destruct Hx as [<-|Hx]; [discriminate|]. apply (IH q); [now left|exact Hx].
    + destruct Hp as [<-|Hp]; [easy|]. now apply (IH p).
Qed.
Lemma attrs_length d its atts : reach d -> doc_items d = Ok its -> para_attrs d = map Some atts -> length atts = length (paragraphs its).
Proof.
  intros R E A. rewrite <- (paragraphs_number d its R E). apply (f_equal (@length _)) in A. unfold para_attrs in A. now rewrite !map_length in A.
Qed.
Lemma conv_doc lh height L : forall atts ps, (forall p, In p ps -> p <> [] /\ forall x, In x p -> x <> Brk) ->
  (forall a z, In a atts -> f_line_height (snd a) = Some z -> neat (height z) /\ lh (height z) = Some z) -> neat_colors atts -> neat_languages atts ->
  Forall readable (doc_shown height L atts ps) /\ map (conv lh) (doc_shown height L atts ps) = kept L atts ps.
Proof.
  induction atts as [|a atts IH]; intros ps Hp Hh Hc Hl; [split; [constructor|easy]|]. destruct ps as [|p ps]; [split; [constructor|easy]|].
  destruct (IH ps) as [I1 I2].
  - intros q Hq. apply Hp. now right.
  - intros b z Hb. apply Hh. now right.
  - intros b c Hb. apply (Hc b). now right.
  - intros b c Hb. apply (Hl b). now right.
  - destruct (Hp p ltac:(now left)) as [P1 P2].
    destruct (conv_para lh height L a p P2 P1) as [C1 C2].
    + intros z. apply Hh. now left.
    + intros c. apply (Hc a). now left.
    + intros c. apply (Hl a). now left.
    + cbn [doc_shown kept map]. rewrite C2, I2. split; [now constructor|easy].
Qed.

Lemma html_round_theorem lh height L0 L its atts : lreach L0 -> reach (l_doc L) -> doc_items (l_doc L) = Ok its -> para_attrs (l_doc L) = map Some atts ->
  steady L atts -> calm_colors atts -> (forall z, calm (height z)) ->
  (forall p, In p (paragraphs its) -> p <> []) -> heights_read lh height atts -> neat_colors atts -> neat_languages atts ->
  exists L', html_round lh height L0 L L' /\ lreach L' /\ document_shows L' (kept L atts (paragraphs its)).
Proof.
  intros R0 R E A S C Hh N Hr Hc Hl. destruct (html_page_theorem height L its atts R E A S C Hh) as (s & ns & E1 & U & B).
  pose proof (attrs_length _ _ _ R E A) as Len.
  assert (Sh : nheights ns <= 127).
  { destruct (reach_items _ R) as (ps & W & Ei). destruct (blocks_ok_doc _ _ W) as (atts' & Ea' & Bo). assert (atts' = atts).
    { rewrite A in Ea'. clear - Ea'. revert atts Ea'. induction atts' as [|x l IH]; intros [|y m]; cbn; try discriminate; [easy|]. intros [= -> Em]. f_equal. auto. }
    subst atts'. destruct (shallow_blocks height Hh L _ _ _ Bo C None I) as (x & Ex & ms & Hm & Hle).
    unfold export_html, export_blocks in E1. rewrite Ex in E1. cbn [bind] in E1. injection E1 as <-. pose proof (page_html _ _ Hm) as P. apply U in P.
    unfold page in P. injection P as ->. lia. }
  destruct (conv_doc lh height L atts (paragraphs its)) as [C1 C2]; try assumption.
  { intros p Hp. split; [now apply N|]. now apply (paragraphs_clean its). }
  destruct (page_tree lh ns _ B C1) as [G Sp]; [|exact Sh|].
  { destruct (paragraphs its) as [|p ps] eqn:Ep; [exfalso; clear - Ep; destruct its as [|[|] its]; cbn in Ep; try easy; now destruct (paragraphs its)|].
    destruct atts; [discriminate|]. discriminate. }
  destruct (html_import_theorem lh L0 (fragment_tree (page ns)) R0 G) as (L' & I1 & I2 & I3). rewrite Sp, C2 in I3.
  exists L'. split; [|easy]. exists s, (page ns). easy.
Qed.

(** ** A second round trip loses nothing more *)
Definition placed (L : ldoc) (l : option id) (d : dpara) : Prop :=
  match dp_piece d with
  | ListModel.Item st n => exists i, l = Some i /\ get_list L i = Some (mk_list st (Z.of_nat n) [] [])
  | _ => l = None
  end.
Lemma kept_char_twice x : kept_char (kept_char x) = kept_char x.
Proof. destruct x as [c f|]; [|easy]. cbn. now rewrite (look_of_fmt (look_of f) _ eq_refl). Qed.
Lemma kept_code_twice x : kept_code_char (kept_code_char x) = kept_code_char x.
Proof. now destruct x. Qed.
Lemma kept_para_twice L L' a p l : placed L' l (kept_para L a p) -> 
  kept_para L' (l, dp_fmt (kept_para L a p)) (dp_items (kept_para L a p)) = kept_para L a p.
Proof.
  unfold kept_para, placed. destruct (on (f_is_code_block (snd a))) eqn:Ec; cbn [dp_piece dp_fmt dp_items].
  - intros ->. cbn [snd f_is_code_block on]. rewrite map_map. f_equal.
    + apply map_ext. apply kept_code_twice.
    + cbn [f_code_language]. now destruct (f_code_language (snd a)) as [[|]|].
  - destruct (listed L a) as [e|]; cbn [dp_piece dp_fmt dp_items].
    + intros (i & -> & H). cbn [snd bfmt_default f_is_code_block on]. unfold listed. cbn [fst]. rewrite H. cbn [l_style]. f_equal.
      * rewrite map_map. apply map_ext. apply kept_char_twice.
      * now destruct (numbered (l_style e)).
    + intros ->. cbn [snd f_is_code_block on listed fst f_heading_level f_line_height f_non_breakable_lines f_direction f_background_color].
      rewrite map_map. f_equal; [apply map_ext; apply kept_char_twice|]. f_equal.
      * destruct (f_heading_level (snd a)); [|easy]. cbn [option_map]. f_equal. lia.
      * unfold yes. now destruct (on (f_non_breakable_lines (snd a))).
      * now destruct (f_direction (snd a)) as [[|[| |]]|].
Qed.
Lemma kept_twice L L' : forall atts ps ls, Forall2 (placed L') ls (kept L atts ps) ->
  kept L' (combine ls (map dp_fmt (kept L atts ps))) (map dp_items (kept L atts ps)) = kept L atts ps.
Proof.
  induction atts as [|a atts IH]; intros ps ls F; [cbn [kept map combine] in *; inversion F; easy|].
  destruct ps as [|p ps]; [cbn [kept map combine] in *; inversion F; easy|]. cbn [kept] in F. inversion F as [|l d ls' ds Hl F']; subst.
  cbn [kept map combine]. now rewrite kept_para_twice, IH.
Qed.
Lemma steady_kept L L' : forall atts ps ls, steady L atts -> Forall2 (placed L') ls (kept L atts ps) ->
  steady L' (combine ls (map dp_fmt (kept L atts ps))).
Proof.
  assert (K : forall a p l e, placed L' l (kept_para L a p) -> listed L' (l, dp_fmt (kept_para L a p)) = Some e ->
    on (f_is_code_block (dp_fmt (kept_para L a p))) = false /\ on (f_is_code_block (snd a)) = false
    /\ exists e0, listed L a = Some e0 /\ numbered (l_style e) = numbered (l_style e0)).
  { intros a p l e. unfold kept_para, placed. destruct (on (f_is_code_block (snd a))) eqn:Ec; cbn [dp_piece dp_fmt]; [intros ->; easy|].
    destruct (listed L a) as [e0|]; cbn [dp_piece dp_fmt]; [|intros ->; easy]. intros (i & -> & H). unfold listed. cbn [fst]. rewrite H. intros [= <-].
    split; [easy|]. split; [easy|]. exists e0. split; [easy|]. cbn [l_style]. now destruct (numbered (l_style e0)). }
  induction atts as [|a atts IH]; intros ps ls S F; [cbn [kept map combine] in *; now destruct ls|].
  destruct ps as [|p ps]; [cbn [kept map combine] in *; now destruct ls|]. cbn [kept] in F. inversion F as [|l d ls' ds Hl F']; subst.
  cbn [kept map combine]. pose proof (IH ps ls' (steady_tail _ _ _ S) F') as St.
  destruct atts as [|b atts]; [cbn [kept map]; destruct ls'; [easy|inversion F']|]. destruct ps as [|q ps]; [cbn [kept map]; destruct ls'; [easy|inversion F']|].
  cbn [kept map] in *. inversion F' as [|l2 d2 ls2 ds2 Hl2 F2]; subst. cbn [combine] in *. split; [|exact St].
  destruct (listed L' (l, dp_fmt (kept_para L a p))) as [e|] eqn:E1; [|easy].
  destruct (listed L' (l2, dp_fmt (kept_para L b q))) as [e'|] eqn:E2; [|easy]. intros _.
  destruct (K _ _ _ _ Hl E1) as (_ & A1 & e0 & A2 & A3). destruct (K _ _ _ _ Hl2 E2) as (B0 & B1 & e1 & B2 & B3).
  split; [exact B0|]. rewrite A3, B3. destruct S as [S _]. rewrite A2, B2 in S. now apply S.
Qed.
Lemma kept_formats L : forall atts ps d, In d (kept L atts ps) -> exists a p, In a atts /\ In p ps /\ d = kept_para L a p.
Proof.
  induction atts as [|a atts IH]; intros [|p ps] d H; try easy. destruct H as [<-|H].
  - exists a, p. repeat split; now left.
  - destruct (IH ps d H) as (b & q & A & B & ->). exists b, q. repeat split; now right.
Qed.
Lemma kept_fields L a p : (forall z, f_line_height (dp_fmt (kept_para L a p)) = Some z -> f_line_height (snd a) = Some z)
  /\ (forall c, f_background_color (dp_fmt (kept_para L a p)) = Some c -> f_background_color (snd a) = Some c)
  /\ (forall c, f_code_language (dp_fmt (kept_para L a p)) = Some c -> f_code_language (snd a) = Some c)
  /\ (p <> [] -> dp_items (kept_para L a p) <> []).
Proof.
  unfold kept_para. destruct (on (f_is_code_block (snd a))); [|destruct (listed L a)]; cbn; repeat split; try easy; try (now destruct p).
  now destruct (f_code_language (snd a)) as [[|]|].
Qed.
Lemma placed_all L' K ls : length ls = length K ->
  (forall k st n, nth_error (map dp_piece K) k = Some (ListModel.Item st n) -> exists l, nth_error ls k = Some (Some l) /\ get_list L' l = Some (mk_list st (Z.of_nat n) [] [])) ->
  (forall k, nth_error (map dp_piece K) k = Some Other -> nth_error ls k = Some None) ->
  Forall2 (placed L') ls K.
Proof.
  revert ls. induction K as [|d K IH]; intros [|l ls] Len A B; try discriminate; constructor.
  - unfold placed. destruct (dp_piece d) as [st n|] eqn:E.
    + destruct (A 0 st n) as (i & Hi & Hg); [cbn; now rewrite E|]. injection Hi as ->. eauto.
    + specialize (B 0 ltac:(cbn; now rewrite E)). now injection B.
  - apply IH; [now injection Len|intros k st n Hk; exact (A (S k) st n Hk)|intros k Hk; exact (B (S k) Hk)].
Qed.
Lemma html_twice_theorem lh height L0 L its atts L' : lreach L0 -> reach (l_doc L) -> doc_items (l_doc L) = Ok its -> para_attrs (l_doc L) = map Some atts ->
  steady L atts -> calm_colors atts -> (forall z, calm (height z)) ->
  (forall p, In p (paragraphs its) -> p <> []) -> heights_read lh height atts -> neat_colors atts -> neat_languages atts ->
  lreach L' -> document_shows L' (kept L atts (paragraphs its)) ->
  exists L2, html_round lh height L0 L' L2 /\ lreach L2 /\ document_shows L2 (kept L atts (paragraphs its)).
Proof.
  intros R0 R E A S C Hh N Hr Hc Hl R' (its' & ls & D1 & D2 & D3 & D4 & D5 & D6 & _).
  set (K := kept L atts (paragraphs its)) in *. pose proof (placed_all L' K ls D3 D5 D6) as F.
  assert (In' : forall a, In a (combine ls (map dp_fmt K)) -> exists b p, In b atts /\ In p (paragraphs its) /\ snd a = dp_fmt (kept_para L b p)).
  { intros [l f] Ha. apply in_combine_r, in_map_iff in Ha. destruct Ha as (d & <- & Hd). destruct (kept_formats _ _ _ _ Hd) as (b & p & B1 & B2 & ->). now exists b, p. }
  destruct (html_round_theorem lh height L0 L' its' (combine ls (map dp_fmt K))) as (L2 & X1 & X2 & X4); try assumption.
  - now apply lists_ok.
  - now apply steady_kept.
  - intros a c Ha Hac. destruct (In' a Ha) as (b & p & B1 & B2 & B3). rewrite B3 in Hac. apply (C b); [exact B1|]. now apply (kept_fields L b p).
  - rewrite D2. intros p Hp. apply in_map_iff in Hp as (d & <- & Hd). destruct (kept_formats _ _ _ _ Hd) as (b & q & B1 & B2 & ->).
    apply kept_fields. now apply N.
  - intros a z Ha Hz. destruct (In' a Ha) as (b & p & B1 & B2 & B3). rewrite B3 in Hz. apply (Hr b); [exact B1|]. now apply (kept_fields L b p).
  - intros a c Ha Hac. destruct (In' a Ha) as (b & p & B1 & B2 & B3). rewrite B3 in Hac. apply (Hc b); [exact B1|]. now apply (kept_fields L b p).
  - intros a c Ha Hac. destruct (In' a Ha) as (b & p & B1 & B2 & B3). rewrite B3 in Hac. apply (Hl b); [exact B1|]. now apply (kept_fields L b p).
  - exists L2. rewrite D2 in X4. unfold K in X4. rewrite kept_twice in X4 by exact F. easy.
Qed.

(** ** Documents that change *)
Lemma letters x : calm (txt x) -> html (txt x) (map Ch (txt x)).
Proof. intros H. apply html_reads_nodes. now apply calm_reads. Qed.
Definition para (x : string) : node := Elem (txt "p") [] (map Ch (txt x)).
Lemma para_html x : calm (txt x) -> html (tag (txt "p") (txt x)) [para x].
Proof. intros H. apply html_tag; [name|notvoid|]. now apply letters. Qed.
Definition no_height (_ : Z) : str := [].
Definition back (t : list node) : ldoc := match import_html no_number MdReadRefuted.blank (fragment_tree (page t)) with Some L => L | None => MdReadRefuted.blank end.
Lemma round_by L body t : export_html no_height L = Ok (html_page body) -> html body t ->
  flat_blocks (parse_html no_number (fragment_tree (page t))) <> None -> html_round no_number no_height MdReadRefuted.blank L (back t).
Proof.
  intros E H N. exists (html_page body), (page t). split; [exact E|]. split.
  - intros l. split; [|intros ->; now apply page_html]. intros Hl. apply (html_one_reading (html_page body)); [exact Hl|now apply page_html].
  - unfold back, import_html. now destruct (flat_blocks _).
Qed.
(** "ab" and an empty paragraph. *)
Definition with_empty : ldoc := no_lists (match insert_block (import_plain_text new_document (txt "ab")) 2 with Ok (d, _, _) => d | _ => new_document end).
Lemma with_empty_lreach : lreach with_empty.
Proof.
  apply no_lists_lreach. eapply (reach_break (import_plain_text new_document (txt "ab")) 2); [apply reach_import, reach_new|vm_compute; reflexivity].
Qed.
Lemma round_empty_w : exists L L', lreach L /\ html_round no_number no_height MdReadRefuted.blank L L'
  /\ length (d_order (l_doc L)) = 2 /\ length (d_order (l_doc L')) = 1.
Proof.
  exists with_empty, (back [para "ab"; para ""]). split; [apply with_empty_lreach|]. split.
  - apply (round_by _ (tag (txt "p") (txt "ab") ++ tag (txt "p") (txt ""))); [vm_compute; reflexivity| |vm_compute; discriminate].
    apply (html_app _ _ (para_html "ab" ltac:(now apply calm_lit)) _ _ (para_html "" ltac:(now apply calm_lit))).
  - split; vm_compute; reflexivity.
Qed.
Definition item_of (x : string) : node := Elem (txt "li") [] (map Ch (txt x)).
Lemma item_html x : calm (txt x) -> html (tag (txt "li") (txt x)) [item_of x].
Proof. intros H. apply html_tag; [name|notvoid|]. now apply letters. Qed.
Definition two_items_page : list node := [Elem (txt "ol") [] [item_of "ab"; item_of "cd"]].
Lemma two_items_html : html (tag (txt "ol") (tag (txt "li") (txt "ab") ++ tag (txt "li") (txt "cd"))) two_items_page.
Proof.
  apply html_tag; [name|notvoid|]. apply (html_app _ _ (item_html "ab" ltac:(now apply calm_lit)) _ _ (item_html "cd" ltac:(now apply calm_lit))).
Qed.
Lemma round_lists_w : exists L L', lreach L /\ html_round no_number no_height MdReadRefuted.blank L L'
  /\ markers L = [Ok (Some (txt "1")); Ok (Some (txt "1"))] /\ markers L' = [Ok (Some (txt "1")); Ok (Some (txt "2"))].
Proof.
  exists two_lists, (back two_items_page). split; [apply with_list_lreach, with_list_lreach, no_lists_lreach, two_paras_reach|]. split.
  - eapply round_by; [|exact two_items_html|vm_compute; discriminate]. vm_compute. reflexivity.
  - split; vm_compute; reflexivity.
Qed.
Definition letters_list : ldoc := with_list 0 5 LowerAlpha (no_lists two_paras).
Lemma round_style_w : exists L L', lreach L /\ html_round no_number no_height MdReadRefuted.blank L L'
  /\ markers L = [Ok (Some (txt "a")); Ok (Some (txt "b"))] /\ markers L' = [Ok (Some (txt "1")); Ok (Some (txt "2"))].
Proof.
  exists letters_list, (back two_items_page). split; [apply with_list_lreach, no_lists_lreach, two_paras_reach|]. split.
  - eapply round_by; [|exact two_items_html|vm_compute; discriminate]. vm_compute. reflexivity.
  - split; vm_compute; reflexivity.
Qed.
Definition center_page : list node := [Elem (txt "p") [(txt "style", txt "text-align: center")] (map Ch (txt "ab")); para "cd"].
Lemma round_align_w : exists L L', lreach L /\ html_round no_number no_height MdReadRefuted.blank L L'
  /\ map (option_map (fun a => f_alignment (snd a))) (para_attrs (l_doc L)) = [Some (Some 2%N); Some None]
  /\ map (option_map (fun a => f_alignment (snd a))) (para_attrs (l_doc L')) = [Some None; Some None].
Proof.
  exists (with_format center_req 0 0 (no_lists two_paras)), (back center_page).
  split; [apply with_format_lreach, no_lists_lreach, two_paras_reach|]. split.
  - assert (H : html ((lit "<" ++ txt "p" ++ (txt " " ++ txt "style" ++ txt "=""" ++ txt "text-align: center" ++ txt """" ++ []) ++ lit ">" ++ txt "ab" ++ lit "</" ++ txt "p" ++ lit ">") ++ tag (txt "p") (txt "cd")) center_page).
    { apply (html_app _ [Elem (txt "p") [(txt "style", txt "text-align: center")] (map Ch (txt "ab"))]); [|apply para_html; now apply calm_lit].
      apply elem_attr; [name|notvoid| |apply letters; now apply calm_lit].
      apply attrs_cons; [name|apply calm_reads; now apply calm_lit|constructor]. }
    eapply round_by; [|exact H|vm_compute; discriminate]. vm_compute. reflexivity.
  - split; vm_compute; reflexivity.
Qed.
Lemma round_height_w : exists h, (0 < h)%Z /\ line_height_back h = (h - 1)%Z.
Proof. exists 1001%Z. split; vm_compute; reflexivity. Qed.
