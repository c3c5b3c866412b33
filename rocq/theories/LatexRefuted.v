(** Documents whose LaTeX is wrong. *)
From Coq Require Import Ascii String.
From Verif Require Import Base BaseFacts FormatRunsModel FormatRunsSpec RopeModel DocModel DocSpec HistModel QueryModel PropSpec DocTheorems DocRefuted
  ListModel ListDocModel ListDocSpec ListDocFacts FragmentModel FragmentText FragmentRefuted EscapeModel EscapeSpec ExportModel ExportSpec ExportRefuted ExportTheorems
  ImageModel MdModel LatexModel LatexSpec LatexUnique LatexFacts LatexTheorems.

Definition page_of (t : str) : ldoc := no_lists (import_plain_text new_document t).
Lemma page_reach t : reach (l_doc (page_of t)). Proof. apply reach_import, reach_new. Qed.
Lemma page_lreach t : lreach (page_of t). Proof. apply no_lists_lreach, page_reach. Qed.
Lemma only_reading s l : body_source s l -> forall m, body_source s m <-> m = l.
Proof. intros H m. split; [|now intros ->]. intros Hm. now apply (body_one _ _ _ Hm). Qed.
Definition plain_part (t : str) : part := PText (map TChar t).
Definition plain_texb (t : str) : bool := forallb (fun c => negb (existsb (N.eqb c) latex_active) && negb (c =? 10)%N) t.
Lemma plain_texb_ok t : plain_texb t = true -> plain_tex t.
Proof.
  unfold plain_texb. rewrite forallb_forall. intros H c Hc. specialize (H c Hc). apply andb_prop in H as [H1 H2]. split.
  - intros A. assert (existsb (N.eqb c) latex_active = true) by (rewrite existsb_exists; exists c; now rewrite N.eqb_refl). rewrite H in H1. discriminate.
  - intros ->. discriminate.
Qed.
Lemma plain_part_source t : plain_texb t = true -> t <> [] -> part_source t (plain_part t).
Proof. intros H N. constructor; [|easy]. apply plain_latex. now apply plain_texb_ok. Qed.

(** An empty paragraph is lost. *)
Lemma latex_empty_w : exists L1 L2 l, lreach L1 /\ lreach L2
  /\ export_plain_text (l_doc L1) = Ok (txt "a" ++ [NL; NL] ++ txt "b") /\ export_plain_text (l_doc L2) = Ok (txt "a" ++ [NL] ++ txt "b")
  /\ forall stretch class, exists s1 s2, export_latex stretch class false L1 = Ok s1 /\ export_latex stretch class false L2 = Ok s2
     /\ (forall m, body_source s1 m <-> m = l) /\ (forall m, body_source s2 m <-> m = l).
Proof.
  exists (page_of (txt "a" ++ [NL; NL] ++ txt "b")), (page_of (txt "a" ++ [NL] ++ txt "b")), [plain_part (txt "a"); plain_part (txt "b")].
  split; [apply page_lreach|]. split; [apply page_lreach|]. split; [vm_compute; reflexivity|]. split; [vm_compute; reflexivity|]. intros stretch class.
  exists (txt "a" ++ [NL; NL; NL; NL] ++ txt "b"), (txt "a" ++ [NL; NL] ++ txt "b").
  split; [vm_compute; reflexivity|]. split; [vm_compute; reflexivity|].
  assert (B : body_source (txt "b") [plain_part (txt "b")]).
  { rewrite <- (app_nil_r (txt "b")). apply b_part; [now apply plain_part_source|now left|constructor]. }
  split; apply only_reading; (apply b_part; [now apply plain_part_source|right; now eexists|]); now repeat apply b_skip.
Qed.

(** A bracket at the beginning of an item is taken for its label. *)
Definition bracket_item : ldoc := with_list 0 1 Disc (page_of (txt "[x] y")).
Lemma latex_bracket_w : exists L, lreach L /\ export_plain_text (l_doc L) = Ok (txt "[x] y")
  /\ forall stretch class, exists s, export_latex stretch class false L = Ok s
     /\ forall m, body_source s m <-> m = [PList false [(Some (map TChar (txt "x")), map TChar (txt " y"))]].
Proof.
  exists bracket_item. split; [apply with_list_lreach, page_lreach|]. split; [vm_compute; reflexivity|]. intros stretch class.
  exists (txt "\begin{itemize}" ++ [NL] ++ txt "\item [x] y" ++ [NL] ++ txt "\end{itemize}"). split; [vm_compute; reflexivity|]. apply only_reading.
  rewrite <- (app_nil_r (txt "\begin{itemize}" ++ [NL] ++ txt "\item [x] y" ++ [NL] ++ txt "\end{itemize}")).
  apply b_part; [|now left|constructor]. apply (p_list false (txt "\item [x] y")). constructor.
  apply (i_label (txt "x") _ (txt " y")); [now apply plain_latex, plain_texb_ok| |now apply plain_latex, plain_texb_ok]. vm_compute. intuition discriminate.
Qed.

(** Code that contains the end mark cannot be read. *)
Definition mark_code : ldoc := with_format code_req 0 0 (page_of end_verbatim).
Lemma not_mark r : ~ exists m, body_source (NL :: txt "\end{" ++ r) m.
Proof.
  intros (m & H). inversion H as [|rest l H'|e p rest l Hp Hr H' E]; subst.
  - inversion H' as [|rest l0 H0|e p rest l0 Hp Hr H0 E]; subst. apply (part_begin e p rest Hp). right; right. now exists r.
  - now apply (part_newline e p rest (txt "\end{" ++ r)).
Qed.
Lemma latex_mark_w : exists L, lreach L /\ export_plain_text (l_doc L) = Ok end_verbatim
  /\ forall stretch class, exists s, export_latex stretch class false L = Ok s /\ ~ exists m, body_source s m.
Proof.
  exists mark_code. split; [apply with_format_lreach, page_lreach|]. split; [vm_compute; reflexivity|]. intros stretch class.
  exists (txt "\begin{verbatim}" ++ [NL] ++ end_verbatim ++ [NL] ++ end_verbatim). split; [vm_compute; reflexivity|].
  intros (m & H). inversion H as [|rest l H'|e p rest l Hp Hr H' E]; subst. destruct Hp as [e l' Hl N|t N|o e l' Hl].
  - exact (text_begin _ _ _ (txt "verbatim}" ++ [NL] ++ end_verbatim ++ [NL] ++ end_verbatim) Hl N E).
  - rewrite <- !app_assoc in E. apply (app_inv_head (txt "\begin{verbatim}")) in E. apply (app_inv_head [NL]) in E.
    do 14 (destruct t as [|c t]; [discriminate|]; injection E as -> E). apply N. exists [], t. reflexivity.
  - destruct o; discriminate.
Qed.

(** A colour in the usual notation cannot be read. *)
Definition red : str := txt "#ff0000".
Definition red_page : ldoc := with_format (color_req red) 0 0 (page_of (txt "a")).
Lemma latex_color_w : exists L, lreach L /\ map (fun a => f_background_color (snd a)) (attrs_of L) = [Some red]
  /\ forall stretch class, exists s, export_latex stretch class false L = Ok s /\ ~ exists m, body_source s m.
Proof.
  exists red_page. split; [apply with_format_lreach, page_lreach|]. split; [vm_compute; reflexivity|]. intros stretch class.
  exists (txt "\colorbox{#ff0000}{\parbox{\linewidth}{a}}"). split; [vm_compute; reflexivity|].
  intros (m & H). inversion H as [|rest l H'|e p rest l Hp Hr H' E]; subst. destruct Hp as [e l' Hl N|t N|o e l' Hl]; [|discriminate|destruct o; discriminate].
  assert (T : In (txt "\colorbox{", 1002%N) tokens) by (apply (tok2 (txt "colorbox")); cbn; tauto).
  assert (E' : e ++ rest = txt "\colorbox{" ++ txt "#ff0000}{\parbox{\linewidth}{a}}") by exact E. clear E.
  inversion Hl as [|c r l1 A Nc H1|k c r l1 K H1|e1 g r l1 H1 H2|n r l1 K Hn H1|n e1 g r l1 K H1 H2|n e1 g e2 g' r l1 K H1 H2 H3]; subst e l'.
  - easy.
  - injection E' as -> _. apply A. now apply active_in.
  - rewrite <- app_assoc in E'. pose proof (code_small _ _ K). eapply no_tok; [| | |exact E']; [exact (tok_code _ _ K)|exact T|lia].
  - discriminate.
  - rewrite <- !app_assoc, (app_assoc (txt "\") n) in E'. eapply no_tok; [| | |exact E']; [exact (tok0 _ K)|exact T|lia].
  - replace ((txt "\" ++ n ++ txt "{" ++ e1 ++ txt "}" ++ r) ++ rest) with ((txt "\" ++ n ++ txt "{") ++ e1 ++ txt "}" ++ r ++ rest) in E'
      by now rewrite <- !app_assoc. eapply no_tok; [| | |exact E']; [exact (tok1 _ K)|exact T|lia].
  - replace ((txt "\" ++ n ++ txt "{" ++ e1 ++ txt "}{" ++ e2 ++ txt "}" ++ r) ++ rest) with ((txt "\" ++ n ++ txt "{") ++ e1 ++ txt "}{" ++ e2 ++ txt "}" ++ r ++ rest) in E'
      by now rewrite <- !app_assoc.
    destruct (tok_same _ _ _ _ _ _ (tok2 _ K) T E') as (_ & _ & E2).
    destruct (latex_begin _ _ H1) as [[-> _]|[(c & q & -> & A & M)|[(q & ->)|(k & c & q & -> & Kt & C)]]].
    + discriminate.
    + injection E2 as -> _. apply A. now apply active_in.
    + discriminate.
    + destruct (tok_head _ _ Kt) as (k' & ->). discriminate.
Qed.

(** Lists that differ, and the same source. *)
Lemma latex_mixed_w : exists L1 L2 its atts1 atts2, lreach L1 /\ lreach L2
   /\ doc_items (l_doc L1) = Ok its /\ doc_items (l_doc L2) = Ok its
   /\ para_attrs (l_doc L1) = map Some atts1 /\ para_attrs (l_doc L2) = map Some atts2
   /\ forall stretch, latex_shown stretch L1 atts1 (paragraphs its) <> latex_shown stretch L2 atts2 (paragraphs its)
      /\ forall class pre, export_latex stretch class pre L1 = export_latex stretch class pre L2.
Proof.
  exists bullets, bullet_number. eexists _, (attrs_of bullets), (attrs_of bullet_number). split; [apply with_list_lreach, no_lists_lreach, two_paras_reach|].
  split; [apply with_list_lreach, with_list_lreach, no_lists_lreach, two_paras_reach|].
  split; [vm_compute; reflexivity|]. split; [vm_compute; reflexivity|].
  split; [vm_compute; reflexivity|]. split; [vm_compute; reflexivity|].
  intros stretch. split; [vm_compute; discriminate|]. intros class pre. vm_compute. reflexivity.
Qed.
Lemma latex_merged_w : exists L1 L2, lreach L1 /\ lreach L2
   /\ markers L1 = [Ok (Some (txt "1")); Ok (Some (txt "1"))] /\ markers L2 = [Ok (Some (txt "1")); Ok (Some (txt "2"))]
   /\ forall stretch class pre, export_latex stretch class pre L1 = export_latex stretch class pre L2.
Proof.
  exists two_lists, one_list. split; [apply with_list_lreach, with_list_lreach, no_lists_lreach, two_paras_reach|].
  split; [apply with_list_lreach, no_lists_lreach, two_paras_reach|].
  split; [vm_compute; reflexivity|]. split; [vm_compute; reflexivity|]. intros stretch class pre. vm_compute. reflexivity.
Qed.
(** A code block in a list is exported as text. *)
Lemma latex_code_item_w : exists L1 L2 its atts1 atts2, lreach L1 /\ lreach L2
   /\ doc_items (l_doc L1) = Ok its /\ doc_items (l_doc L2) = Ok its
   /\ para_attrs (l_doc L1) = map Some atts1 /\ para_attrs (l_doc L2) = map Some atts2
   /\ map (fun a => f_is_code_block (snd a)) atts1 = [None; None] /\ map (fun a => f_is_code_block (snd a)) atts2 = [None; Some true]
   /\ forall stretch class pre, export_latex stretch class pre L1 = export_latex stretch class pre L2.
Proof.
  exists bullets, code_item. eexists _, (attrs_of bullets), (attrs_of code_item). split; [apply with_list_lreach, no_lists_lreach, two_paras_reach|].
  split; [apply with_format_lreach, with_list_lreach, no_lists_lreach, two_paras_reach|].
  split; [vm_compute; reflexivity|]. split; [vm_compute; reflexivity|].
  split; [vm_compute; reflexivity|]. split; [vm_compute; reflexivity|].
  split; [vm_compute; reflexivity|]. split; [vm_compute; reflexivity|]. intros stretch class pre. vm_compute. reflexivity.
Qed.
(** The alignment is lost. *)
Lemma latex_alignment_w : exists L1 L2, lreach L1 /\ lreach L2
   /\ map (fun a => f_alignment (snd a)) (attrs_of L1) = [None; None] /\ map (fun a => f_alignment (snd a)) (attrs_of L2) = [Some 2%N; None]
   /\ forall stretch class pre, export_latex stretch class pre L1 = export_latex stretch class pre L2.
Proof.
  exists (no_lists two_paras), (with_format center_req 0 0 (no_lists two_paras)). split; [apply no_lists_lreach, two_paras_reach|].
  split; [apply with_format_lreach, no_lists_lreach, two_paras_reach|]. split; [vm_compute; reflexivity|]. split; [vm_compute; reflexivity|].
  intros stretch class pre. vm_compute. reflexivity.
Qed.

(** Text from right to left uses a command that no package of the file defines. *)
Lemma mbox_used l : incl (used (snd (open_mbox l))) (used l).
Proof.
  unfold open_mbox. destruct l as [|[c|n [|g [|]]|h] [|]]; try apply incl_refl. destruct (named n "mbox"); [|apply incl_refl].
  rewrite used_cmd. cbn [snd flat_map]. rewrite app_nil_r. now apply incl_tl, incl_refl.
Qed.
Lemma box_used l : incl (used (snd (open_box l))) (used l).
Proof.
  unfold open_box. repeat match goal with |- context [match ?x with _ => _ end] => destruct x; try apply incl_refl end.
  cbn [snd]. intros y Hy. rewrite !used_cmd. cbn [flat_map]. right. apply in_or_app. right. rewrite app_nil_r.
  rewrite used_cmd. right. cbn [flat_map]. apply in_or_app. right. now rewrite app_nil_r.
Qed.
Lemma rl_used l : fst (open_rl l) = true -> In (txt "RL") (used l).
Proof.
  unfold open_rl. destruct l as [|[c|n [|g [|]]|h] [|]]; try discriminate. destruct (named n "RL") eqn:E; [|discriminate].
  intros _. unfold named in E. destruct (list_eq_dec N.eq_dec n (txt "RL")) as [->|]; [|discriminate]. rewrite used_cmd. now left.
Qed.
Definition rtl_kind (k : lkind) : bool := match k with LText s | LHead _ s => g_rtl s | _ => false end.
Lemma rtl_text l r : text_shown l = Some r -> existsb (fun x => rtl_kind (fst x)) r = true -> In (txt "RL") (used l).
Proof.
  unfold text_shown. pose proof (mbox_used l) as H1. destruct (open_mbox l) as [w l1]. pose proof (box_used l1) as H2. destruct (open_box l1) as [c l2].
  pose proof (rl_used l2) as H3. destruct (open_rl l2) as [b l3]. destruct (open_stretch l3) as [h l4]. destruct (open_heading l4) as [d l5].
  destruct (tex_inline bare l5) as [x|]; [|discriminate]. intros [= <-] E. apply H1, H2, H3. cbn [existsb fst] in E. rewrite orb_false_r in E. now destruct d.
Qed.
Lemma items_not_rtl o l r : items_shown o l = Some r -> existsb (fun x => rtl_kind (fst x)) r = false.
Proof.
  revert r. induction l as [|[[la|] g] l IH]; intros r; cbn [items_shown]; [now intros [= <-]|discriminate|].
  destruct (tex_inline bare g), (items_shown o l) as [q|]; try discriminate. intros [= <-]. cbn. now apply IH.
Qed.
Lemma rtl_parts l : forall r, parts_shown l = Some r -> existsb (fun x => rtl_kind (fst x)) r = true -> In (txt "RL") (flat_map part_used l).
Proof.
  induction l as [|p l IH]; intros r; cbn [parts_shown]; [now intros [= <-]|]. destruct (part_shown p) as [a|] eqn:Ea, (parts_shown l) as [b|]; try discriminate.
  intros [= <-] E. rewrite existsb_app in E. cbn [flat_map]. apply in_or_app. apply orb_prop in E as [E|E]; [left|right; now apply (IH b)].
  destruct p as [g|t|o items]; cbn [part_shown part_used] in *.
  - now apply (rtl_text _ a).
  - injection Ea as <-. discriminate.
  - apply items_not_rtl in Ea. congruence.
Qed.
Definition rtl_req : bfmt_req := mk_breq None None None None None None (Some 1%N) None None None None None None None None.

Definition rtl_page : ldoc := with_format rtl_req 0 0 (page_of (txt "a")).
Lemma latex_rtl_w : exists L, lreach L /\ forall stretch, (forall z, plain_tex (stretch z)) ->
  exists s c p l, export_latex stretch [] true L = Ok s /\ file_source s c p l /\ ~ all_defined p l.
Proof.
  exists rtl_page. split; [apply with_format_lreach, page_lreach|]. intros stretch Hs.
  assert (R : reach (l_doc rtl_page)) by (apply lists_ok, with_format_lreach, page_lreach).
  assert (Ei : doc_items (l_doc rtl_page) = Ok [Chr 97%N cfmt_default]) by (vm_compute; reflexivity).
  assert (Ea : para_attrs (l_doc rtl_page) = map Some (attrs_of rtl_page)) by (vm_compute; reflexivity).
  destruct (export_latex_theorem stretch rtl_page _ (attrs_of rtl_page) R Ei Ea) as (l & Sh & _ & F & _); [easy| |exact Hs|].
  - constructor; [|constructor]. vm_compute. split; [|split; [left|]; discriminate]. intros c f [[= <- <-]|[]]. split; discriminate.
  - destruct (F []) as (s & Es & Hf); [now intros []|]. eexists s, _, _, l. split; [exact Es|]. split; [apply Hf; repeat split; reflexivity|].
    intros D. specialize (D (txt "RL") (txt "bidi")). assert (K : In (txt "RL") (flat_map part_used l)).
    { apply (rtl_parts l _ Sh). vm_compute. reflexivity. }
    specialize (D K eq_refl). vm_compute in D. intuition discriminate.
Qed.

(** Headings deeper than three are all alike. *)
Definition deep_req (n : Z) : bfmt_req := mk_breq None (Some n) None None None None None None None None None None None None None.
Lemma latex_heading_w : exists L1 L2, lreach L1 /\ lreach L2
   /\ map (fun a => f_heading_level (snd a)) (attrs_of L1) = [Some 4%Z] /\ map (fun a => f_heading_level (snd a)) (attrs_of L2) = [Some 6%Z]
   /\ forall stretch class pre, export_latex stretch class pre L1 = export_latex stretch class pre L2.
Proof.
  exists (with_format (deep_req 4) 0 0 (page_of (txt "a"))), (with_format (deep_req 6) 0 0 (page_of (txt "a"))).
  split; [apply with_format_lreach, page_lreach|]. split; [apply with_format_lreach, page_lreach|]. split; [vm_compute; reflexivity|]. split; [vm_compute; reflexivity|].
  intros stretch class pre. vm_compute. reflexivity.
Qed.
(** The size of an image is lost. *)
Lemma latex_image_w : exists i j, iname i = iname j /\ iwidth i <> iwidth j /\ latex_segment (SegImage i) = latex_segment (SegImage j).
Proof.
  exists (mk_image 0 (txt "x") 1%Z 1%Z 1%Z cfmt_default), (mk_image 0 (txt "x") 20%Z 1%Z 1%Z cfmt_default). split; [easy|]. split; [discriminate|reflexivity].
Qed.

(** A bold heading "ab" and a numbered item "cd". *)
Definition latex_sample : ldoc := sample.
Lemma sample_keeps : Forall2 (keeps latex_sample) (attrs_of latex_sample)
  (paragraphs (match doc_items (l_doc latex_sample) with Ok x => x | _ => [] end)).
Proof.
  match goal with |- Forall2 _ ?a ?b => let x := eval vm_compute in a in let y := eval vm_compute in b in change (Forall2 (keeps latex_sample) x y) end.
  constructor; [|constructor; [|constructor]]; vm_compute; repeat split; try discriminate; try (now left).
  all: repeat match goal with H : _ \/ _ |- _ => destruct H as [H|H] end; try easy; try (injection H as <- <-); try discriminate.
  all: match goal with H : _ = Chr _ _ |- _ => injection H as <- <- end; discriminate.
Qed.
(** "ab" with an image between a and b. *)
Definition imaged : doc := match insert_image (import_plain_text new_document (txt "ab")) 1 1 (txt "x_y") 10 20 with Ok (d, _, _) => d | _ => new_document end.
Lemma latex_images_sample : exists ss, block_segments imaged (hd 0%N (d_fblocks imaged)) = Ok ss /\ Forall one_line_segment ss
  /\ latex_inline imaged (hd 0%N (d_fblocks imaged)) = Ok (txt "a\includegraphics{x\_y}" ++ 65532%N :: txt "b").
Proof.
  eexists. split; [vm_compute; reflexivity|]. split; [|vm_compute; reflexivity].
  repeat constructor; vm_compute; try easy; intros H; repeat destruct H as [H|H]; try discriminate; easy.
Qed.
(** The place of an image is exported as a character besides the image. *)
Lemma image_twice_w : exists d d' e, reach d /\ export_plain_text d = Ok (txt "ab") /\ insert_image d 1 1 (txt "cat") 10 20 = Ok (d', 2%Z, e)
  /\ (forall stretch class, export_latex stretch class false (no_lists d') = Ok (txt "a\includegraphics{cat}" ++ 65532%N :: txt "b"))
  /\ (forall height, export_html height (no_lists d') = Ok (txt "<html><head><meta charset=""utf-8""></head><body><p>a<img src=""cat"" width=""10"" height=""20"" />" ++ 65532%N :: txt "b</p></body></html>"))
  /\ export_markdown (no_lists d') = Ok (txt "a![cat](cat)" ++ 65532%N :: txt "b").
Proof.
  exists (import_plain_text new_document (txt "ab")). eexists _, _. split; [apply reach_import, reach_new|].
  split; [vm_compute; reflexivity|]. split; [vm_compute; reflexivity|]. split; [intros; vm_compute; reflexivity|]. split; [intros; vm_compute; reflexivity|].
  vm_compute; reflexivity.
Qed.
