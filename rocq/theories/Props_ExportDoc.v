(** C55: the exported HTML. *)
From Coq Require Import Ascii String.
From Verif Require Import Base FormatRunsModel RopeModel DocModel DocSpec HistModel QueryModel PropSpec DocRefuted
  ListModel ListDocModel ListDocSpec ListDocFacts FragmentModel FragmentCopySpec FragmentRefuted EscapeSpec ExportModel ExportSpec
  ExportUnique ExportFrag ExportRefuted ExportTheorems.

(** A source is read in at most one way. *)
Theorem html_reading_unique : forall e l1 l2, html e l1 -> html e l2 -> l1 = l2.
Proof. exact html_one_reading. Qed.
Print Assumptions html_reading_unique.
Example html_reading_case : html (txt "<p>a</p>") [Elem (txt "p") [] [Ch 97%N]].
Proof.
  apply (h_elem (txt "p") [] [] (txt "a") [Ch 97%N] [] []); try constructor; try discriminate; try constructor; try reflexivity; try constructor;
  vm_compute; intuition discriminate.
Qed.

(** The exported page has one reading; it shows the paragraphs of the document
    in order, with their kinds (paragraph, heading, code block, list item) and
    styles, and in them the characters with their looks. A paragraph in a list
    that follows another one must not be a code block and must have the same kind
    of list; the background colours and the printed line heights have no special
    characters. *)
Theorem html_export_partial : forall height L its atts, reach (l_doc L) -> doc_items (l_doc L) = Ok its ->
  para_attrs (l_doc L) = map Some atts -> steady L atts -> calm_colors atts -> (forall z, calm (height z)) ->
  exists s ns, export_html height L = Ok s /\ (forall l, html s l <-> l = page ns)
   /\ blocks ns = Some (doc_shown height L atts (paragraphs its)).
Proof. exact html_page_theorem. Qed.
Print Assumptions html_export_partial.
Example html_export_case : reach (l_doc sample) /\ (exists its, doc_items (l_doc sample) = Ok its)
  /\ para_attrs (l_doc sample) = map Some (attrs_of sample) /\ steady sample (attrs_of sample) /\ calm_colors (attrs_of sample)
  /\ export_html (fun _ => []) sample = Ok (html_page (txt "<h2 style=""text-align: center""><strong>ab</strong></h2><ol><li>cd</li></ol>")).
Proof.
  split; [apply sample_reach|]. split; [eexists; vm_compute; reflexivity|]. split; [vm_compute; reflexivity|]. split; [vm_compute; easy|].
  split; [|vm_compute; reflexivity]. intros a c H. vm_compute in H. destruct H as [<-|[<-|[]]]; discriminate.
Qed.

(** Text and images of a paragraph; the images have no look. *)
Theorem html_inline_partial : exists number, (forall z, int_text z (number z))
  /\ forall ss, (forall i, In (SegImage i) ss -> look_of (ifmt i) = bare) ->
     exists ns, html (flat_map html_segment ss) ns /\ inline bare ns = Some (flat_map (shown_segment number) ss).
Proof. exact html_segments_theorem. Qed.
Print Assumptions html_inline_partial.
Example html_inline_case :
  let ss := [SegText (txt "a<") cfmt_default; SegImage (mk_image 0 (txt "x") 1%Z 20%Z 1%Z cfmt_default)] in
  (forall i, In (SegImage i) ss -> look_of (ifmt i) = bare)
  /\ flat_map html_segment ss = txt "a&lt;<img src=""x"" width=""1"" height=""20"" />".
Proof. split; [|vm_compute; reflexivity]. intros i [H|[[= <-]|[]]]; [discriminate|reflexivity]. Qed.

(** The HTML of a fragment, of one reading too. A single paragraph without list
    and paragraph format is shown without a paragraph around it. The links are
    marked as links, and there is neither a code block nor a heading with a
    style. *)
Theorem fragment_html_partial : exists number, (forall z, int_text z (number z))
  /\ forall x fbs, df_data x = Some fbs -> Forall links_marked fbs -> Forall no_code_no_styled_heading fbs ->
     exists ns, (forall l, html (frag_to_html x) l <-> l = page ns)
       /\ ((forall fb, fbs = [fb] -> ~ without_format fb) -> blocks ns = Some (map (frag_shown number) fbs))
       /\ (forall fb, fbs = [fb] -> without_format fb -> inline bare ns = Some (flat_map (shown_segment number) (fb_elems fb))).
Proof. exact fragment_page_theorem. Qed.
Print Assumptions fragment_html_partial.
Example fragment_html_case : exists fbs t, fragment_from_document bullet_number = Ok (mk_dfrag (Some fbs) t)
  /\ Forall links_marked fbs /\ Forall no_code_no_styled_heading fbs /\ (forall fb, fbs = [fb] -> ~ without_format fb)
  /\ frag_to_html (mk_dfrag (Some fbs) t) = html_page (txt "<ul><li>ab</li></ul><ol><li>cd</li></ol>").
Proof.
  eexists _, _. split; [vm_compute; reflexivity|].
  split; [repeat constructor; intros s h [<-|[]]; vm_compute; discriminate|]. split; [repeat constructor; vm_compute; easy|].
  split; [discriminate|]. vm_compute. reflexivity.
Qed.

(** ** What goes wrong *)

(** A numbered item after a bulleted one is exported as a bulleted one. *)
Theorem html_mixed_lists_refuted : exists L1 L2 its atts1 atts2, lreach L1 /\ lreach L2
   /\ doc_items (l_doc L1) = Ok its /\ doc_items (l_doc L2) = Ok its
   /\ para_attrs (l_doc L1) = map Some atts1 /\ para_attrs (l_doc L2) = map Some atts2
   /\ forall height, doc_shown height L1 atts1 (paragraphs its) <> doc_shown height L2 atts2 (paragraphs its)
      /\ export_html height L1 = export_html height L2.
Proof. exact html_mixed_lists_w. Qed.
Print Assumptions html_mixed_lists_refuted.
(** Two numbered lists that follow each other are exported as one: items 1 and 1
    as 1 and 2. *)
Theorem html_merged_lists_refuted : exists L1 L2, lreach L1 /\ lreach L2
   /\ markers L1 = [Ok (Some (txt "1")); Ok (Some (txt "1"))] /\ markers L2 = [Ok (Some (txt "1")); Ok (Some (txt "2"))]
   /\ forall height, export_html height L1 = export_html height L2.
Proof. exact html_merged_lists_w. Qed.
Print Assumptions html_merged_lists_refuted.
(** A code block in a list after a list item is exported as a plain item. *)
Theorem html_code_item_refuted : exists L1 L2 its atts1 atts2, lreach L1 /\ lreach L2
   /\ doc_items (l_doc L1) = Ok its /\ doc_items (l_doc L2) = Ok its
   /\ para_attrs (l_doc L1) = map Some atts1 /\ para_attrs (l_doc L2) = map Some atts2
   /\ map (fun a => f_is_code_block (snd a)) atts1 = [None; None] /\ map (fun a => f_is_code_block (snd a)) atts2 = [None; Some true]
   /\ forall height, export_html height L1 = export_html height L2.
Proof. exact html_code_item_w. Qed.
Print Assumptions html_code_item_refuted.
(** Background colours are not escaped: a document "cd" is exported like a
    document "ab", "cd". *)
Theorem html_color_refuted : exists L1 L2, lreach L1 /\ lreach L2
   /\ export_plain_text (l_doc L1) = Ok (txt "cd") /\ export_plain_text (l_doc L2) = Ok (txt "ab" ++ [10%N] ++ txt "cd")
   /\ forall height, export_html height L1 = export_html height L2.
Proof. exact html_color_w. Qed.
Print Assumptions html_color_refuted.
(** The link of an image is not exported. *)
Theorem html_image_refuted : exists i j, look_of (ifmt i) = bare /\ k_link (look_of (ifmt j)) = Some (txt "u")
  /\ html_segment (SegImage i) = html_segment (SegImage j).
Proof. exact html_image_w. Qed.
Print Assumptions html_image_refuted.
(** A link that is not marked as one is exported from the document, and not
    from the fragment of the whole document. *)
Theorem fragment_link_refuted : exists L fbs t, reach (l_doc L) /\ fragment_from_document L = Ok (mk_dfrag (Some fbs) t)
  /\ (forall height, export_html height L = Ok (html_page (txt "<p><a href=""u"">ab</a></p>")))
  /\ frag_to_html (mk_dfrag (Some fbs) t) = html_page (txt "ab").
Proof. exact fragment_link_w. Qed.
Print Assumptions fragment_link_refuted.
(** A code block in a fragment is exported like a plain paragraph. *)
Theorem fragment_code_refuted : exists L1 L2 x1 x2, reach (l_doc L1) /\ reach (l_doc L2)
  /\ fragment_from_document L1 = Ok x1 /\ fragment_from_document L2 = Ok x2
  /\ option_map (map (fun fb => f_is_code_block (fb_fmt fb))) (df_data x1) = Some [None; None]
  /\ option_map (map (fun fb => f_is_code_block (fb_fmt fb))) (df_data x2) = Some [Some true; None]
  /\ frag_to_html x1 = frag_to_html x2.
Proof. exact fragment_code_w. Qed.
Print Assumptions fragment_code_refuted.
(** A centered heading in a fragment is exported like one that is not centered. *)
Theorem fragment_heading_refuted : exists L1 L2 x1 x2, reach (l_doc L1) /\ reach (l_doc L2)
  /\ fragment_from_document L1 = Ok x1 /\ fragment_from_document L2 = Ok x2
  /\ option_map (map (fun fb => f_alignment (fb_fmt fb))) (df_data x1) = Some [None; None]
  /\ option_map (map (fun fb => f_alignment (fb_fmt fb))) (df_data x2) = Some [Some 2%N; None]
  /\ frag_to_html x1 = frag_to_html x2.
Proof. exact fragment_heading_w. Qed.
Print Assumptions fragment_heading_refuted.
