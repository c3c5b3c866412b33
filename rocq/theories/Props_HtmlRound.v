(** C59: documents written as HTML and read back. *)
From Coq Require Import Ascii String.
From Verif Require Import Base FormatRunsModel RopeModel DocModel DocSpec PropSpec DocRefuted ListModel ListSpec ListDocModel ListDocSpec
  ExportModel ExportSpec ExportRefuted ExportTheorems MdReadModel DocShows MdReadSpec MdReadRefuted HtmlReadModel HtmlReadSpec HtmlReadTheorems
  HtmlRoundSpec HtmlRoundTheorems.

(** Exporting a document and importing the page into any document gives the
    paragraphs of the document in order, with their characters, looks, kinds, line
    heights, line breaking, direction and background colours. The paragraphs are
    not empty. *)
Theorem html_round_partial : forall lh height L0 L its atts, lreach L0 -> reach (l_doc L) -> doc_items (l_doc L) = Ok its ->
  para_attrs (l_doc L) = map Some atts -> steady L atts -> calm_colors atts -> (forall z, calm (height z)) ->
  (forall p, In p (paragraphs its) -> p <> []) -> heights_read lh height atts -> neat_colors atts -> neat_languages atts ->
  exists L', html_round lh height L0 L L' /\ lreach L' /\ document_shows L' (kept L atts (paragraphs its)).
Proof. exact html_round_theorem. Qed.
Print Assumptions html_round_partial.
(** Exporting and importing the result once more gives the same document. *)
Theorem html_round_twice_partial : forall lh height L0 L its atts L', lreach L0 -> reach (l_doc L) -> doc_items (l_doc L) = Ok its ->
  para_attrs (l_doc L) = map Some atts -> steady L atts -> calm_colors atts -> (forall z, calm (height z)) ->
  (forall p, In p (paragraphs its) -> p <> []) -> heights_read lh height atts -> neat_colors atts -> neat_languages atts ->
  lreach L' -> document_shows L' (kept L atts (paragraphs its)) ->
  exists L2, html_round lh height L0 L' L2 /\ lreach L2 /\ document_shows L2 (kept L atts (paragraphs its)).
Proof. exact html_twice_theorem. Qed.
Print Assumptions html_round_twice_partial.
Example html_round_case : exists its, lreach MdReadRefuted.blank /\ reach (l_doc sample) /\ doc_items (l_doc sample) = Ok its
  /\ para_attrs (l_doc sample) = map Some (attrs_of sample) /\ steady sample (attrs_of sample) /\ calm_colors (attrs_of sample)
  /\ (forall z, calm (no_height z)) /\ (forall p, In p (paragraphs its) -> p <> []) /\ heights_read no_number no_height (attrs_of sample)
  /\ neat_colors (attrs_of sample) /\ neat_languages (attrs_of sample)
  /\ map (fun p => (dp_items p, f_heading_level (dp_fmt p), dp_piece p)) (kept sample (attrs_of sample) (paragraphs its)) =
     [(shown_items [(97, with_bold bare); (98, with_bold bare)]%N, Some 2%Z, Other); (shown_items [(99, bare); (100, bare)]%N, None, ListModel.Item Decimal 0)].
Proof.
  eexists. split; [apply blank_lreach|]. split; [apply sample_reach|]. split; [vm_compute; reflexivity|]. split; [vm_compute; reflexivity|]. split; [vm_compute; easy|].
  assert (A : forall a, In a (attrs_of sample) -> f_background_color (snd a) = None /\ f_line_height (snd a) = None /\ f_code_language (snd a) = None).
  { intros a H. vm_compute in H. destruct H as [<-|[<-|[]]]; easy. }
  split; [intros a c H; destruct (A a H) as (-> & _); discriminate|]. split; [intros z c []|].
  split; [vm_compute; intros p [<-|[<-|[]]]; discriminate|].
  split; [intros a c H; destruct (A a H) as (_ & -> & _); discriminate|].
  split; [intros a c H; destruct (A a H) as (-> & _); discriminate|].
  split; [intros a c H; destruct (A a H) as (_ & _ & ->); discriminate|]. vm_compute. reflexivity.
Qed.

(** ** What is lost *)
(** An empty paragraph. *)
Theorem html_round_empty_refuted : exists L L', lreach L /\ html_round no_number no_height MdReadRefuted.blank L L'
  /\ length (d_order (l_doc L)) = 2 /\ length (d_order (l_doc L')) = 1.
Proof. exact round_empty_w. Qed.
Print Assumptions html_round_empty_refuted.
(** That two lists are two. *)
Theorem html_round_lists_refuted : exists L L', lreach L /\ html_round no_number no_height MdReadRefuted.blank L L'
  /\ markers L = [Ok (Some (txt "1")); Ok (Some (txt "1"))] /\ markers L' = [Ok (Some (txt "1")); Ok (Some (txt "2"))].
Proof. exact round_lists_w. Qed.
Print Assumptions html_round_lists_refuted.
(** The style of a list. *)
Theorem html_round_style_refuted : exists L L', lreach L /\ html_round no_number no_height MdReadRefuted.blank L L'
  /\ markers L = [Ok (Some (txt "a")); Ok (Some (txt "b"))] /\ markers L' = [Ok (Some (txt "1")); Ok (Some (txt "2"))].
Proof. exact round_style_w. Qed.
Print Assumptions html_round_style_refuted.
(** The alignment of a paragraph, although it is exported. *)
Theorem html_round_align_refuted : exists L L', lreach L /\ html_round no_number no_height MdReadRefuted.blank L L'
  /\ map (option_map (fun a => f_alignment (snd a))) (para_attrs (l_doc L)) = [Some (Some 2%N); Some None]
  /\ map (option_map (fun a => f_alignment (snd a))) (para_attrs (l_doc L')) = [Some None; Some None].
Proof. exact round_align_w. Qed.
Print Assumptions html_round_align_refuted.
(** A thousandth of a line height: 1.001 comes back as 1.000. *)
Theorem html_round_height_refuted : exists h, (0 < h)%Z /\ line_height_back h = (h - 1)%Z.
Proof. exact round_height_w. Qed.
Print Assumptions html_round_height_refuted.
