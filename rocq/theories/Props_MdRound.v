(** C60: documents written as Markdown and read back. *)
From Coq Require Import Ascii String.
From Verif Require Import Base FormatRunsModel RopeModel DocModel DocSpec QueryModel PropSpec DocRefuted ListModel ListSpec ListDocModel ListDocSpec
  ExportSpec ExportRefuted ExportTheorems MdModel MdSpec MdExport MdRefuted ImportModel MdReadModel DocShows MdReadSpec MdReadRefuted HtmlRoundSpec MdRoundSpec MdRoundTheorems.

(** The exported source of a gentle document has a page, and importing a page of
    it into any document gives the paragraphs of the document in order, with their
    characters, looks and kinds. Lists are not indented. *)
Theorem markdown_round_partial : forall L0 L its atts, lreach L0 -> reach (l_doc L) -> doc_items (l_doc L) = Ok its -> para_attrs (l_doc L) = map Some atts ->
  (forall k i a p ss, nth_error (d_order (l_doc L)) k = Some i -> nth_error atts k = Some a -> nth_error (paragraphs its) k = Some p ->
     block_segments (l_doc L) i = Ok ss -> gentle_para L a ss p) -> flush L atts ->
  exists s, export_markdown L = Ok s /\ (exists p, md_page s p)
    /\ forall p, md_page s p -> exists L', import_markdown L0 (page_events p) = Some L' /\ lreach L' /\ document_shows L' (md_kept L atts (paragraphs its)).
Proof. exact markdown_round_theorem. Qed.
Print Assumptions markdown_round_partial.
(** If what came back is gentle, a second round changes nothing. *)
Theorem markdown_round_twice_partial : forall L0 L its atts L' its' atts', lreach L0 -> lreach L' ->
  document_shows L' (md_kept L atts (paragraphs its)) -> doc_items (l_doc L') = Ok its' -> para_attrs (l_doc L') = map Some atts' ->
  (forall k i a p ss, nth_error (d_order (l_doc L')) k = Some i -> nth_error atts' k = Some a -> nth_error (paragraphs its') k = Some p ->
     block_segments (l_doc L') i = Ok ss -> gentle_para L' a ss p) ->
  exists s, export_markdown L' = Ok s /\ (exists p, md_page s p)
    /\ forall p, md_page s p -> exists L2, import_markdown L0 (page_events p) = Some L2 /\ lreach L2 /\ document_shows L2 (md_kept L atts (paragraphs its)).
Proof. exact markdown_twice_theorem. Qed.
Print Assumptions markdown_round_twice_partial.
Example markdown_round_case : exists its, lreach MdReadRefuted.blank /\ reach (l_doc sample) /\ doc_items (l_doc sample) = Ok its
  /\ para_attrs (l_doc sample) = map Some (attrs_of sample)
  /\ (forall k i a p ss, nth_error (d_order (l_doc sample)) k = Some i -> nth_error (attrs_of sample) k = Some a -> nth_error (paragraphs its) k = Some p ->
     block_segments (l_doc sample) i = Ok ss -> gentle_para sample a ss p)
  /\ flush sample (attrs_of sample)
  /\ map (fun p => (dp_items p, f_heading_level (dp_fmt p), dp_piece p)) (md_kept sample (attrs_of sample) (paragraphs its)) =
     [(shown_items [(97, with_bold bare); (98, with_bold bare)]%N, Some 2%Z, Other); (shown_items [(99, bare); (100, bare)]%N, None, ListModel.Item Decimal 0)].
Proof.
  eexists. split; [apply blank_lreach|]. split; [apply sample_reach|]. split; [vm_compute; reflexivity|]. split; [vm_compute; reflexivity|].
  split; [intros k i a p ss; now apply sample_gentle|]. split; [|vm_compute; reflexivity].
  intros a e H. vm_compute in H. destruct H as [<-|[<-|[]]]; vm_compute; intros H; now inversion H.
Qed.
Example markdown_round_twice_case : exists its its', lreach sample_back /\ doc_items (l_doc sample) = Ok its
  /\ document_shows sample_back (md_kept sample (attrs_of sample) (paragraphs its)) /\ doc_items (l_doc sample_back) = Ok its'
  /\ para_attrs (l_doc sample_back) = map Some (attrs_of sample_back)
  /\ (forall k i a p ss, nth_error (d_order (l_doc sample_back)) k = Some i -> nth_error (attrs_of sample_back) k = Some a -> nth_error (paragraphs its') k = Some p ->
     block_segments (l_doc sample_back) i = Ok ss -> gentle_para sample_back a ss p).
Proof. exact sample_back_case. Qed.

(** ** What is lost *)
(** Underline. *)
Theorem markdown_round_underline_refuted : exists L1 L2, lreach L1 /\ lreach L2
  /\ doc_items (l_doc L1) = Ok [Chr 97%N underlined] /\ doc_items (l_doc L2) = Ok [Chr 97%N cfmt_default] /\ export_markdown L1 = export_markdown L2.
Proof. exact md_round_underline_w. Qed.
Print Assumptions markdown_round_underline_refuted.
(** The style of a list. *)
Theorem markdown_round_style_refuted : exists L1 L2, lreach L1 /\ lreach L2
  /\ markers L1 = [Ok (Some (txt "a")); Ok (Some (txt "b"))] /\ markers L2 = [Ok (Some (txt "1")); Ok (Some (txt "2"))] /\ export_markdown L1 = export_markdown L2.
Proof. exact md_round_style_w. Qed.
Print Assumptions markdown_round_style_refuted.
(** The alignment of a paragraph. *)
Theorem markdown_round_align_refuted : exists L1 L2, lreach L1 /\ lreach L2
  /\ map (option_map (fun a => f_alignment (snd a))) (para_attrs (l_doc L1)) = [Some (Some 2%N); Some None]
  /\ map (option_map (fun a => f_alignment (snd a))) (para_attrs (l_doc L2)) = [Some None; Some None] /\ export_markdown L1 = export_markdown L2.
Proof. exact md_round_align_w. Qed.
Print Assumptions markdown_round_align_refuted.
(** That two lists are two. *)
Theorem markdown_round_lists_refuted : exists L s p L', lreach L /\ export_markdown L = Ok s /\ md_page s p
  /\ import_markdown MdReadRefuted.blank (page_events p) = Some L'
  /\ markers L = [Ok (Some (txt "1")); Ok (Some (txt "1"))] /\ markers L' = [Ok (Some (txt "1")); Ok (Some (txt "2"))].
Proof. exact md_round_lists_w. Qed.
Print Assumptions markdown_round_lists_refuted.
