(** Exporting a document as LaTeX: theorems only. Program: LatexModel.v; how a
    source is read and what it should show: LatexSpec.v. *)
From Coq Require Import Ascii String.
From Verif Require Import Base FormatRunsModel RopeModel DocModel DocSpec HistModel QueryModel PropSpec DocRefuted
  ListModel ListDocModel ListDocSpec FragmentModel EscapeSpec ExportModel ExportSpec ExportRefuted ExportTheorems
  ImageModel MdModel FragmentRefuted LatexModel LatexSpec LatexUnique LatexTheorems LatexRefuted.

(** C63. A source has at most one reading. *)
Theorem latex_reading_unique : forall s l m, body_source s l -> body_source s m -> l = m.
Proof. exact body_one. Qed.
Print Assumptions latex_reading_unique.
Theorem latex_file_unique : forall s c p l c' p' l', file_source s c p l -> file_source s c' p' l' -> c = c' /\ p = p' /\ l = l'.
Proof. exact file_one. Qed.
Print Assumptions latex_file_unique.

(** C63. The export of a document, with or without preamble, has exactly one
    reading, and it shows every paragraph with its kind, its setting, its
    characters and their looks; all commands are defined by the packages of the
    preamble unless text runs from right to left. [stretch] prints a line
    height. *)
Theorem latex_export_partial : forall stretch L its atts, reach (l_doc L) -> doc_items (l_doc L) = Ok its ->
  para_attrs (l_doc L) = map Some atts -> same_kinds L atts -> Forall2 (keeps L) atts (paragraphs its) -> (forall z, plain_tex (stretch z)) ->
  exists l, parts_shown l = Some (latex_shown stretch L atts (paragraphs its))
   /\ (forall class, exists s, export_latex stretch class false L = Ok s /\ forall m, body_source s m <-> m = l)
   /\ (forall class, braceless class -> exists s, export_latex stretch class true L = Ok s
       /\ forall c p m, file_source s c p m <-> c = (match class with [] => txt "article" | _ => class end)
            /\ p = [txt "hyperref"; txt "ulem"; txt "graphicx"; txt "setspace"; txt "xcolor"] /\ m = l)
   /\ (left_to_right atts -> all_defined [txt "hyperref"; txt "ulem"; txt "graphicx"; txt "setspace"; txt "xcolor"] l).
Proof. exact export_latex_theorem. Qed.
Print Assumptions latex_export_partial.
Example latex_export_case : reach (l_doc latex_sample) /\ para_attrs (l_doc latex_sample) = map Some (attrs_of latex_sample)
  /\ same_kinds latex_sample (attrs_of latex_sample)
  /\ (exists its, doc_items (l_doc latex_sample) = Ok its /\ Forall2 (keeps latex_sample) (attrs_of latex_sample) (paragraphs its))
  /\ plain_tex (txt "1.50")
  /\ forall stretch class, export_latex stretch class false latex_sample = Ok
      (txt "\subsection{\textbf{ab}}" ++ [NL; NL] ++ txt "\begin{enumerate}" ++ [NL] ++ txt "\item cd" ++ [NL] ++ txt "\end{enumerate}").
Proof.
  split; [exact sample_reach|]. split; [vm_compute; reflexivity|]. split; [vm_compute; easy|].
  split; [exists (match doc_items (l_doc latex_sample) with Ok x => x | _ => [] end); split; [vm_compute; reflexivity|exact sample_keeps]|].
  split; [now apply plain_texb_ok|]. intros stretch class. vm_compute. reflexivity.
Qed.

(** C63. A paragraph with images, of any document: every image is included by its
    name, between the texts around it. *)
Theorem latex_images_partial : forall d i ss, block_segments d i = Ok ss -> Forall one_line_segment ss ->
  exists s l, latex_inline d i = Ok s /\ tex_inline bare l = Some (flat_map latex_shown_segment ss) /\ forall m, latex s m <-> m = l.
Proof. exact latex_images_theorem. Qed.
Print Assumptions latex_images_partial.
Example latex_images_case : exists ss, block_segments imaged (hd 0%N (d_fblocks imaged)) = Ok ss /\ Forall one_line_segment ss
  /\ latex_inline imaged (hd 0%N (d_fblocks imaged)) = Ok (txt "a\includegraphics{x\_y}" ++ 65532%N :: txt "b").
Proof. exact latex_images_sample. Qed.

Theorem latex_code_images_partial : forall d b ss, block_segments d (b_id b) = Ok ss -> ~ contains (flat_map verbatim_segment ss) end_verbatim ->
  exists s, latex_code d b = Ok s /\ forall m, body_source s m <-> m = [PVerb (flat_map verbatim_segment ss)].
Proof. exact latex_code_theorem. Qed.
Print Assumptions latex_code_images_partial.

(** An empty paragraph is lost. *)
Theorem latex_empty_paragraph_refuted : exists L1 L2 l, lreach L1 /\ lreach L2
  /\ export_plain_text (l_doc L1) = Ok (txt "a" ++ [NL; NL] ++ txt "b") /\ export_plain_text (l_doc L2) = Ok (txt "a" ++ [NL] ++ txt "b")
  /\ forall stretch class, exists s1 s2, export_latex stretch class false L1 = Ok s1 /\ export_latex stretch class false L2 = Ok s2
     /\ (forall m, body_source s1 m <-> m = l) /\ (forall m, body_source s2 m <-> m = l).
Proof. exact latex_empty_w. Qed.
Print Assumptions latex_empty_paragraph_refuted.

(** A bracketed word at the beginning of an item is read as its label. *)
Theorem latex_item_bracket_refuted : exists L, lreach L /\ export_plain_text (l_doc L) = Ok (txt "[x] y")
  /\ forall stretch class, exists s, export_latex stretch class false L = Ok s
     /\ forall m, body_source s m <-> m = [PList false [(Some (map TChar (txt "x")), map TChar (txt " y"))]].
Proof. exact latex_bracket_w. Qed.
Print Assumptions latex_item_bracket_refuted.

(** Code that contains the end mark of verbatim text gives a source that cannot
    be read. *)
Theorem latex_verbatim_refuted : exists L, lreach L /\ export_plain_text (l_doc L) = Ok end_verbatim
  /\ forall stretch class, exists s, export_latex stretch class false L = Ok s /\ ~ exists m, body_source s m.
Proof. exact latex_mark_w. Qed.
Print Assumptions latex_verbatim_refuted.

(** So does a background colour like "#ff0000". *)
Theorem latex_color_refuted : exists L, lreach L /\ map (fun a => f_background_color (snd a)) (attrs_of L) = [Some (txt "#ff0000")]
  /\ forall stretch class, exists s, export_latex stretch class false L = Ok s /\ ~ exists m, body_source s m.
Proof. exact latex_color_w. Qed.
Print Assumptions latex_color_refuted.

(** A bullet and a number, or two bullets: the same source. *)
Theorem latex_mixed_lists_refuted : exists L1 L2 its atts1 atts2, lreach L1 /\ lreach L2
   /\ doc_items (l_doc L1) = Ok its /\ doc_items (l_doc L2) = Ok its
   /\ para_attrs (l_doc L1) = map Some atts1 /\ para_attrs (l_doc L2) = map Some atts2
   /\ forall stretch, latex_shown stretch L1 atts1 (paragraphs its) <> latex_shown stretch L2 atts2 (paragraphs its)
      /\ forall class pre, export_latex stretch class pre L1 = export_latex stretch class pre L2.
Proof. exact latex_mixed_w. Qed.
Print Assumptions latex_mixed_lists_refuted.
(** Two lists "1", "1", or one list "1", "2": the same source. *)
Theorem latex_merged_lists_refuted : exists L1 L2, lreach L1 /\ lreach L2
   /\ markers L1 = [Ok (Some (txt "1")); Ok (Some (txt "1"))] /\ markers L2 = [Ok (Some (txt "1")); Ok (Some (txt "2"))]
   /\ forall stretch class pre, export_latex stretch class pre L1 = export_latex stretch class pre L2.
Proof. exact latex_merged_w. Qed.
Print Assumptions latex_merged_lists_refuted.
(** A code block in a list, or a plain item: the same source. *)
Theorem latex_code_item_refuted : exists L1 L2 its atts1 atts2, lreach L1 /\ lreach L2
   /\ doc_items (l_doc L1) = Ok its /\ doc_items (l_doc L2) = Ok its
   /\ para_attrs (l_doc L1) = map Some atts1 /\ para_attrs (l_doc L2) = map Some atts2
   /\ map (fun a => f_is_code_block (snd a)) atts1 = [None; None] /\ map (fun a => f_is_code_block (snd a)) atts2 = [None; Some true]
   /\ forall stretch class pre, export_latex stretch class pre L1 = export_latex stretch class pre L2.
Proof. exact latex_code_item_w. Qed.
Print Assumptions latex_code_item_refuted.
(** A centered paragraph, or one that is not: the same source. *)
Theorem latex_alignment_refuted : exists L1 L2, lreach L1 /\ lreach L2
   /\ map (fun a => f_alignment (snd a)) (attrs_of L1) = [None; None] /\ map (fun a => f_alignment (snd a)) (attrs_of L2) = [Some 2%N; None]
   /\ forall stretch class pre, export_latex stretch class pre L1 = export_latex stretch class pre L2.
Proof. exact latex_alignment_w. Qed.
Print Assumptions latex_alignment_refuted.
(** Headings of level 4 and 6: the same source. *)
Theorem latex_heading_refuted : exists L1 L2, lreach L1 /\ lreach L2
   /\ map (fun a => f_heading_level (snd a)) (attrs_of L1) = [Some 4%Z] /\ map (fun a => f_heading_level (snd a)) (attrs_of L2) = [Some 6%Z]
   /\ forall stretch class pre, export_latex stretch class pre L1 = export_latex stretch class pre L2.
Proof. exact latex_heading_w. Qed.
Print Assumptions latex_heading_refuted.
(** Images of different sizes: the same source. *)
Theorem latex_image_size_refuted : exists i j, iname i = iname j /\ iwidth i <> iwidth j /\ latex_segment (SegImage i) = latex_segment (SegImage j).
Proof. exact latex_image_w. Qed.
Print Assumptions latex_image_size_refuted.
(** The place of an image is exported as a character besides the image. *)
Theorem image_exported_twice_refuted : exists d d' e, reach d /\ export_plain_text d = Ok (txt "ab") /\ insert_image d 1 1 (txt "cat") 10 20 = Ok (d', 2%Z, e)
  /\ (forall stretch class, export_latex stretch class false (no_lists d') = Ok (txt "a\includegraphics{cat}" ++ 65532%N :: txt "b"))
  /\ (forall height, export_html height (no_lists d') = Ok (txt "<html><head><meta charset=""utf-8""></head><body><p>a<img src=""cat"" width=""10"" height=""20"" />" ++ 65532%N :: txt "b</p></body></html>"))
  /\ export_markdown (no_lists d') = Ok (txt "a![cat](cat)" ++ 65532%N :: txt "b").
Proof. exact image_twice_w. Qed.
Print Assumptions image_exported_twice_refuted.

(** Text from right to left uses a command that no package of the preamble
    defines. *)
Theorem latex_rtl_refuted : exists L, lreach L /\ forall stretch, (forall z, plain_tex (stretch z)) ->
  exists s c p l, export_latex stretch [] true L = Ok s /\ file_source s c p l /\ ~ all_defined p l.
Proof. exact latex_rtl_w. Qed.
Print Assumptions latex_rtl_refuted.
