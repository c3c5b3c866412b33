(** C56: the exported Markdown. *)
From Coq Require Import Ascii String.
From Verif Require Import Base FormatRunsModel RopeModel DocModel DocSpec HistModel QueryModel PropSpec
  ListModel ListDocModel ListDocSpec FragmentModel EscapeSpec ExportModel ExportSpec ExportRefuted ExportTheorems MdModel MdSpec MdUnique MdExport MdRefuted.

(** A source is read in at most one way. *)
Theorem markdown_reading_unique : forall s r1 r2, md_shows s r1 -> md_shows s r2 -> r1 = r2.
Proof. exact md_shows_unique. Qed.
Print Assumptions markdown_reading_unique.
Example markdown_reading_case : md_shows (txt "a\*") [(Para [], [SChar 97%N bare; SChar 42%N bare])].
Proof.
  exists [(Para [], txt "a\*")]. split; [vm_compute; reflexivity|]. repeat constructor; vm_compute; intuition discriminate.
Qed.

(** The exported source has one reading: the paragraphs of the document in order
    with their kinds, and in them the characters with their looks. Every
    paragraph is gentle: see [gentle_para]. *)
Theorem markdown_export_partial : forall L its atts, reach (l_doc L) -> doc_items (l_doc L) = Ok its -> para_attrs (l_doc L) = map Some atts ->
  (forall k i a p ss, nth_error (d_order (l_doc L)) k = Some i -> nth_error atts k = Some a -> nth_error (paragraphs its) k = Some p ->
     block_segments (l_doc L) i = Ok ss -> gentle_para L a ss p) ->
  exists s, export_markdown L = Ok s /\ forall r, md_shows s r <-> r = md_doc L atts (paragraphs its).
Proof. exact export_markdown_theorem. Qed.
Print Assumptions markdown_export_partial.
Example markdown_export_case : exists its, reach (l_doc sample) /\ doc_items (l_doc sample) = Ok its
  /\ para_attrs (l_doc sample) = map Some (attrs_of sample)
  /\ (forall k i a p ss, nth_error (d_order (l_doc sample)) k = Some i -> nth_error (attrs_of sample) k = Some a -> nth_error (paragraphs its) k = Some p ->
     block_segments (l_doc sample) i = Ok ss -> gentle_para sample a ss p)
  /\ export_markdown sample = Ok (txt "## **ab**" ++ [10; 10; 10; 10; 10; 10]%N ++ txt "1. cd").
Proof.
  eexists. split; [apply sample_reach|]. split; [vm_compute; reflexivity|]. split; [vm_compute; reflexivity|]. split; [|vm_compute; reflexivity].
  intros k i a p ss. now apply sample_gentle.
Qed.

(** The same for fragments. *)
Theorem fragment_markdown_partial : forall x fbs, df_data x = Some fbs -> Forall gentle_fblock fbs ->
  forall r, md_shows (frag_to_markdown x) r <-> r = map frag_md_para fbs.
Proof. exact fragment_markdown_theorem. Qed.
Print Assumptions fragment_markdown_partial.
Example fragment_markdown_case : exists fbs t, fragment_from_document sample = Ok (mk_dfrag (Some fbs) t) /\ Forall gentle_fblock fbs
  /\ frag_to_markdown (mk_dfrag (Some fbs) t) = txt "## **ab**" ++ [10; 10]%N ++ txt "1. cd".
Proof. exact fragment_gentle. Qed.

(** ** What goes wrong *)

(** Backquotes are not escaped: "`a`" as typed and "a" as code have the same
    Markdown. *)
Theorem markdown_backquote_refuted : exists L1 L2, lreach L1 /\ lreach L2
  /\ doc_items (l_doc L1) = Ok (map (fun c => Chr c cfmt_default) (txt "`a`")) /\ doc_items (l_doc L2) = Ok [Chr 97%N code_font]
  /\ export_markdown L1 = export_markdown L2.
Proof. exact md_backquote_w. Qed.
Print Assumptions markdown_backquote_refuted.
(** Link targets are not escaped: one link and two links. *)
Theorem markdown_target_refuted : exists L1 L2, lreach L1 /\ lreach L2
  /\ doc_items (l_doc L1) = Ok [Chr 97%N (target (txt "x)[b](y"))]
  /\ doc_items (l_doc L2) = Ok [Chr 97%N (target (txt "x")); Chr 98%N (target (txt "y"))]
  /\ export_markdown L1 = export_markdown L2.
Proof. exact md_target_w. Qed.
Print Assumptions markdown_target_refuted.
(** The numbers of a list that goes on after a plain paragraph start again. *)
Theorem markdown_numbering_refuted : exists L1 L2, lreach L1 /\ lreach L2
   /\ markers L1 = [Ok (Some (txt "1")); Ok None; Ok (Some (txt "2"))] /\ markers L2 = [Ok (Some (txt "1")); Ok None; Ok (Some (txt "1"))]
   /\ export_markdown L1 = export_markdown L2.
Proof. exact md_numbering_w. Qed.
Print Assumptions markdown_numbering_refuted.
(** Empty paragraphs disappear. *)
Theorem markdown_empty_refuted : exists L1 L2 s1 s2, lreach L1 /\ lreach L2
   /\ export_plain_text (l_doc L1) = Ok (txt "a" ++ [10; 10]%N ++ txt "b") /\ export_plain_text (l_doc L2) = Ok (txt "a" ++ [10%N] ++ txt "b")
   /\ export_markdown L1 = Ok s1 /\ export_markdown L2 = Ok s2
   /\ (forall r, md_shows s1 r <-> md_shows s2 r) /\ exists r, md_shows s1 r.
Proof. exact md_empty_w. Qed.
Print Assumptions markdown_empty_refuted.
(** An item of a bulleted list at indentation 2 is shown as code. *)
Theorem markdown_indent_refuted : exists L e s, lreach L /\ map (listed L) (attrs_of L) = [Some e] /\ l_style e = Disc /\ l_indent e = 2%Z
   /\ export_plain_text (l_doc L) = Ok (txt "a") /\ export_markdown L = Ok s /\ md_shows s [(Code None, map (fun c => SChar c bare) (txt "- a"))].
Proof. exact md_indent_w. Qed.
Print Assumptions markdown_indent_refuted.
(** A code block whose text is three backquotes is shown as two empty ones. *)
Theorem markdown_fence_refuted : exists L s, lreach L /\ export_plain_text (l_doc L) = Ok (txt "```") /\ map (fun a => f_is_code_block (snd a)) (attrs_of L) = [Some true]
   /\ export_markdown L = Ok s /\ md_shows s [(Code None, []); (Code None, [])].
Proof. exact md_fence_w. Qed.
Print Assumptions markdown_fence_refuted.
(** A heading of level 0 is a heading in HTML and not in Markdown. *)
Theorem markdown_level_refuted : exists L s, lreach L /\ (forall height, export_html height L = Ok (html_page (txt "<h1>a</h1>")))
   /\ export_markdown L = Ok s /\ md_shows s [(Para [], [SChar 97%N bare])].
Proof. exact md_level_w. Qed.
Print Assumptions markdown_level_refuted.
(** Bold text that ends with a full stop before a letter: the closing marks
    cannot close. *)
Theorem markdown_bold_refuted : exists L, lreach L /\ doc_items (l_doc L) = Ok [Chr 97%N bold_font; Chr 46%N bold_font; Chr 98%N cfmt_default]
  /\ export_markdown L = Ok (txt "**a\.**b") /\ ~ can_end 46%N 98%N.
Proof. exact md_flank_w. Qed.
Print Assumptions markdown_bold_refuted.
(** An image in a fragment is exported like the text "![x](x)". *)
Theorem markdown_fragment_image_refuted : exists i t, frag_md_segment (SegImage i) = frag_md_segment (SegText t cfmt_default)
  /\ t = txt "![x](x)" /\ iname i = txt "x".
Proof. exact md_frag_image_w. Qed.
Print Assumptions markdown_fragment_image_refuted.
(** Linked code in a fragment is exported without its link. *)
Theorem markdown_fragment_link_refuted : exists L1 L2 x1 x2, lreach L1 /\ lreach L2
  /\ doc_items (l_doc L1) = Ok [Chr 97%N code_font] /\ doc_items (l_doc L2) = Ok [Chr 97%N linked_code]
  /\ fragment_from_document L1 = Ok x1 /\ fragment_from_document L2 = Ok x2 /\ frag_to_markdown x1 = frag_to_markdown x2
  /\ export_markdown L2 = Ok (txt "[`a`](u)").
Proof. exact md_frag_code_link_w. Qed.
Print Assumptions markdown_fragment_link_refuted.
(** A code block in a fragment is exported like a plain paragraph. *)
Theorem markdown_fragment_code_refuted : exists L1 L2 x1 x2, lreach L1 /\ lreach L2
  /\ map (fun a => f_is_code_block (snd a)) (attrs_of L1) = [None] /\ map (fun a => f_is_code_block (snd a)) (attrs_of L2) = [Some true]
  /\ fragment_from_document L1 = Ok x1 /\ fragment_from_document L2 = Ok x2 /\ frag_to_markdown x1 = frag_to_markdown x2.
Proof. exact md_frag_code_w. Qed.
Print Assumptions markdown_fragment_code_refuted.
(** A paragraph at indentation 2 in a fragment is shown as code. *)
Theorem markdown_fragment_indent_refuted : exists L x, lreach L /\ export_plain_text (l_doc L) = Ok (txt "a") /\ map (fun a => f_indent (snd a)) (attrs_of L) = [Some 2%Z]
  /\ fragment_from_document L = Ok x /\ md_shows (frag_to_markdown x) [(Code None, [SChar 97%N bare])].
Proof. exact md_frag_indent_w. Qed.
Print Assumptions markdown_fragment_indent_refuted.
