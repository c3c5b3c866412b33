(** The exported page has one reading, which shows the document. *)
From Verif Require Import Base FormatRunsModel RopeModel DocModel DocSpec HistModel QueryModel PropSpec DocRefuted
  ListModel ListDocModel ListDocSpec ListDocFacts FragmentModel FragmentCopySpec EscapeSpec ExportModel ExportSpec ExportUnique ExportHtml ExportFrag ExportRefuted FragmentRefuted.

Lemma html_page_theorem height L its atts : reach (l_doc L) -> doc_items (l_doc L) = Ok its -> para_attrs (l_doc L) = map Some atts ->
  steady L atts -> calm_colors atts -> (forall z, calm (height z)) ->
  exists s ns, export_html height L = Ok s /\ (forall l, html s l <-> l = page ns)
   /\ blocks ns = Some (doc_shown height L atts (paragraphs its)).
Proof.
  intros R E A S C H. destruct (export_html_theorem height L its atts R E A S C H) as (s & ns & E1 & H1 & B).
  exists s, ns. split; [easy|]. split; [|easy]. intros l. split; [|now intros ->]. intros Hl. now apply (html_one_reading s).
Qed.
Lemma fragment_page_theorem : exists number, (forall z, int_text z (number z))
  /\ forall x fbs, df_data x = Some fbs -> Forall links_marked fbs -> Forall no_code_no_styled_heading fbs ->
     exists ns, (forall l, html (frag_to_html x) l <-> l = page ns)
       /\ ((forall fb, fbs = [fb] -> ~ without_format fb) -> blocks ns = Some (map (frag_shown number) fbs))
       /\ (forall fb, fbs = [fb] -> without_format fb -> inline bare ns = Some (flat_map (shown_segment number) (fb_elems fb))).
Proof.
  destruct fragment_html_theorem as (number & N & F). exists number. split; [exact N|]. intros x fbs E Hm Hc.
  destruct (F x fbs E Hm Hc) as (ns & H & B). exists ns. split; [|easy]. intros l. split; [|now intros ->]. intros Hl. now apply (html_one_reading (frag_to_html x)).
Qed.

(** A bold heading "ab" and a numbered item "cd". *)
Definition sample : ldoc := with_list 4 5 Decimal (with_format (heading_req (Some 2%N)) 0 0 (no_lists bold_first)).
Lemma sample_reach : reach (l_doc sample).
Proof. apply lists_ok, with_list_lreach, with_format_lreach, no_lists_lreach, bold_first_reach. Qed.
