(** C31: escaping of exported text. [reads codes active e t]: a reader of the
    format sees the text [t] in the source [e]. *)
From Verif Require Import Base EscapeModel EscapeSpec EscapeFacts.

(** HTML, document export and fragments: every text reads back exactly. *)
Theorem html_lossless : forall s,
  reads html_codes html_active (escape_html s) s /\ reads html_codes html_active (escape_html_fragment s) s.
Proof. exact html_reads. Qed.
Print Assumptions html_lossless.
Example html_lossless_case : escape_html [38; 108; 116; 59; 60]%N = [38; 97; 109; 112; 59; 108; 116; 59; 38; 108; 116; 59]%N.
Proof. reflexivity. Qed.
(** A source has one reading, so different texts have different sources. *)
Theorem html_unambiguous : forall e t1 t2,
  reads html_codes html_active e t1 -> reads html_codes html_active e t2 -> t1 = t2.
Proof. exact (reads_one html_codes html_active html_codes_ok). Qed.
Print Assumptions html_unambiguous.

(** LaTeX. *)
Theorem latex_lossless : forall s, reads latex_codes latex_active (escape_latex s) s.
Proof. exact latex_reads. Qed.
Print Assumptions latex_lossless.
Example latex_lossless_case : escape_latex [97; 95; 38]%N = [97; 92; 95; 92; 38]%N.
Proof. reflexivity. Qed.
Theorem latex_unambiguous : forall e t1 t2,
  reads latex_codes latex_active e t1 -> reads latex_codes latex_active e t2 -> t1 = t2.
Proof. exact (reads_one latex_codes latex_active latex_codes_ok). Qed.
Print Assumptions latex_unambiguous.

(** Markdown. Missing: backquotes, less-than signs and ampersands are not escaped
    by the document export, ampersands not by fragments. *)
Theorem markdown_lossless_partial : forall s,
  reads md_codes md_most (escape_markdown s) s
  /\ reads md_codes (96%N :: 60%N :: md_most) (escape_markdown_fragment s) s.
Proof. exact (fun s => conj (md_export_reads s) (md_fragment_reads s)). Qed.
Print Assumptions markdown_lossless_partial.
Example markdown_lossless_case : escape_markdown [42; 97; 92]%N = [92; 42; 97; 92; 92]%N.
Proof. reflexivity. Qed.
Theorem markdown_unambiguous : forall active e t1 t2, In 92%N active ->
  reads md_codes active e t1 -> reads md_codes active e t2 -> t1 = t2.
Proof. exact (fun active e t1 t2 H => reads_one md_codes active (md_codes_ok active H) e t1 t2). Qed.
Print Assumptions markdown_unambiguous.
Theorem markdown_export_refuted : exists s, ~ reads md_codes md_active (escape_markdown s) s.
Proof. exact md_backtick_refuted_w. Qed.
Print Assumptions markdown_export_refuted.
Theorem markdown_fragment_refuted : exists s, ~ reads md_codes md_active (escape_markdown_fragment s) s.
Proof. exact md_reference_refuted_w. Qed.
Print Assumptions markdown_fragment_refuted.
