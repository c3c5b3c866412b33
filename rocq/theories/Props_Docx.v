(** Export as DOCX: C69. *)
From Coq Require Import Sorting.Permutation.
From Verif Require Import Base FormatRunsModel RopeModel DocModel DocSpec QueryModel PropSpec DocRefuted ExportSpec TableModel TableSpec TableTheorems
  DocxModel DocxSpec DocxFacts DocxTable DocxRefuted.
Local Open Scope Z_scope.

(** The file has one paragraph for each paragraph of the document, in the same order,
    with the same characters, heading level, line spacing and bold, italic, underlined,
    struck out and monospace characters. Missing: links and lists, heading levels outside
    1 to 6, and documents whose stored positions do not ascend. *)
Theorem docx_partial : forall d its atts, reach d -> doc_items d = Ok its -> para_attrs d = map Some atts -> Forall proper_heading atts ->
  ascending_positions d ->
  exists ps, export_docx true (fun _ => false) d = (Some ps, Ok (Z.of_nat (length (paragraphs its)))) /\ all_faithful ps atts (paragraphs its).
Proof. exact docx_theorem. Qed.
Print Assumptions docx_partial.
(** Right stored positions ascend. *)
Theorem docx_fresh_partial : forall d its atts, reach d -> fresh_positions d -> doc_items d = Ok its -> para_attrs d = map Some atts ->
  Forall proper_heading atts ->
  exists ps, export_docx true (fun _ => false) d = (Some ps, Ok (Z.of_nat (length (paragraphs its)))) /\ all_faithful ps atts (paragraphs its).
Proof. exact docx_fresh_theorem. Qed.
Print Assumptions docx_fresh_partial.
Example docx_case : exists d its atts, set_block_format (heading_req 2) two_paras 0 1 = Ok d /\ reach d /\ fresh_positions d /\ doc_items d = Ok its
  /\ para_attrs d = map Some atts /\ Forall proper_heading atts /\ length (paragraphs its) = 2%nat.
Proof.
  eexists _, _, [(None, _); (None, _)]. split; [vm_compute; reflexivity|].
  split; [apply (reach_block_format two_paras (heading_req 2) 0 1); [apply two_paras_reach|vm_compute; reflexivity]|].
  split; [vm_compute; do 2 eexists; repeat split; do 2 eexists; repeat split|].
  split; [vm_compute; reflexivity|]. split; [vm_compute; reflexivity|]. split; [|vm_compute; reflexivity].
  repeat constructor; vm_compute; discriminate.
Qed.
Theorem docx_order_refuted : exists d, reach d /\ export_plain_text d = Ok [85; 86; 87; 88; 89; 10; 90; 97; 98; 10; 99; 100]%N
  /\ written (export_docx true (fun _ => false) d) = [[[85; 86; 87; 88; 89]]; [[99; 100]]; [[90; 97; 98]]]%N.
Proof. exact order_fail. Qed.
Print Assumptions docx_order_refuted.
(** Whatever the stored positions, every paragraph is in the file, once. *)
Theorem docx_complete : forall d its atts, reach d -> doc_items d = Ok its -> para_attrs d = map Some atts -> Forall proper_heading atts ->
  exists ps atts' its', export_docx true (fun _ => false) d = (Some ps, Ok (Z.of_nat (length (paragraphs its))))
   /\ all_faithful ps atts' its' /\ Permutation (combine atts (paragraphs its)) (combine atts' its').
Proof. exact docx_all_theorem. Qed.
Print Assumptions docx_complete.
Example docx_complete_case : reach split_long /\ exists its atts, doc_items split_long = Ok its /\ para_attrs split_long = map Some atts
  /\ Forall proper_heading atts /\ length (paragraphs its) = 3%nat.
Proof.
  split; [exact split_long_reach|]. eexists _, [(None, _); (None, _); (None, _)]. split; [vm_compute; reflexivity|].
  split; [vm_compute; reflexivity|]. split; [repeat constructor|vm_compute; reflexivity].
Qed.
Theorem docx_heading_refuted :
  exists d p a d' l f ps n, tidy d /\ set_block_format (heading_req 0) d p a = Ok d' /\ para_attrs d' = [Some (l, f); Some (None, bfmt_default)]
   /\ f_heading_level f = Some 0 /\ export_docx true (fun _ => false) d' = (Some ps, n) /\ map dp_heading ps = [Some 1; None].
Proof. exact heading_fail. Qed.
Print Assumptions docx_heading_refuted.
Theorem docx_list_refuted :
  exists d i l, reach d /\ reach (set_block_list d i l) /\ para_attrs (set_block_list d i l) <> para_attrs d
   /\ export_docx true (fun _ => false) (set_block_list d i l) = export_docx true (fun _ => false) d.
Proof. exact list_fail. Qed.
Print Assumptions docx_list_refuted.
Theorem docx_link_refuted :
  exists d d1 d2 np1 np2 u1 u2 its1 its2, tidy d
   /\ insert_formatted_simple d 1 [120]%N cfmt_default = Ok (d1, np1, u1) /\ insert_formatted_simple d 1 [120]%N link_fmt = Ok (d2, np2, u2)
   /\ doc_items d1 = Ok its1 /\ doc_items d2 = Ok its2 /\ nth_error its1 1 = Some (Chr 120%N cfmt_default) /\ nth_error its2 1 = Some (Chr 120%N link_fmt)
   /\ flat_map para_shown (match fst (export_docx true (fun _ => false) d1) with Some ps => ps | None => [] end)
      = flat_map para_shown (match fst (export_docx true (fun _ => false) d2) with Some ps => ps | None => [] end)
   /\ fst (export_docx true (fun _ => false) d2) <> None.
Proof. exact link_fail. Qed.
Print Assumptions docx_link_refuted.

(** Whenever the export is cancelled, either no file is written and the call fails, or
    the file is the one of an export that is not cancelled. *)
Theorem docx_cancelled : forall writable cancelled d f r, export_docx writable cancelled d = (f, r) ->
  (f = None -> r = Err \/ r = Panic)
  /\ (forall ps, f = Some ps -> writable = true /\ r = Ok (Z.of_nat (length ps)) /\ export_docx true (fun _ => false) d = (f, r)).
Proof. exact docx_cancel_theorem. Qed.
Print Assumptions docx_cancelled.
Example docx_cancelled_case : export_docx true (fun n => (n =? 2)%nat) two_paras = (None, Err)
  /\ snd (export_docx true (fun n => (n =? 3)%nat) two_paras) = Ok 2.
Proof. split; vm_compute; reflexivity. Qed.

(** A table has its rows and columns in the file, and every slot shows the paragraphs of
    the cell over it. Missing: cells over several rows and several columns. *)
Theorem docx_table_partial : forall (A : Type) (para : tblock -> A) (empty : A) d, table_history d ->
  (forall c, In c (t_cells d) -> tc_rs c = 1 \/ tc_cs c = 1) ->
  length (docx_table para empty d) = Z.to_nat (t_rows d)
  /\ Forall (fun x => row_width x = t_cols d) (docx_table para empty d)
  /\ forall r k c, slot d r k -> In c (t_cells d) -> covers c r k = true ->
     slot_shown (docx_table para empty d) r k = Some (map para (sort_tblocks (tc_blocks c))).
Proof. exact @docx_table_history. Qed.
Print Assumptions docx_table_partial.
Example docx_table_case : table_history typed_sample /\ (forall c, In c (t_cells typed_sample) -> tc_rs c = 1 \/ tc_cs c = 1)
  /\ slot_shown (docx_table tb_id 0%N typed_sample) 1 1 = Some [21; 26]%N.
Proof. split; [exact typed_sample_history|]. split; [|vm_compute; reflexivity]. intros c H. cbn in H. each_cell; lia. Qed.
Theorem docx_table_refuted :
  exists d c, table_history d /\ t_cols d = 3 /\ In c (t_cells d) /\ covers c 1 2 = true /\ length (tc_blocks c) = 1%nat
   /\ map row_width (docx_table tb_id 0%N d) = [3; 2] /\ slot_shown (docx_table tb_id 0%N d) 1 2 = None
   /\ slot_shown (docx_table tb_id 0%N d) 1 1 = Some (map tb_id (tc_blocks c)) /\ covers c 1 1 = false.
Proof. exact merged_fail. Qed.
Print Assumptions docx_table_refuted.
Theorem docx_table_place_refuted :
  exists d a b c, placed_history d /\ t_others d = [a; b] /\ In c (t_cells d)
   /\ (forall x, In x (tc_blocks c) -> tb_pos a < tb_pos x < tb_pos b)
   /\ docx_with_table tb_id 0%N d = [DPara (tb_id a); DPara (tb_id b); DTable (docx_table tb_id 0%N d)].
Proof. exact place_fail. Qed.
Print Assumptions docx_table_place_refuted.
