(** Concrete documents on which a property fails, and concrete documents that
    meet the hypotheses of the theorems. *)
From Verif Require Import Base FormatRunsModel FormatRunsSpec RopeModel DocModel DocSpec HistModel HistSpec
  QueryModel QuerySpec PropSpec DocTheorems QueryTheorems.

(** "ab" and "cd", two paragraphs. *)
Definition two_paras : doc := import_plain_text new_document [97; 98; 10; 99; 100]%N.
Definition bold_req : fmt_req :=
  mk_req None None None (Some true) None None None None None None None None.
Definition size_req : fmt_req :=
  mk_req None (Some 14%Z) None None None None None None None None None None.
Definition center_req : bfmt_req :=
  mk_breq (Some 2%N) None None None None None None None None None None None None None None.

Lemma two_paras_reach : reach two_paras. Proof. repeat constructor. Qed.
Lemma two_paras_tidy : tidy two_paras. Proof. repeat constructor. Qed.
Lemma two_paras_counted : counted two_paras. Proof. repeat constructor. Qed.

(** Typing "XYZ" at the start of the first of two paragraphs. *)
Definition typed_first : doc :=
  match insert_text_simple two_paras 0 [88; 89; 90]%N with Ok (d, _, _) => d | _ => new_document end.
Lemma typed_first_reach : reach typed_first.
Proof. eapply (reach_insert two_paras 0 [88; 89; 90]%N); [apply two_paras_reach|vm_compute; reflexivity]. Qed.

(** Bold asked on "cd" (positions 6 to 8) after typing. *)
Lemma format_range_refuted_w :
  exists d its d' ivs, reach d /\ doc_items d = Ok its
   /\ set_text_format bold_req d 6 8 = Ok (d', ivs)
   /\ doc_items d' <> Ok (spec_format (fun f => set_merge f bold_req) 6 8 its).
Proof.
  exists typed_first. eexists _, _, _. split; [apply typed_first_reach|]. split; [vm_compute; reflexivity|].
  split; [vm_compute; reflexivity|]. vm_compute. discriminate.
Qed.

Lemma block_format_stale_refuted_w :
  exists d its d' i l f para, reach d /\ doc_items d = Ok its
   /\ set_block_format center_req d 6 6 = Ok d'
   /\ nth_error (d_order d) 1 = Some i /\ attr d i = Some (l, f) /\ nth_error (paragraphs its) 1 = Some para
   /\ para_start 1 its <= 6 < para_start 1 its + length para
   /\ attr d' i <> Some (l, apply_bfmt center_req f).
Proof.
  exists typed_first. eexists _, _, _, _, _, _. split; [apply typed_first_reach|]. split; [vm_compute; reflexivity|].
  split; [vm_compute; reflexivity|]. split; [vm_compute; reflexivity|]. split; [vm_compute; reflexivity|].
  split; [vm_compute; reflexivity|]. split; [vm_compute; lia|]. vm_compute. discriminate.
Qed.

(** The caret at the end of "ab". *)
Lemma block_format_caret_refuted_w :
  exists d its d' i l f para, tidy d /\ doc_items d = Ok its
   /\ set_block_format center_req d 2 2 = Ok d'
   /\ nth_error (d_order d) 0 = Some i /\ attr d i = Some (l, f) /\ nth_error (paragraphs its) 0 = Some para
   /\ para_start 0 its <= 2 <= para_start 0 its + length para
   /\ attr d' i = Some (l, f) /\ apply_bfmt center_req f <> f.
Proof.
  exists two_paras. eexists _, _, _, _, _, _. split; [apply two_paras_tidy|]. split; [vm_compute; reflexivity|].
  split; [vm_compute; reflexivity|]. split; [vm_compute; reflexivity|]. split; [vm_compute; reflexivity|].
  split; [vm_compute; reflexivity|]. split; [vm_compute; lia|]. split; [vm_compute; reflexivity|]. vm_compute. discriminate.
Qed.

(** Inserting no text with a format. *)
Lemma empty_formatted_insert_refuted_w :
  exists d f d' np u i t, reach d /\ insert_formatted_simple d 1 [] f = Ok (d', np, u)
   /\ In i (d_order d') /\ block_content (d_rs d') i = Ok t /\ ~ wf_runs t (d_runs d' i).
Proof.
  exists two_paras, (set_merge cfmt_default bold_req). eexists _, _, _, 2%N, _. split; [apply two_paras_reach|].
  split; [vm_compute; reflexivity|]. split; [vm_compute; tauto|]. split; [vm_compute; reflexivity|].
  intros (H & _). vm_compute in H. lia.
Qed.

(** Merging a font size. *)
Lemma merge_size_refuted_w :
  exists f, q_font_point_size size_req = Some 14%Z /\ font_point_size (merge_merge f size_req) <> Some 14%Z.
Proof. exists cfmt_default. split; [reflexivity|]. vm_compute. discriminate. Qed.

(** A new document: "a", a paragraph break, "b". *)
Lemma stats_new_refuted_w :
  exists es d its, Forall edit_ok es /\ run_edits new_document es = Ok d /\ doc_items d = Ok its
   /\ block_count d = Ok 1 /\ count_paras its = 2 /\ max_cursor_position d = Ok 2 /\ length its = 3.
Proof.
  exists [EInsert 0 0 [97%N]; EBreak 1 1; EInsert 2 2 [98%N]]. eexists _, _. split; [repeat constructor|].
  split; [vm_compute; reflexivity|]. split; [vm_compute; reflexivity|]. vm_compute. auto.
Qed.

(** A selection from 3 to 100 in "ab", "cd". *)
Lemma stats_over_range_refuted_w :
  exists d d' q, counted d /\ run_edit d (ERemove 3 100) = Ok (d', q) /\ character_count d' = Panic.
Proof.
  exists two_paras. eexists _, _. split; [apply two_paras_counted|]. split; vm_compute; reflexivity.
Qed.

(** An image at the start of a text. *)
Lemma element_ids_refuted_w :
  exists t b imgs fs f g e, wf_runs t [] /\ build_raw_fragments t b [] imgs = Ok fs
   /\ nth_error fs 0 = Some f /\ nth_error fs 1 = Some g /\ frag_id f = e /\ frag_id g = e.
Proof.
  exists [97%N], 1%N, [mk_image 0 [] 1 1 100 cfmt_default]. eexists _, _, _, _.
  split; [split; [exact I|split; [exact I|constructor]]|]. split; [vm_compute; reflexivity|].
  split; [reflexivity|]. split; [reflexivity|]. split; vm_compute; reflexivity.
Qed.
Lemma element_ids_mask_refuted_w : synth_element_id 1%N 0 = synth_element_id (2 ^ 30 + 1)%N 0.
Proof. vm_compute. reflexivity. Qed.

(** "ab" in bold, then "cd". *)
Definition bold_first : doc :=
  match set_text_format bold_req two_paras 0 2 with Ok (d, _) => d | _ => new_document end.
Lemma bold_first_reach : reach bold_first.
Proof.
  eapply (reach_format two_paras (fun f => set_merge f bold_req) 0 2); [apply two_paras_reach|].
  vm_compute. reflexivity.
Qed.

(** ** The format of inserted text (C41) *)
Lemma inserted_attrs q :
  let g := ins_to_cfmt (req_to_ins q) in
  let takes := fun A (new now : option A) => forall v, new = Some v -> now = Some v in
  takes _ (q_font_family q) (font_family g) /\ takes _ (q_font_point_size q) (font_point_size g)
  /\ takes _ (q_font_bold q) (font_bold g) /\ takes _ (q_font_italic q) (font_italic g)
  /\ takes _ (q_font_underline q) (font_underline g) /\ takes _ (q_font_strikeout q) (font_strikeout g).
Proof.
  destruct q as [a b c d e f g' h i j k l]. cbn.
  repeat match goal with |- _ /\ _ => split end; intros v ->; reflexivity.
Qed.
Lemma inserted_weight_refuted_w :
  exists q, q_font_weight q = Some 700%Z /\ font_weight (ins_to_cfmt (req_to_ins q)) <> Some 700%Z.
Proof.
  exists (mk_req None None (Some 700%Z) None None None None None None None None None).
  split; [reflexivity|discriminate].
Qed.
Lemma inserted_unset_refuted_w :
  exists q, q_font_point_size q = None /\ q_font_family q = None
   /\ font_point_size (ins_to_cfmt (req_to_ins q)) = Some 0%Z /\ font_family (ins_to_cfmt (req_to_ins q)) = Some [].
Proof. exists bold_req. repeat split. Qed.
