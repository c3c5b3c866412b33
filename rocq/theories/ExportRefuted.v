(** Documents whose exports are wrong. *)
From Coq Require Import Ascii String.
From Verif Require Import Base BaseFacts FormatRunsModel FormatRunsSpec RopeModel DocModel DocSpec HistModel QueryModel PropSpec DocTheorems DocRefuted
  ListModel ListDocModel ListDocSpec ListDocFacts FragmentModel FragmentText FragmentSpec FragmentRefuted EscapeModel EscapeSpec ExportModel ExportSpec.

Definition with_list (p a : Z) (st : list_style) (L : ldoc) : ldoc := match create_list L p a st with Ok (L', _) => L' | _ => L end.
Definition no_breq : bfmt_req := mk_breq None None None None None None None None None None None None None None None.
Definition code_req : bfmt_req := mk_breq None None None None None None None None (Some true) None None None None None None.
Definition color_req (c : str) : bfmt_req := mk_breq None None None None None None None (Some c) None None None None None None None.
Definition with_format (q : bfmt_req) (p a : Z) (L : ldoc) : ldoc :=
  match set_block_format q (l_doc L) p a with Ok d => mk_ldoc d (l_lists L) (l_next L) | _ => L end.
Lemma with_list_lreach p a st L : lreach L -> lreach (with_list p a st L).
Proof. intros H. unfold with_list. destruct (create_list L p a st) as [[L' l]| |] eqn:E; [|easy|easy]. eapply lreach_create; eassumption. Qed.
Lemma with_format_lreach q p a L : lreach L -> lreach (with_format q p a L).
Proof.
  intros H. unfold with_format. destruct (set_block_format q (l_doc L) p a) as [d| |] eqn:E; [|easy|easy]. constructor; [easy|].
  eapply reach_block_format; [|exact E]. now destruct (lists_ok _ H).
Qed.
Lemma no_lists_lreach d : reach d -> lreach (no_lists d). Proof. now constructor. Qed.

Definition attrs_of (L : ldoc) : list (option id * bfmt) := flat_map (fun x => match x with Some a => [a] | None => [] end) (para_attrs (l_doc L)).

(** "ab" with a bullet and "cd" with a number, or both with bullets. *)
Definition bullets : ldoc := with_list 0 5 Disc (no_lists two_paras).
Definition bullet_number : ldoc := with_list 4 5 Decimal (with_list 0 1 Disc (no_lists two_paras)).
Definition markers (L : ldoc) : list (res (option str)) := map (block_marker L) (d_order (l_doc L)).
Lemma html_mixed_lists_w : exists L1 L2 its atts1 atts2, lreach L1 /\ lreach L2
   /\ doc_items (l_doc L1) = Ok its /\ doc_items (l_doc L2) = Ok its
   /\ para_attrs (l_doc L1) = map Some atts1 /\ para_attrs (l_doc L2) = map Some atts2
   /\ forall height, doc_shown height L1 atts1 (paragraphs its) <> doc_shown height L2 atts2 (paragraphs its)
      /\ export_html height L1 = export_html height L2.
Proof.
  exists bullets, bullet_number. eexists _, (attrs_of bullets), (attrs_of bullet_number). split; [apply with_list_lreach, no_lists_lreach, two_paras_reach|].
  split; [apply with_list_lreach, with_list_lreach, no_lists_lreach, two_paras_reach|].
  split; [vm_compute; reflexivity|]. split; [vm_compute; reflexivity|].
  split; [vm_compute; reflexivity|]. split; [vm_compute; reflexivity|].
  intros height. split; [vm_compute; discriminate|vm_compute; reflexivity].
Qed.

(** Two numbered lists of one item each, "1" and "1", are exported like one list
    of two items, "1" and "2". *)
Definition two_lists : ldoc := with_list 4 5 Decimal (with_list 0 1 Decimal (no_lists two_paras)).
Definition one_list : ldoc := with_list 0 5 Decimal (no_lists two_paras).
Lemma html_merged_lists_w : exists L1 L2, lreach L1 /\ lreach L2
   /\ markers L1 = [Ok (Some (txt "1")); Ok (Some (txt "1"))] /\ markers L2 = [Ok (Some (txt "1")); Ok (Some (txt "2"))]
   /\ forall height, export_html height L1 = export_html height L2.
Proof.
  exists two_lists, one_list. split; [apply with_list_lreach, with_list_lreach, no_lists_lreach, two_paras_reach|].
  split; [apply with_list_lreach, no_lists_lreach, two_paras_reach|].
  split; [vm_compute; reflexivity|]. split; [vm_compute; reflexivity|]. intros height. vm_compute. reflexivity.
Qed.

(** A code block that follows a list item and is in a list. *)
Definition code_item : ldoc := with_format code_req 4 4 bullets.
Lemma html_code_item_w : exists L1 L2 its atts1 atts2, lreach L1 /\ lreach L2
   /\ doc_items (l_doc L1) = Ok its /\ doc_items (l_doc L2) = Ok its
   /\ para_attrs (l_doc L1) = map Some atts1 /\ para_attrs (l_doc L2) = map Some atts2
   /\ map (fun a => f_is_code_block (snd a)) atts1 = [None; None] /\ map (fun a => f_is_code_block (snd a)) atts2 = [None; Some true]
   /\ forall height, export_html height L1 = export_html height L2.
Proof.
  exists bullets, code_item. eexists _, (attrs_of bullets), (attrs_of code_item). split; [apply with_list_lreach, no_lists_lreach, two_paras_reach|].
  split; [apply with_format_lreach, with_list_lreach, no_lists_lreach, two_paras_reach|].
  split; [vm_compute; reflexivity|]. split; [vm_compute; reflexivity|].
  split; [vm_compute; reflexivity|]. split; [vm_compute; reflexivity|].
  split; [vm_compute; reflexivity|]. split; [vm_compute; reflexivity|]. intros height. vm_compute. reflexivity.
Qed.

(** A background colour is not escaped: one paragraph is exported like two. *)
Definition bad_color : str := txt "red"">ab</p><p style=""background-color: blue".
Definition colored_one : ldoc := with_format (color_req bad_color) 0 0 (no_lists (import_plain_text new_document (txt "cd"))).
Definition colored_two : ldoc := with_format (color_req (txt "blue")) 4 4 (with_format (color_req (txt "red")) 0 0 (no_lists two_paras)).
Lemma html_color_w : exists L1 L2, lreach L1 /\ lreach L2
   /\ export_plain_text (l_doc L1) = Ok (txt "cd") /\ export_plain_text (l_doc L2) = Ok (txt "ab" ++ [10%N] ++ txt "cd")
   /\ forall height, export_html height L1 = export_html height L2.
Proof.
  exists colored_one, colored_two. split; [apply with_format_lreach, no_lists_lreach; apply reach_import, reach_new|].
  split; [apply with_format_lreach, with_format_lreach, no_lists_lreach, two_paras_reach|].
  split; [vm_compute; reflexivity|]. split; [vm_compute; reflexivity|]. intros height. vm_compute. reflexivity.
Qed.

(** A character format with a link; [marked]: whether it is marked as a link. *)
Definition linked (marked : option bool) : cfmt :=
  mk_cfmt None None None None None None None None None None (Some (txt "u")) [] marked None None None.
(** The link of an image is not exported. *)
Lemma html_image_w : exists i j, look_of (ifmt i) = bare /\ k_link (look_of (ifmt j)) = Some (txt "u")
  /\ html_segment (SegImage i) = html_segment (SegImage j).
Proof.
  exists (mk_image 0 (txt "x") 1%Z 1%Z 1%Z cfmt_default), (mk_image 0 (txt "x") 1%Z 1%Z 1%Z (linked (Some true))).
  split; [reflexivity|]. split; reflexivity.
Qed.

(** A link that is not marked is exported from the document and not from the
    fragment. *)
Definition link_doc : doc :=
  match insert_formatted_simple new_document 0 (txt "ab") (linked None) with Ok (d, _, _) => d | _ => new_document end.
Lemma link_doc_reach : reach link_doc.
Proof. eapply (reach_insert_fmt new_document 0 (txt "ab") (linked None)); [constructor|discriminate|lia|vm_compute; reflexivity]. Qed.
Lemma fragment_link_w : exists L fbs t, reach (l_doc L) /\ fragment_from_document L = Ok (mk_dfrag (Some fbs) t)
  /\ (forall height, export_html height L = Ok (html_page (txt "<p><a href=""u"">ab</a></p>")))
  /\ frag_to_html (mk_dfrag (Some fbs) t) = html_page (txt "ab").
Proof.
  exists (no_lists link_doc). eexists _, _. split; [apply link_doc_reach|]. split; [vm_compute; reflexivity|].
  split; [intros height; vm_compute; reflexivity|vm_compute; reflexivity].
Qed.

(** A code block in a fragment is exported like a plain paragraph, a centered
    heading like one that is not centered. *)
Definition frag_of (L : ldoc) : dfrag := match fragment_from_document L with Ok x => x | _ => empty_fragment end.
Definition heading_req (align : option N) : bfmt_req := mk_breq align (Some 2%Z) None None None None None None None None None None None None None.
Lemma fragment_code_w : exists L1 L2 x1 x2, reach (l_doc L1) /\ reach (l_doc L2)
  /\ fragment_from_document L1 = Ok x1 /\ fragment_from_document L2 = Ok x2
  /\ option_map (map (fun fb => f_is_code_block (fb_fmt fb))) (df_data x1) = Some [None; None]
  /\ option_map (map (fun fb => f_is_code_block (fb_fmt fb))) (df_data x2) = Some [Some true; None]
  /\ frag_to_html x1 = frag_to_html x2.
Proof.
  exists (no_lists two_paras), (with_format code_req 0 0 (no_lists two_paras)). eexists _, _. split; [apply two_paras_reach|].
  split; [apply (lists_ok _ (with_format_lreach code_req 0 0 _ (no_lists_lreach _ two_paras_reach)))|].
  split; [vm_compute; reflexivity|]. split; [vm_compute; reflexivity|]. split; [vm_compute; reflexivity|]. split; [vm_compute; reflexivity|]. vm_compute. reflexivity.
Qed.
Lemma fragment_heading_w : exists L1 L2 x1 x2, reach (l_doc L1) /\ reach (l_doc L2)
  /\ fragment_from_document L1 = Ok x1 /\ fragment_from_document L2 = Ok x2
  /\ option_map (map (fun fb => f_alignment (fb_fmt fb))) (df_data x1) = Some [None; None]
  /\ option_map (map (fun fb => f_alignment (fb_fmt fb))) (df_data x2) = Some [Some 2%N; None]
  /\ frag_to_html x1 = frag_to_html x2.
Proof.
  exists (with_format (heading_req None) 0 0 (no_lists two_paras)), (with_format (heading_req (Some 2%N)) 0 0 (no_lists two_paras)).
  eexists _, _. split; [apply (lists_ok _ (with_format_lreach _ 0 0 _ (no_lists_lreach _ two_paras_reach)))|].
  split; [apply (lists_ok _ (with_format_lreach _ 0 0 _ (no_lists_lreach _ two_paras_reach)))|].
  split; [vm_compute; reflexivity|]. split; [vm_compute; reflexivity|]. split; [vm_compute; reflexivity|]. split; [vm_compute; reflexivity|]. vm_compute. reflexivity.
Qed.
