(** Concrete documents on which copy and paste go wrong. *)
From Verif Require Import Base FormatRunsModel FormatRunsSpec RopeModel DocModel DocSpec HistModel HistSpec
  QueryModel QuerySpec PropSpec DocTheorems QueryTheorems DocRefuted ListModel ListDocModel
  FragmentModel FragmentText FragmentSpec FragmentCopySpec.

Definition no_lists (d : doc) : ldoc := mk_ldoc d [] 1%N.
(** A centered paragraph, and a paragraph with tab positions. *)
Definition centered (t : str) : fblock :=
  mk_fblock t [SegText t cfmt_default] (apply_bfmt center_req bfmt_default) None.

Lemma centered_text t : text_only (centered t). Proof. split; [repeat constructor|]. cbn. now rewrite app_nil_r. Qed.
Lemma plain_text t : text_only (plain_fblock t). Proof. split; [repeat constructor|]. cbn. now rewrite app_nil_r. Qed.

(** Copying "ab" and the break after it. *)
Lemma copy_break_refuted_w :
  exists L its fbs t, tidy (l_doc L) /\ doc_items (l_doc L) = Ok its /\ 3 <= length its
   /\ selection L 0 3 = Ok (mk_dfrag (Some fbs) t)
   /\ fragment_items fbs <> between 0 3 its /\ t <> plain (between 0 3 its).
Proof.
  exists (no_lists two_paras). eexists _, _, _. split; [apply two_paras_tidy|]. split; [vm_compute; reflexivity|].
  split; [vm_compute; lia|]. split; [vm_compute; reflexivity|]. split; vm_compute; discriminate.
Qed.

(** Copying "cd" after typing in the paragraph before. *)
Lemma copy_stale_refuted_w :
  exists L its fbs t, reach (l_doc L) /\ doc_items (l_doc L) = Ok its /\ 8 <= length its
   /\ plain (between 6 8 its) = [99; 100]%N /\ selection L 6 8 = Ok (mk_dfrag (Some fbs) t) /\ fbs = [] /\ t = [].
Proof.
  exists (no_lists typed_first). eexists _, _, _. split; [apply typed_first_reach|]. split; [vm_compute; reflexivity|].
  split; [vm_compute; lia|]. split; [vm_compute; reflexivity|]. split; vm_compute; auto.
Qed.

(** Typing "XYZ", then a break before the "b". *)
Definition entered : doc := match insert_block typed_first 4 with Ok (d, _, _) => d | _ => new_document end.
Lemma entered_reach : reach entered.
Proof. eapply (reach_break typed_first 4); [apply typed_first_reach|vm_compute; reflexivity]. Qed.

(** Two paragraphs pasted there: the text and the list of paragraphs do not agree. *)
Lemma paste_order_refuted_w :
  exists L its its' fbs L' np k, reach (l_doc L) /\ doc_items (l_doc L) = Ok its /\ Forall text_only fbs
   /\ insert_fragment L 6 6 (Some fbs) = Ok (L', np, k)
   /\ export_plain_text (l_doc L') = Ok (plain (spec_paste 6 fbs its))
   /\ doc_items (l_doc L') = Ok its' /\ plain its' <> plain (spec_paste 6 fbs its).
Proof.
  exists (no_lists entered). eexists _, _, [plain_fblock [49%N]; plain_fblock [50%N]], _, _, _. split; [apply entered_reach|].
  split; [vm_compute; reflexivity|]. split; [repeat apply Forall_cons; try apply plain_text; constructor|].
  split; [vm_compute; reflexivity|]. split; [vm_compute; reflexivity|]. split; [vm_compute; reflexivity|]. vm_compute. discriminate.
Qed.

(** A centered paragraph pasted before text. *)
Lemma paste_count_refuted_w :
  exists L fbs L' np k, counted (l_doc L) /\ Forall text_only fbs /\ insert_fragment L 0 0 (Some fbs) = Ok (L', np, k)
   /\ export_plain_text (l_doc L') = Ok [49; 10; 97; 98; 10; 99; 100]%N /\ character_count (l_doc L') = Ok 3.
Proof.
  exists (no_lists two_paras), [centered [49%N]]. eexists _, _, _. split; [apply two_paras_counted|].
  split; [repeat apply Forall_cons; try apply centered_text; constructor|]. split; [vm_compute; reflexivity|]. split; vm_compute; reflexivity.
Qed.
Lemma paste_positions_refuted_w :
  exists L fbs L' np k, tidy (l_doc L) /\ Forall text_only fbs /\ insert_fragment L 1 1 (Some fbs) = Ok (L', np, k)
   /\ export_plain_text (l_doc L') = Ok [97; 10; 49; 10; 98; 10; 99; 100]%N
   /\ np = 5%Z /\ ~ fresh_positions (l_doc L').
Proof.
  exists (no_lists two_paras), [centered [49%N]]. eexists _, _, _. split; [apply two_paras_tidy|].
  split; [repeat apply Forall_cons; try apply centered_text; constructor|]. split; [vm_compute; reflexivity|]. split; [vm_compute; reflexivity|].
  split; [reflexivity|]. intros H. vm_compute in H.
  destruct H as (b1 & t1 & G1 & C1 & P1 & b2 & t2 & G2 & C2 & P2 & _).
  injection C1 as <-. injection G2 as <-. vm_compute in P2. discriminate.
Qed.
(** Two paragraphs are added, one is reported. *)
Lemma paste_added_refuted_w :
  exists L fbs L' np k, tidy (l_doc L) /\ Forall text_only fbs /\ insert_fragment L 1 1 (Some fbs) = Ok (L', np, k)
   /\ k = 1%Z /\ length (d_order (l_doc L')) = length (d_order (l_doc L)) + 2.
Proof.
  exists (no_lists two_paras), [centered [49%N]]. eexists _, _, _. split; [apply two_paras_tidy|].
  split; [repeat apply Forall_cons; try apply centered_text; constructor|]. split; [vm_compute; reflexivity|]. split; vm_compute; reflexivity.
Qed.

(** The centered "ab" gets a centered paragraph before it: it is not centered
    any more. *)
Definition centered_first : doc := match set_block_format center_req two_paras 0 0 with Ok d => d | _ => new_document end.
Lemma centered_first_tidy : tidy centered_first.
Proof. eapply (tidy_block_format two_paras center_req 0 0); [apply two_paras_tidy|vm_compute; reflexivity]. Qed.
Lemma paste_format_refuted_w :
  exists L fbs L' np k, tidy (l_doc L) /\ Forall text_only fbs /\ insert_fragment L 0 0 (Some fbs) = Ok (L', np, k)
   /\ nth_error (para_attrs (l_doc L)) 0 = Some (Some (None, apply_bfmt center_req bfmt_default))
   /\ export_plain_text (l_doc L') = Ok [49; 10; 97; 98; 10; 99; 100]%N
   /\ nth_error (para_attrs (l_doc L')) 1 = Some (Some (None, bfmt_default)).
Proof.
  exists (no_lists centered_first), [centered [49%N]]. eexists _, _, _. split; [apply centered_first_tidy|].
  split; [repeat apply Forall_cons; try apply centered_text; constructor|]. split; [vm_compute; reflexivity|]. split; [vm_compute; reflexivity|].
  split; vm_compute; reflexivity.
Qed.

(** Tab positions alone do not count as paragraph formatting. *)
Definition tabs : bfmt :=
  mk_bfmt None None None None None None None None None [50%Z] None None None None None None.
Lemma paste_tabs_refuted_w :
  exists L fb L' np k, tidy (l_doc L) /\ text_only fb /\ fb_fmt fb <> bfmt_default
   /\ insert_fragment L 0 0 (Some [fb]) = Ok (L', np, k) /\ para_attrs (l_doc L') = para_attrs (l_doc L).
Proof.
  exists (no_lists two_paras), (mk_fblock [49%N] [SegText [49%N] cfmt_default] tabs None). eexists _, _, _.
  split; [apply two_paras_tidy|]. split; [split; [repeat constructor|reflexivity]|]. split; [discriminate|].
  split; [vm_compute; reflexivity|]. vm_compute. reflexivity.
Qed.

(** Two lists with the same style and indent but different prefixes. *)
Lemma paste_list_refuted_w :
  exists L fbs L' np k i f a b, tidy (l_doc L) /\ lists_numbered L /\ Forall text_only fbs
   /\ insert_fragment L 0 0 (Some fbs) = Ok (L', np, k)
   /\ nth_error (map fb_list fbs) 1 = Some (Some a) /\ nth_error (para_attrs (l_doc L')) 1 = Some (Some (Some i, f))
   /\ get_list L' i = Some b /\ l_prefix a = [41%N] /\ l_prefix b = [40%N].
Proof.
  set (item := fun c t => mk_fblock t [SegText t cfmt_default] bfmt_default (Some (mk_list Decimal 0 [c] []))).
  exists (no_lists two_paras), [item 40%N [49%N]; item 41%N [50%N]].
  eexists _, _, _, _, _, _, _. split; [apply two_paras_tidy|]. split; [intros l _; reflexivity|].
  split; [repeat apply Forall_cons; try constructor; repeat constructor|].
  split; [vm_compute; reflexivity|]. split; [reflexivity|]. split; [vm_compute; reflexivity|].
  split; [vm_compute; reflexivity|]. split; reflexivity.
Qed.

(** An empty fragment put in place of a selection. *)
Lemma paste_failure_refuted_w :
  exists L L' its, reach (l_doc L) /\ doc_items (l_doc L) = Ok its
   /\ cursor_insert_fragment L 0 2 empty_fragment = Ok (L', None) /\ doc_items (l_doc L') <> Ok its.
Proof.
  exists (no_lists two_paras). eexists _, _. split; [apply two_paras_reach|]. split; [vm_compute; reflexivity|].
  split; [vm_compute; reflexivity|]. vm_compute. discriminate.
Qed.
