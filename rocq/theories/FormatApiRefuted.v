(** Formats that are not read back. *)
From Verif Require Import Base FormatRunsModel FormatRunsSpec RopeModel DocModel DocSpec HistModel HistSpec QueryModel QuerySpec PropSpec
  DocTheorems QueryTheorems DocRefuted FormatApiModel FormatApiSpec FormatApiFacts.
From Coq Require Import SpecFloat.

Definition t_linked : tfmt := mk_tfmt None None None None None None None None None None None None (Some [47%N]) [] (Some true) (Some [116%N]) (Some 255%N) None None.
Definition t_bold_on : tfmt := mk_tfmt None None None (Some true) None None None None None None None None None [] None None None None None.
Definition p_tabbed : pfmt := mk_pfmt None None None None None None None None None [40%Z] None None None None None None.
Definition p_tall (v : f32) : pfmt := mk_pfmt None None None None None None None None None [] (Some v) None None None None None.

Lemma links_fail :
  exists f d p a d' now, tidy d /\ t_ok f /\ set_char_format f d p a = Ok d' /\ cursor_char_format d' p = Ok now /\ p < a
   /\ t_href f = Some [47%N] /\ t_href now = None /\ t_tooltip f = Some [116%N] /\ t_tooltip now = None
   /\ t_foreground f = Some 255%N /\ t_foreground now = None.
Proof.
  exists t_linked, two_paras, 0, 2. eexists _, _. split; [apply two_paras_tidy|]. split; [easy|].
  split; [vm_compute; reflexivity|]. split; [vm_compute; reflexivity|]. split; [lia|]. repeat split.
Qed.
Lemma tabs_fail :
  exists f d p a d' now, tidy d /\ p_ok f /\ set_paragraph_format f d p a = Ok d' /\ cursor_block_format d' p = Ok now
   /\ p_tabs f = [40%Z] /\ p_tabs now = [].
Proof.
  exists p_tabbed, two_paras, 0, 0. eexists _, _. split; [apply two_paras_tidy|]. split; [easy|].
  split; [vm_compute; reflexivity|]. split; [vm_compute; reflexivity|]. repeat split.
Qed.
Lemma height_fail :
  exists d p a d' now, tidy d /\ set_paragraph_format (p_tall (thousandths 1004)) d p a = Ok d' /\ cursor_block_format d' p = Ok now
   /\ p_line_height now = Some (thousandths 1003) /\ thousandths 1003 <> thousandths 1004.
Proof.
  exists two_paras, 0, 0. eexists _, _. split; [apply two_paras_tidy|].
  split; [vm_compute; reflexivity|]. split; [vm_compute; reflexivity|]. split; [vm_compute; reflexivity|]. vm_compute. discriminate.
Qed.
Definition f_placed : ffmt := mk_ffmt None None None None None None None None (Some 1%N) None.
Lemma position_fail :
  exists f old, ff_ok f /\ ff_position f = Some 1%N /\ ff_position (read_frame (store_frame f old)) = None.
Proof. exists f_placed, (mk_ffmt None None None None None None None None None None). repeat split. Qed.
Lemma caret_fail :
  exists d its p now, reach d /\ doc_items d = Ok its /\ nth_error its p = Some Brk
   /\ (forall q f, q < p -> char_at its q = Some f -> font_bold f <> Some true)
   /\ cursor_char_format d p = Ok now /\ t_bold now = Some true.
Proof.
  destruct (set_char_format t_bold_on two_paras 3 5) as [d| |] eqn:E; [|discriminate E|discriminate E].
  assert (R : reach d).
  { unfold set_char_format, set_text_format in E. destruct (format_text _ _ _ _) as [[d1 ivs]| |] eqn:E1; try discriminate E.
    cbn in E. injection E as <-. eapply reach_format; [apply two_paras_reach|exact E1]. }
  exists d. vm_compute in E. injection E as <-. eexists _, 2, _. split; [exact R|]. split; [vm_compute; reflexivity|].
  split; [reflexivity|]. split; [|split; [vm_compute; reflexivity|reflexivity]].
  intros q f Hq. destruct q as [|[|q]]; [| |lia]; cbn; intros H; injection H as <-; cbn; discriminate.
Qed.
