(** C68: formats set through the public API are the ones read back. *)
From Verif Require Import Base FormatRunsModel FormatRunsSpec RopeModel DocModel DocSpec HistModel HistSpec QueryModel QuerySpec PropSpec
  DocTheorems QueryTheorems DocRefuted FormatApiModel FormatApiSpec FormatApiFacts FormatApiRefuted.
From Coq Require Import SpecFloat.

(** The format at the caret, anywhere: the one of the character after it. Missing: at
    the end of a paragraph with text it is the one of the next paragraph. *)
Theorem caret_format_partial : forall d its p, reach d -> doc_items d = Ok its ->
  cursor_char_format d p = Ok (match format_here its p with Some f => t_of f | None => tfmt_default end).
Proof. exact char_format_theorem. Qed.
Print Assumptions caret_format_partial.
Example caret_format_case : reach two_paras /\ doc_items two_paras = Ok [Chr 97%N cfmt_default; Chr 98%N cfmt_default; Brk; Chr 99%N cfmt_default; Chr 100%N cfmt_default]
  /\ cursor_char_format two_paras 9 = Ok tfmt_default.
Proof. split; [apply two_paras_reach|]. split; vm_compute; reflexivity. Qed.
(** Reading shows every field stored, links among them. *)
Theorem stored_text_format : forall d its p f, reach d -> doc_items d = Ok its -> format_here its p = Some f -> c_ok f ->
  cursor_char_format d p = Ok (text_shown f).
Proof. exact text_read_theorem. Qed.
Print Assumptions stored_text_format.
Theorem stored_paragraph_format : forall d i b, get_block d i = Some b -> b_ok (b_fmt b) -> paragraph_format d i = Some (paragraph_shown (b_fmt b)).
Proof. exact paragraph_read_theorem. Qed.
Print Assumptions stored_paragraph_format.
Example stored_format_case :
  let d := two_paras in let f := mk_bfmt (Some 1%N) (Some 5%Z) None None None (Some 2%Z) None None None [40%Z; 80%Z] (Some 1500%Z) None None None None None in
  b_ok f /\ p_tabs (p_of f) = [40%Z; 80%Z] /\ exists b, get_block d 2%N = Some b /\ b_ok (b_fmt b) /\ format_here [Chr 97%N cfmt_default] 0 = Some cfmt_default /\ c_ok cfmt_default.
Proof.
  cbv zeta. split; [unfold b_ok, is_i32, is_u8, in_type; cbn; repeat split; try lia; repeat constructor; lia|]. split; [vm_compute; reflexivity|].
  eexists. split; [vm_compute; reflexivity|]. split; [repeat split; constructor|]. split; [easy|repeat split].
Qed.
Theorem caret_format_refuted :
  exists d its p now, reach d /\ doc_items d = Ok its /\ nth_error its p = Some Brk
   /\ (forall q f, q < p -> char_at its q = Some f -> font_bold f <> Some true)
   /\ cursor_char_format d p = Ok now /\ t_bold now = Some true.
Proof. exact caret_fail. Qed.
Print Assumptions caret_format_refuted.

(** After setting a character format, every character of the range reads the fields
    given and keeps the others, and every other character reads as before. Missing: the
    fields for links, tooltips and colours are ignored. *)
Theorem char_format_partial : forall f d p a, reach d -> fresh_positions d -> t_ok f ->
  exists its d', doc_items d = Ok its /\ set_char_format f d p a = Ok d'
   /\ forall k c g, nth_error its k = Some (Chr c g) -> exists old now,
      cursor_char_format d k = Ok old /\ cursor_char_format d' k = Ok now
      /\ (Nat.min p a <= k < Nat.max p a -> t_set f old now) /\ (~ Nat.min p a <= k < Nat.max p a -> now = old).
Proof. exact set_char_theorem. Qed.
Print Assumptions char_format_partial.
Example char_format_case : tidy two_paras /\ t_ok t_bold_on
  /\ bind (set_char_format t_bold_on two_paras 1 4) (fun d => bind (cursor_char_format d 3) (fun x => bind (cursor_char_format d 4) (fun y =>
       Ok (t_bold x, t_bold y)))) = Ok (Some true, None).
Proof. split; [apply two_paras_tidy|]. split; [repeat split|]. vm_compute. reflexivity. Qed.
Theorem char_format_refuted :
  exists f d p a d' now, tidy d /\ t_ok f /\ set_char_format f d p a = Ok d' /\ cursor_char_format d' p = Ok now /\ p < a
   /\ t_href f = Some [47%N] /\ t_href now = None /\ t_tooltip f = Some [116%N] /\ t_tooltip now = None
   /\ t_foreground f = Some 255%N /\ t_foreground now = None.
Proof. exact links_fail. Qed.
Print Assumptions char_format_refuted.

(** Merging sets the family, bold, italic, underline and strikeout. Missing: the other
    fields are ignored (C08). *)
Theorem merge_char_format_partial : forall f d p a, reach d -> fresh_positions d -> t_family f <> Some [] ->
  exists its d', doc_items d = Ok its /\ merge_char_format f d p a = Ok d'
   /\ forall k c g, nth_error its k = Some (Chr c g) -> exists old now,
      cursor_char_format d k = Ok old /\ cursor_char_format d' k = Ok now
      /\ (Nat.min p a <= k < Nat.max p a -> t_merged f old now) /\ (~ Nat.min p a <= k < Nat.max p a -> now = old).
Proof. exact merge_char_theorem. Qed.
Print Assumptions merge_char_format_partial.
Example merge_char_format_case : tidy two_paras /\ t_family t_bold_on <> Some []
  /\ bind (merge_char_format t_bold_on two_paras 4 1) (fun d => bind (cursor_char_format d 1) (fun x => bind (cursor_char_format d 0) (fun y =>
       Ok (t_bold x, t_bold y)))) = Ok (Some true, None).
Proof. split; [apply two_paras_tidy|]. split; [discriminate|]. vm_compute. reflexivity. Qed.

(** After setting a paragraph format, every paragraph the selection touches reads the
    fields given and keeps the others; the other paragraphs read as before. Missing: tab
    positions are ignored, and a line height is rounded down. *)
Theorem paragraph_format_partial : forall f d p a, reach d -> fresh_positions d -> p_ok f ->
  exists its d', doc_items d = Ok its /\ set_paragraph_format f d p a = Ok d'
   /\ forall k i para, nth_error (d_order d) k = Some i -> nth_error (paragraphs its) k = Some para -> exists old now,
      paragraph_format d i = Some old /\ paragraph_format d' i = Some now
      /\ (selected_para (para_start k its) (length para) (Z.of_nat (Nat.min p a)) (Z.of_nat (Nat.max p a)) -> p_set f old now)
      /\ (~ selected_para (para_start k its) (length para) (Z.of_nat (Nat.min p a)) (Z.of_nat (Nat.max p a)) -> now = old).
Proof. exact set_paragraph_theorem. Qed.
Print Assumptions paragraph_format_partial.
Example paragraph_format_case : tidy two_paras /\ p_ok (p_tall (thousandths 1500))
  /\ bind (set_paragraph_format (p_tall (thousandths 1500)) two_paras 4 4) (fun d => bind (cursor_block_format d 4) (fun x => bind (cursor_block_format d 0) (fun y =>
       Ok (p_line_height x, p_line_height y)))) = Ok (Some (thousandths 1500), None).
Proof. split; [apply two_paras_tidy|]. split; [repeat split|]. vm_compute. reflexivity. Qed.
Theorem paragraph_format_refuted :
  exists f d p a d' now, tidy d /\ p_ok f /\ set_paragraph_format f d p a = Ok d' /\ cursor_block_format d' p = Ok now
   /\ p_tabs f = [40%Z] /\ p_tabs now = [].
Proof. exact tabs_fail. Qed.
Print Assumptions paragraph_format_refuted.
(** The cursor reads the format of the paragraph it is in (C15). *)
Theorem caret_paragraph_format : forall d p, reach d ->
  exists its i F, doc_items d = Ok its /\ nth_error (d_order d) (owner its (Nat.min p (length its))) = Some i
   /\ paragraph_format d i = Some F /\ cursor_block_format d p = Ok F.
Proof. exact cursor_block_theorem. Qed.
Print Assumptions caret_paragraph_format.

(** A line height of up to 4, given in thousandths, is read back as given or one
    thousandth less, and what was read is read again when it is set again. *)
Theorem line_height_partial : forall n, (0 <= n <= 4000)%Z ->
  exists w, reread (thousandths n) = thousandths w /\ (w = n \/ w = n - 1)%Z /\ reread (thousandths w) = thousandths w.
Proof. exact height_theorem. Qed.
Print Assumptions line_height_partial.
Example line_height_case : reread (thousandths 1150) = thousandths 1150 /\ reread (thousandths 2008) = thousandths 2007.
Proof. split; vm_compute; reflexivity. Qed.
Theorem line_height_refuted :
  exists d p a d' now, tidy d /\ set_paragraph_format (p_tall (thousandths 1004)) d p a = Ok d' /\ cursor_block_format d' p = Ok now
   /\ p_line_height now = Some (thousandths 1003) /\ thousandths 1003 <> thousandths 1004.
Proof. exact height_fail. Qed.
Print Assumptions line_height_refuted.

(** Formats of frames, tables, cells and lists: the thing named reads the fields given
    and keeps the others, no other thing changes, and an unknown id is an error. *)
Theorem table_format_set : forall f, g_ok f -> sets_one (store_table f) read_table (g_set f).
Proof. exact table_theorem. Qed.
Print Assumptions table_format_set.
Theorem cell_format_set : forall f, z_ok f -> sets_one (store_cell f) read_cell (z_set f).
Proof. exact cell_theorem. Qed.
Print Assumptions cell_format_set.
Theorem list_format_set : forall f, j_ok f -> sets_one (store_list f) read_list (j_set f).
Proof. exact list_theorem. Qed.
Print Assumptions list_format_set.
(** Missing for frames: the position. *)
Theorem frame_format_partial : forall f, ff_ok f -> sets_one (store_frame f) read_frame (ff_set f).
Proof. exact frame_theorem. Qed.
Print Assumptions frame_format_partial.
Theorem frame_format_refuted :
  exists f old, ff_ok f /\ ff_position f = Some 1%N /\ ff_position (read_frame (store_frame f old)) = None.
Proof. exact position_fail. Qed.
Print Assumptions frame_format_refuted.
Example stored_formats_case :
  let f := mk_gfmt (Some 2%Z) None None (Some (-5)%Z) (Some 1%N) in
  g_ok f /\ bind (set_in (store_table f) [(7%N, mk_gfmt None (Some 3%Z) None None None)] 7%N) (fun l => ok_or (option_map read_table (get_in l 7%N)))
            = Ok (mk_gfmt (Some 2%Z) (Some 3%Z) None (Some (-5)%Z) (Some 1%N))
  /\ set_in (store_list (mk_jfmt None (Some 3%Z) None None)) [] 7%N = Err.
Proof. cbv zeta. split; [unfold g_ok, is_i32, in_type; cbn; lia|]. split; vm_compute; reflexivity. Qed.
