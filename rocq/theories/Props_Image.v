(** C40: images. *)
From Verif Require Import Base FormatRunsModel FormatRunsSpec RopeModel DocModel DocSpec HistModel QueryModel QuerySpec
  PropSpec DocTheorems QueryTheorems DocRefuted ImageModel ImageSpec ImageFacts ImageTheorems.

(** Inserting an image into a document without images, at any position: one
    character U+FFFC comes at the position (brought into the document), in the
    paragraph [n] that holds it; one image is stored there, at the byte of the
    character; all other texts, the formats stored, the paragraphs and their
    attributes stay; the caller gets the next position and the element id of
    the image. *)
Theorem image_inserted_partial : forall d its p name w h, reach d -> doc_items d = Ok its -> (0 < w)%Z -> (0 < h)%Z ->
  exists d' n i para j, nth_error (d_order d) n = Some i /\ nth_error (paragraphs its) n = Some para
   /\ j <= length para /\ clip its p = para_start n its + j
   /\ (let byte := blen (firstn j (plain para)) in
       insert_image d p p name w h = Ok (d', (p + 1)%Z, synth_element_id i byte)
       /\ d_images d' i = [mk_image byte name w h 100 cfmt_default])
   /\ (forall q, q <> i -> d_images d' q = [])
   /\ export_plain_text d' = Ok (splice (clip its p) (clip its p) [FFFC] (plain its))
   /\ block_text d' i = Ok (splice j j [FFFC] (plain para))
   /\ (forall q, In q (d_order d) -> q <> i -> block_text d' q = block_text d q)
   /\ d_order d' = d_order d /\ para_attrs d' = para_attrs d /\ (forall q, d_runs d' q = d_runs d q)
   /\ d_chars d' = (d_chars d + 1)%Z /\ d_nblocks d' = d_nblocks d
   /\ (fresh_positions d -> fresh_positions d').
Proof. exact image_theorem. Qed.
Print Assumptions image_inserted_partial.
Example image_inserted_example : reach two_paras /\ doc_items two_paras = Ok (text_items [97; 98; 10; 99; 100]%N)
  /\ exists d' e, insert_image two_paras 4 4 pic 10 20 = Ok (d', 5%Z, e) /\ export_plain_text d' = Ok [97; 98; 10; 99; FFFC; 100]%N.
Proof.
  split; [apply two_paras_reach|]. split; [vm_compute; reflexivity|].
  eexists _, _. split; vm_compute; reflexivity.
Qed.

(** It fails exactly when a selection is given or a side is not positive. *)
Theorem image_errors : forall d p a name w h, reach d ->
  (insert_image d p a name w h = Err <-> p <> a \/ (w <= 0)%Z \/ (h <= 0)%Z)
  /\ insert_image d p a name w h <> Panic.
Proof. exact image_error_theorem. Qed.
Print Assumptions image_errors.
Example image_errors_example : insert_image two_paras 1 1 pic 0 20 = Err /\ insert_image two_paras 1 2 pic 10 20 = Err.
Proof. split; reflexivity. Qed.

(** With a cursor: the selection is replaced by the one character, and the
    cursor is behind it. *)
Theorem image_replaces_selection_partial : forall d its p a name w h, reach d -> doc_items d = Ok its -> 0 < w -> 0 < h ->
  p <= length its -> a <= length its ->
  exists d', cursor_insert_image d p a name w h = Ok (d', Some (Nat.min p a + 1))
   /\ export_plain_text d' = Ok (splice (Nat.min p a) (Nat.max p a) [FFFC] (plain its)).
Proof. exact cursor_image_theorem. Qed.
Print Assumptions image_replaces_selection_partial.
Example image_replaces_example : exists d', cursor_insert_image two_paras 4 1 pic 3 3 = Ok (d', Some 2)
  /\ export_plain_text d' = Ok [97; FFFC; 100]%N.
Proof. eexists. split; vm_compute; reflexivity. Qed.

(** The characters keep their formats when those after the image in its
    paragraph have none. *)
Theorem image_formats_partial : forall d its p name w h, reach d -> doc_items d = Ok its -> (0 < w)%Z -> (0 < h)%Z ->
  Forall plain_format (rest_of_line (skipn (clip its p) its)) ->
  exists d' e, insert_image d p p name w h = Ok (d', (p + 1)%Z, e)
   /\ doc_items d' = Ok (firstn (clip its p) its ++ Chr FFFC cfmt_default :: skipn (clip its p) its).
Proof. exact image_formats_theorem. Qed.
Print Assumptions image_formats_partial.
Example image_formats_example : exists its, reach (bolded abc 0 1) /\ doc_items (bolded abc 0 1) = Ok its
  /\ Forall plain_format (rest_of_line (skipn (clip its 2) its)) /\ ~ Forall plain_format its.
Proof.
  eexists. split; [apply bolded_reach, abc_reach|]. split; [vm_compute; reflexivity|]. split.
  - vm_compute. repeat constructor.
  - intros H. inversion H as [|? ? H1 _]. discriminate H1.
Qed.
(** "abc" with a bold b: after an image between a and b, b is no longer bold. *)
Theorem image_formats_refuted : exists d its d' q e,
  reach d /\ doc_items d = Ok its /\ insert_image d 1 1 pic 10 20 = Ok (d', q, e)
  /\ doc_items d' <> Ok (firstn 1 its ++ Chr FFFC cfmt_default :: skipn 1 its).
Proof. exact image_formats_refuted_w. Qed.
Print Assumptions image_formats_refuted.
(** "abc" with a bold a: after an image before a, reading the paragraph panics,
    since the run ends inside U+FFFC. *)
Theorem image_reading_refuted : exists d d' q e i,
  reach d /\ insert_image d 0 0 pic 10 20 = Ok (d', q, e) /\ nth_error (d_order d') 0 = Some i
  /\ block_fragments d' i = Panic /\ text_at_position d' 0 1 = Panic.
Proof. exact image_panics_refuted_w. Qed.
Print Assumptions image_reading_refuted.

(** An image in "abc" behind a; X typed at the returned position comes before
    the image: the image and its character are both counted. *)
Theorem image_typing_refuted : exists d d' q e d2 q2,
  reach d /\ insert_image d 1 1 pic 10 20 = Ok (d', q, e) /\ q = 2%Z
  /\ export_plain_text d' = Ok [97; FFFC; 98; 99]%N
  /\ insert_text d' q q [88]%N = Ok (d2, q2) /\ export_plain_text d2 = Ok [97; 88; FFFC; 98; 99]%N.
Proof. exact image_typing_refuted_w. Qed.
Print Assumptions image_typing_refuted.
(** Deleting the position the image takes deletes nothing. *)
Theorem image_delete_refuted : exists d d' q e d2 q2 cut,
  reach d /\ insert_image d 1 1 pic 10 20 = Ok (d', q, e) /\ q = 2%Z
  /\ delete_text d' 1 2 = Ok (d2, q2, cut) /\ export_plain_text d2 = export_plain_text d'.
Proof. exact image_delete_refuted_w. Qed.
Print Assumptions image_delete_refuted.
(** The fragments of a paragraph with an image take one position more than
    its text. *)
Theorem image_fragments_refuted : exists d d' q e i fs t,
  reach d /\ insert_image d 1 1 pic 10 20 = Ok (d', q, e) /\ nth_error (d_order d') 0 = Some i
  /\ block_fragments d' i = Ok fs /\ block_text d' i = Ok t
  /\ length t = 4 /\ fold_right (fun f n => frag_length f + n) 0 fs = 5.
Proof. exact image_fragments_refuted_w. Qed.
Print Assumptions image_fragments_refuted.

(** C12: an image of width 0 over a selection is an error, yet the selection
    is gone. *)
Theorem failed_image_refuted : exists d d', reach d
  /\ cursor_insert_image d 0 2 pic 0 20 = Ok (d', None) /\ export_plain_text d' <> export_plain_text d.
Proof. exact image_failed_refuted_w. Qed.
Print Assumptions failed_image_refuted.
