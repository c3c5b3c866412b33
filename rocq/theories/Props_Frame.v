(** C72: inserting a frame. *)
From Verif Require Import Base FormatRunsModel RopeModel DocModel HistModel QueryModel DocSpec DocRefuted ListModel PropSpec QueryTheorems
  FrameModel FrameSpec FrameSteps FrameTheorems FrameRefuted.

(** The first frame of a text comes right after the paragraph of the cursor, with one
    empty paragraph, when the stored positions are right. Nothing else changes, and one
    paragraph more is counted. *)
Theorem frame_first_partial : forall d p l, reach d -> fresh_positions d -> shown (plain_doc d) = Ok l -> p < before l ->
  exists x' l1 i t l2 j,
   insert_frame (plain_doc d) (Z.of_nat p) = Ok (InMain x')
   /\ l = l1 ++ (i, t) :: l2 /\ before l1 <= p <= before l1 + length t
   /\ g_order x' = map CBlock (map fst l1) ++ CBlock i :: CFrame 2%N :: map CBlock (map fst l2)
   /\ shown x' = Ok (l1 ++ (i, t) :: (j, []) :: l2) /\ ~ In j (map fst l) /\ frame_paras x' = [j]
   /\ doc_items (g_doc x') = doc_items d /\ d_blocks (g_doc x') = d_blocks d
   /\ g_chars x' = d_chars d /\ g_nblocks x' = (d_nblocks d + 1)%Z.
Proof. exact frame_first_theorem. Qed.
Print Assumptions frame_first_partial.
Example frame_first_case :
  reach two_paras /\ fresh_positions two_paras
  /\ shown (plain_doc two_paras) = Ok [(2, [97; 98]); (3, [99; 100])]%N
  /\ insert_frame (plain_doc two_paras) 1 = Ok (InMain between)
  /\ g_order between = [CBlock 2%N; CFrame 2%N; CBlock 3%N] /\ shown between = Ok [(2, [97; 98]); (4, []); (3, [99; 100])]%N.
Proof.
  split; [apply two_paras_reach|]. split; [apply (tidy_theorem _ two_paras_tidy)|].
  split; [vm_compute; reflexivity|]. split; [vm_compute; reflexivity|]. split; vm_compute; reflexivity.
Qed.

(** Inserting a frame never fails. When it goes into the text it adds one empty paragraph
    somewhere: no paragraph is lost, moved or changed. Missing: where (refuted below). *)
Theorem frame_somewhere_partial : forall x p, framed x ->
  exists r, insert_frame x p = Ok r /\
  forall x', r = InMain x' ->
  exists l l1 l2 i, shown x = Ok l /\ l = l1 ++ l2 /\ shown x' = Ok (l1 ++ (i, []) :: l2) /\ ~ In i (map fst l)
   /\ frame_paras x' = frame_paras x ++ [i] /\ doc_items (g_doc x') = doc_items (g_doc x)
   /\ g_chars x' = g_chars x /\ g_nblocks x' = (g_nblocks x + 1)%Z.
Proof. exact frame_somewhere_theorem. Qed.
Print Assumptions frame_somewhere_partial.
Example frame_somewhere_case : framed after_a /\ exists x', insert_frame after_a 5 = Ok (InMain x') /\ length (g_order x') = 5.
Proof. split; [apply after_a_framed|]. eexists. split; vm_compute; reflexivity. Qed.

(** Typing in a document with frames: the text goes to the place the reader sees, between
    the characters before and after it, unless that place is in a frame, and the new
    position is after it. Missing: places in a frame (refuted below). *)
Theorem frame_typing_partial : forall x p text, framed x ->
  exists l x' l1 i t l2 o,
   shown x = Ok l /\ g_insert_text x (Z.of_nat p) text = Ok (x', Z.of_nat (inside l p + length text))
   /\ l = l1 ++ (i, t) :: l2 /\ o <= length t /\ inside l p = before l1 + o
   /\ (~ In i (frame_paras x) -> shown x' = Ok (l1 ++ (i, firstn o t ++ text ++ skipn o t) :: l2)
        /\ exists q its, doc_items (g_doc x) = Ok its /\ doc_items (g_doc x') = Ok (spec_insert q text its))
   /\ (In i (frame_paras x) -> t = [] /\ shown x' = Ok l /\ doc_items (g_doc x') = doc_items (g_doc x))
   /\ g_order x' = g_order x /\ frame_paras x' = frame_paras x /\ g_nblocks x' = g_nblocks x
   /\ g_chars x' = (g_chars x + Z.of_nat (length text))%Z.
Proof. exact frame_typing_theorem. Qed.
Print Assumptions frame_typing_partial.
Example frame_typing_case :
  framed between /\ exists x', g_insert_text between 5 [120%N] = Ok (x', 6%Z) /\ shown x' = Ok [(2, [97; 98]); (4, []); (3, [99; 120; 100])]%N.
Proof. split; [apply between_framed|]. eexists. split; vm_compute; reflexivity. Qed.
(** A character typed in a frame is counted, and nowhere to be found. *)
Theorem frame_typing_refuted :
  exists x l x' i l1 l2, framed x /\ shown x = Ok l /\ l = l1 ++ (i, []) :: l2 /\ frame_paras x = [i]
   /\ g_insert_text x (Z.of_nat (before l1)) [122%N] = Ok (x', Z.of_nat (before l1 + 1))
   /\ shown x' = Ok l /\ g_export x' = g_export x /\ g_chars x' = (g_chars x + 1)%Z.
Proof. exact frame_typing_refuted_w. Qed.
Print Assumptions frame_typing_refuted.
(** A second frame, asked for at the start of a paragraph after the first one, comes before
    that paragraph. *)
Theorem frame_second_refuted :
  exists x l1 i t l2 x' j, framed x /\ shown x = Ok (l1 ++ (i, t) :: l2) /\ ~ In i (frame_paras x)
   /\ insert_frame x (Z.of_nat (before l1)) = Ok (InMain x') /\ frame_paras x' = frame_paras x ++ [j]
   /\ shown x' = Ok (l1 ++ (j, []) :: (i, t) :: l2).
Proof. exact frame_second_refuted_w. Qed.
Print Assumptions frame_second_refuted.
(** After some typing, a frame asked for at the end of the text is made but not shown. *)
Theorem frame_shown_refuted :
  exists d l p x', reach d /\ shown (plain_doc d) = Ok l /\ p < before l
   /\ insert_frame (plain_doc d) (Z.of_nat p) = Ok (TopLevel x')
   /\ snapshot_frames x' = snapshot_frames (plain_doc d) /\ g_nblocks x' = (g_nblocks (plain_doc d) + 1)%Z.
Proof. exact frame_shown_refuted_w. Qed.
Print Assumptions frame_shown_refuted.

(** A snapshot shows paragraphs and frames in their order, each paragraph with its text and
    at its place. *)
Theorem frame_snapshot : forall x, framed x ->
  exists l es, shown x = Ok l /\ snapshot_frames x = Ok es
   /\ map elem_child es = g_order x /\ flat_map elem_paras es = placed_from 0 l.
Proof. exact frame_snapshot_theorem. Qed.
Print Assumptions frame_snapshot.
Example frame_snapshot_case :
  framed between /\ snapshot_frames between = Ok [EBlock (mk_psnap 2%N 0 [97; 98]%N); EFrame 2%N [mk_psnap 4%N 3 []]; EBlock (mk_psnap 3%N 4 [99; 100]%N)].
Proof. split; [apply between_framed|vm_compute; reflexivity]. Qed.

(** The plain text has every paragraph outside frames, in order, on its own line, then one
    empty line for each frame, as long as the stored positions grow. Missing: the frames at
    their places (refuted below). *)
Theorem frame_text_partial : forall x, framed x -> frame_paras x <> [] -> spaced (g_doc x) ->
  exists l, shown x = Ok l
   /\ g_export x = Ok (lines (map snd (outside_frames x l) ++ map (fun _ => []) (frame_paras x))).
Proof. exact frame_text_theorem. Qed.
Print Assumptions frame_text_partial.
(** The stored positions grow at first when they are right, and keep growing. *)
Theorem frame_spaced :
  (forall d, reach d -> fresh_positions d -> spaced (g_doc (plain_doc d)))
  /\ (forall x p x', framed x -> spaced (g_doc x) -> insert_frame x p = Ok (InMain x') -> spaced (g_doc x'))
  /\ (forall x p text x' np, framed x -> spaced (g_doc x) -> g_insert_text x (Z.of_nat p) text = Ok (x', np) -> spaced (g_doc x')).
Proof. exact frame_spaced_theorem. Qed.
Print Assumptions frame_spaced.
Example frame_text_case : framed between /\ frame_paras between <> [] /\ spaced (g_doc between).
Proof. split; [apply between_framed|]. split; [vm_compute; discriminate|vm_compute; repeat constructor]. Qed.
(** A frame between "ab" and "cd" shows as an empty line after "cd". *)
Theorem frame_text_refuted :
  exists x l, framed x /\ spaced (g_doc x) /\ shown x = Ok l /\ map snd l = [[97; 98]; []; [99; 100]]%N
   /\ g_export x = Ok [97; 98; 10; 99; 100; 10]%N /\ lines (map snd l) = [97; 98; 10; 10; 99; 100]%N.
Proof. exact frame_text_refuted_w. Qed.
Print Assumptions frame_text_refuted.
