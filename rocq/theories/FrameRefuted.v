(** Cases where inserting a frame, or typing in it, goes wrong. *)
From Verif Require Import Base FormatRunsModel RopeModel DocModel HistModel QueryModel DocSpec DocRefuted ListModel PropSpec QueryTheorems FrameModel FrameSpec.

(** "ab" and "cd" with a frame between them. *)
Definition between : gdoc := match insert_frame (plain_doc two_paras) 1 with Ok (InMain x) => x | _ => plain_doc new_document end.
Lemma between_framed : framed between.
Proof. eapply (framed_insert (plain_doc two_paras) 1); [constructor; apply two_paras_reach|vm_compute; reflexivity]. Qed.

(** "a", "b", "c" with a frame after "a". *)
Definition abc : doc := import_plain_text new_document [97; 10; 98; 10; 99]%N.
Lemma abc_tidy : tidy abc. Proof. repeat constructor. Qed.
Lemma abc_reach : reach abc. Proof. repeat constructor. Qed.
Definition after_a : gdoc := match insert_frame (plain_doc abc) 0 with Ok (InMain x) => x | _ => plain_doc new_document end.
Lemma after_a_framed : framed after_a.
Proof. eapply (framed_insert (plain_doc abc) 0); [constructor; apply abc_reach|vm_compute; reflexivity]. Qed.

Lemma frame_typing_refuted_w :
  exists x l x' i l1 l2, framed x /\ shown x = Ok l /\ l = l1 ++ (i, []) :: l2 /\ frame_paras x = [i]
   /\ g_insert_text x (Z.of_nat (before l1)) [122%N] = Ok (x', Z.of_nat (before l1 + 1))
   /\ shown x' = Ok l /\ g_export x' = g_export x /\ g_chars x' = (g_chars x + 1)%Z.
Proof.
  exists between. do 2 eexists. exists 4%N, [(2%N, [97; 98]%N)], [(3%N, [99; 100]%N)]. split; [apply between_framed|].
  split; [vm_compute; reflexivity|]. split; [reflexivity|]. split; [vm_compute; reflexivity|]. split; [vm_compute; reflexivity|].
  split; [vm_compute; reflexivity|]. split; vm_compute; reflexivity.
Qed.

Lemma frame_text_refuted_w :
  exists x l, framed x /\ spaced (g_doc x) /\ shown x = Ok l /\ map snd l = [[97; 98]; []; [99; 100]]%N
   /\ g_export x = Ok [97; 98; 10; 99; 100; 10]%N /\ lines (map snd l) = [97; 98; 10; 10; 99; 100]%N.
Proof.
  exists between. eexists. split; [apply between_framed|]. split; [vm_compute; repeat constructor|].
  split; [vm_compute; reflexivity|]. split; [reflexivity|]. split; vm_compute; reflexivity.
Qed.

Lemma frame_second_refuted_w :
  exists x l1 i t l2 x' j, framed x /\ shown x = Ok (l1 ++ (i, t) :: l2) /\ ~ In i (frame_paras x)
   /\ insert_frame x (Z.of_nat (before l1)) = Ok (InMain x') /\ frame_paras x' = frame_paras x ++ [j]
   /\ shown x' = Ok (l1 ++ (j, []) :: (i, t) :: l2).
Proof.
  exists after_a, [(2%N, [97%N]); (5%N, [])], 3%N, [98%N], [(4%N, [99%N])]. do 2 eexists. split; [apply after_a_framed|].
  split; [vm_compute; reflexivity|]. split; [vm_compute; intros [H|[]]; discriminate|].
  split; [vm_compute; reflexivity|]. split; vm_compute; reflexivity.
Qed.

Lemma frame_shown_refuted_w :
  exists d l p x', reach d /\ shown (plain_doc d) = Ok l /\ p < before l
   /\ insert_frame (plain_doc d) (Z.of_nat p) = Ok (TopLevel x')
   /\ snapshot_frames x' = snapshot_frames (plain_doc d) /\ g_nblocks x' = (g_nblocks (plain_doc d) + 1)%Z.
Proof.
  exists typed_first. eexists. exists 8. eexists. split; [apply typed_first_reach|]. split; [vm_compute; reflexivity|].
  split; [vm_compute; lia|]. split; [vm_compute; reflexivity|]. split; vm_compute; reflexivity.
Qed.
