(** Witnesses about the modified flag, the properties and the resources. *)
From Verif Require Import Base FormatRunsModel RopeModel DocModel DocSpec HistModel HistSpec UndoModel SessionModel SessionSpec StateModel StateSpec.
From Coq Require Import Permutation Lia.

Definition edit_once : mcall := Do (Edit (EInsert 0 0 [97]%N) 0).
Definition text_after (cs : list mcall) : res str := let! n := n_run new_noted cs in export_plain_text (fst (n_session n)).
Lemma told_refuted : exists cs n, calls_fit first_history (calls_of cs) /\ n_run new_noted cs = Ok n /\ heard (n_told n) <> n_modified n.
Proof.
  exists [edit_once]. eexists. split; [|split; [vm_compute; reflexivity|discriminate]].
  split; [|intros; exact I]. vm_compute. repeat split; try easy; repeat constructor.
Qed.
Ltac flag := eexists _, _, _; split; [vm_compute; reflexivity|]; split; [vm_compute; reflexivity|]; split; [discriminate|];
  split; [vm_compute; reflexivity|reflexivity].
Lemma flag_refuted :
  (exists t k n, text_after [edit_once; SetModified false] = Ok t /\ text_after [edit_once; SetModified false; Do UndoCall] = Ok k
    /\ t <> k /\ n_run new_noted [edit_once; SetModified false; Do UndoCall] = Ok n /\ n_modified n = false)
  /\ (exists t k n, text_after [edit_once; Do UndoCall; SetModified false] = Ok t /\ text_after [edit_once; Do UndoCall; SetModified false; Do RedoCall] = Ok k
    /\ t <> k /\ n_run new_noted [edit_once; Do UndoCall; SetModified false; Do RedoCall] = Ok n /\ n_modified n = false)
  /\ (exists t k n, text_after [edit_once; SetModified false] = Ok t /\ text_after [edit_once; SetModified false; Do (SetText [98]%N)] = Ok k
    /\ t <> k /\ n_run new_noted [edit_once; SetModified false; Do (SetText [98]%N)] = Ok n /\ n_modified n = false).
Proof. split; [|split]; flag. Qed.

Definition a1 := mk_resource 5%N [97]%N [1]%N.
Definition a2 := mk_resource 6%N [97]%N [2]%N.
Lemma redo_resource_refuted : exists cs all name, orders_fit (r_new 5%N) cs
  /\ Permutation all (r_store (fold_left r_step cs (r_new 5%N)))
  /\ snd (get_resource (fold_left r_step cs (r_new 5%N)) all name) <> latest name (h_now (fold_left r_hist cs r_first)).
Proof.
  exists [Add [97]%N [1]%N; Add [97]%N [2]%N; RUndo; Get [a1] [97]%N; RRedo], [a1; a2], [97]%N.
  split; [repeat (split; [first [exact I|apply Permutation_refl]|]); exact I|]. split; [apply Permutation_refl|]. vm_compute. discriminate.
Qed.
Lemma undo_resource_refuted : exists cs all all' name, orders_fit (r_new 5%N) cs
  /\ Permutation all (r_store (fold_left r_step cs (r_new 5%N))) /\ Permutation all' (r_store (fold_left r_step cs (r_new 5%N)))
  /\ snd (get_resource (fold_left r_step cs (r_new 5%N)) all name) <> snd (get_resource (fold_left r_step cs (r_new 5%N)) all' name).
Proof.
  exists [Add [97]%N [1]%N; Add [97]%N [2]%N; Add [97]%N [3]%N; RUndo], [a1; a2], [a2; a1], [97]%N.
  split; [repeat (split; [exact I|]); exact I|]. split; [apply Permutation_refl|]. split; [apply perm_swap|]. vm_compute. discriminate.
Qed.
Lemma import_title_refuted : exists t real, let d := fold_left p_step [SetTitle t; ImportText real; PUndo] (p_new (3, 1)%Z) in
  p_real d = real /\ p_stats d = (3, 1)%Z /\ real <> (3, 1)%Z.
Proof. exists [97]%N, (9, 2)%Z. cbn. repeat split. discriminate. Qed.
