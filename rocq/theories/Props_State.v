(** The modified flag, the document properties and the resources.
    C65, C66, C67 of properties.jsonl. *)
From Verif Require Import Base FormatRunsModel RopeModel DocModel DocSpec HistModel HistSpec UndoModel SessionModel SessionSpec StateModel StateSpec StateFacts StateRefuted.
From Coq Require Import Permutation Lia.

(** C65. In any session of edits at positions inside the document, undo, redo, edit
    blocks, set_plain_text and set_modified: once the content differs from what it was
    at some moment, the document is modified, if since then no call was undo, redo,
    set_plain_text or set_modified(false). *)
Theorem modified_partial : forall cs1 cs2, calls_fit first_history (calls_of (cs1 ++ cs2)) -> Forall kept cs2 ->
  exists n1 n2 k1 k2, n_run new_noted cs1 = Ok n1 /\ n_run n1 cs2 = Ok n2
    /\ shows (fst (n_session n1)) k1 /\ shows (fst (n_session n2)) k2
    /\ (k1 <> k2 -> n_modified n2 = true).
Proof. exact modified_theorem. Qed.
Print Assumptions modified_partial.
Definition some_start : list mcall := [Do (SetText [97; 98]%N); Do (Edit (EInsert 2 2 [99]%N) 0); Do UndoCall; SetModified false].
Definition some_end : list mcall := [Do BeginBlock; Do (Edit (ERemove 0 1) 9000); Do EndBlock; Do (Edit (ERemove 1 1) 9900)].
Definition told_of (r : res noted) := let! n := r in let! t := export_plain_text (fst (n_session n)) in Ok (t, n_modified n, n_told n).
Example modified_case : calls_fit first_history (calls_of (some_start ++ some_end)) /\ Forall kept some_end
  /\ told_of (n_run new_noted some_start) = Ok ([97; 98]%N, false, [false])
  /\ told_of (n_run new_noted (some_start ++ some_end)) = Ok ([98]%N, true, [false]).
Proof.
  split; [|split; [unfold some_end; repeat constructor|split; vm_compute; reflexivity]].
  cbn [calls_of app some_start some_end].
  repeat match goal with
  | |- calls_fit _ (_ :: _) => split; [vm_compute; repeat split; try lia; try easy|]
  | |- calls_fit _ [] => exact I
  | |- forall h', hstep _ _ h' -> _ => intros ? H; vm_compute in H
  | H : _ \/ _ |- _ => destruct H as [H|H]
  | H : exists _, _ |- _ => destruct H
  | H : _ /\ _ |- _ => destruct H
  | H : ?h = mk_history _ _ _ _ |- _ => subst h
  | H : _ :: _ = _ :: _ |- _ => injection H as; subst
  | H : False |- _ => destruct H
  | H : [] = _ :: _ |- _ => discriminate H
  end.
  all: repeat constructor.
Qed.

(** C65. Setting a character or paragraph format that changes anything marks the
    document, in every state. *)
Theorem modified_format : forall n c n', (match c with Format _ _ _ _ | BlockFormat _ _ _ => True | _ => False end) ->
  n_step n (Do c) = Ok n' -> n_session n' <> n_session n -> n_modified n' = true.
Proof. exact modified_format_theorem. Qed.
Print Assumptions modified_format.
Example modified_format_case : exists n n' q, n_run new_noted [Do (SetText [97; 98]%N)] = Ok n
  /\ n_step n (Do (Format true q 0 1)) = Ok n' /\ n_modified n = false /\ n_modified n' = true
  /\ doc_items (fst (n_session n')) <> doc_items (fst (n_session n)).
Proof.
  eexists _, _, (mk_req None None None (Some true) None None None None None None None None). split; [vm_compute; reflexivity|]. split; [vm_compute; reflexivity|].
  split; [reflexivity|]. split; [reflexivity|]. vm_compute. discriminate.
Qed.

(** C65. A modified document stays modified until set_modified(false), whatever else is
    called; and a document becomes modified only by set_modified(true) or a call that
    asks for a change. *)
Theorem modified_stays_until_reset : forall n cs n', n_run n cs = Ok n' -> n_modified n = true -> ~ In (SetModified false) cs -> n_modified n' = true.
Proof. exact (fun n cs => modified_stays cs n). Qed.
Print Assumptions modified_stays_until_reset.
Theorem modified_only_when_asked : forall n cs n', n_run n cs = Ok n' -> n_modified n = false -> n_modified n' = true -> Exists asks cs.
Proof. exact (fun n cs => modified_asked cs n). Qed.
Print Assumptions modified_only_when_asked.
Example modified_stays_case : exists n n', n_run new_noted [Do (Edit (EInsert 0 0 [97]%N) 0)] = Ok n /\ n_modified n = true
  /\ n_run n [Do UndoCall; Do RedoCall; Do UndoCall; SetModified true] = Ok n' /\ n_modified n' = true /\ n_told n' = [].
Proof. eexists _, _. split; [vm_compute; reflexivity|]. split; [reflexivity|]. split; [vm_compute; reflexivity|]. split; reflexivity. Qed.

(** C65. As long as no call asks for a change of the document, a listener that follows
    the events knows the flag, and every event tells something new. *)
Theorem modified_told_partial : forall cs n, n_run new_noted cs = Ok n ->
  Forall (fun c => match c with SetModified _ => True | _ => ~ asks c end) cs ->
  heard (n_told n) = n_modified n
  /\ (forall i b, nth_error (n_told n) i = Some b -> nth_error (false :: n_told n) i <> Some b).
Proof. exact (fun cs n H Hc => told_theorem cs new_noted n H Hc eq_refl (fun i b H => ltac:(destruct i; discriminate H))). Qed.
Print Assumptions modified_told_partial.
Example modified_told_case :
  told_of (n_run new_noted [SetModified false; SetModified true; Do (SetText [97]%N); SetModified true; SetModified false; Do UndoCall; SetModified true])
  = Ok ([97]%N, true, [true; false; true]).
Proof. vm_compute. reflexivity. Qed.
(** C65. An edit changes is_modified and no event tells it. *)
Theorem modified_told_refuted : exists cs n, calls_fit first_history (calls_of cs) /\ n_run new_noted cs = Ok n
  /\ heard (n_told n) <> n_modified n.
Proof. exact told_refuted. Qed.
Print Assumptions modified_told_refuted.
(** C65. After set_modified(false), undo, redo and set_plain_text each change the text
    and the document counts as not modified. *)
Theorem modified_refuted :
  (exists t k n, text_after [edit_once; SetModified false] = Ok t /\ text_after [edit_once; SetModified false; Do UndoCall] = Ok k
    /\ t <> k /\ n_run new_noted [edit_once; SetModified false; Do UndoCall] = Ok n /\ n_modified n = false)
  /\ (exists t k n, text_after [edit_once; Do UndoCall; SetModified false] = Ok t /\ text_after [edit_once; Do UndoCall; SetModified false; Do RedoCall] = Ok k
    /\ t <> k /\ n_run new_noted [edit_once; Do UndoCall; SetModified false; Do RedoCall] = Ok n /\ n_modified n = false)
  /\ (exists t k n, text_after [edit_once; SetModified false] = Ok t /\ text_after [edit_once; SetModified false; Do (SetText [98]%N)] = Ok k
    /\ t <> k /\ n_run new_noted [edit_once; SetModified false; Do (SetText [98]%N)] = Ok n /\ n_modified n = false).
Proof. exact flag_refuted. Qed.
Print Assumptions modified_refuted.

(** C66. Names added once each: in any history of adding, asking, other edits (whatever
    they keep for undo), undo, redo and clearing, and whatever order the store lists the
    resources in, resource(name) gives the data added under the name if that is done
    and not undone, and nothing otherwise. *)
Theorem resources_partial : forall cs next all name, NoDup (added cs) -> orders_fit (r_new next) cs ->
  let d := fold_left r_step cs (r_new next) in
  Permutation all (r_store d) -> snd (get_resource d all name) = latest name (h_now (fold_left r_hist cs r_first)).
Proof. exact resources_theorem. Qed.
Print Assumptions resources_partial.
Example resources_case :
  let cs := [Add [97]%N [1]%N; EditOther true; Add [98]%N [2]%N; RUndo; Get [mk_resource 5%N [97]%N [1]%N] [98]%N; RRedo; EditOther false; RUndo; RUndo; RUndo] in
  NoDup (added cs) /\ orders_fit (r_new 5%N) cs /\ h_now (fold_left r_hist cs r_first) = [([97]%N, [1]%N)]
  /\ latest [97]%N (h_now (fold_left r_hist cs r_first)) = Some [1]%N /\ latest [98]%N (h_now (fold_left r_hist cs r_first)) = None.
Proof.
  split; [cbn; repeat constructor; cbn; intuition discriminate|]. split; [|repeat split].
  repeat (split; [first [exact I|apply Permutation_refl]|]). exact I.
Qed.
(** C66. Names may be added again: without undo and redo the last addition counts. *)
Theorem resources_again_partial : forall cs next all name, Forall (fun c => back_or_forth c = false) cs -> orders_fit (r_new next) cs ->
  let d := fold_left r_step cs (r_new next) in
  Permutation all (r_store d) -> snd (get_resource d all name) = latest name (h_now (fold_left r_hist cs r_first)).
Proof. exact resources_again_theorem. Qed.
Print Assumptions resources_again_partial.
Example resources_again_case :
  let cs := [Add [97]%N [1]%N; Add [98]%N [2]%N; Add [97]%N [3]%N; RClear] in
  Forall (fun c => back_or_forth c = false) cs /\ latest [97]%N (h_now (fold_left r_hist cs r_first)) = Some [3]%N.
Proof. split; [repeat constructor|reflexivity]. Qed.
(** C66. A name added twice; the second addition is undone, asked for and redone: the
    first data is given. *)
Theorem resources_redo_refuted : exists cs all name, orders_fit (r_new 5%N) cs
  /\ Permutation all (r_store (fold_left r_step cs (r_new 5%N)))
  /\ snd (get_resource (fold_left r_step cs (r_new 5%N)) all name) <> latest name (h_now (fold_left r_hist cs r_first)).
Proof. exact redo_resource_refuted. Qed.
Print Assumptions resources_redo_refuted.
(** C66. A name added three times and the last addition undone: which of the others is
    given depends on the order of a hash map. *)
Theorem resources_undo_refuted : exists cs all all' name, orders_fit (r_new 5%N) cs
  /\ Permutation all (r_store (fold_left r_step cs (r_new 5%N))) /\ Permutation all' (r_store (fold_left r_step cs (r_new 5%N)))
  /\ snd (get_resource (fold_left r_step cs (r_new 5%N)) all name) <> snd (get_resource (fold_left r_step cs (r_new 5%N)) all' name).
Proof. exact undo_resource_refuted. Qed.
Print Assumptions resources_undo_refuted.

(** C67. Title, text direction and wrap mode: in any history of setting them, editing
    the text, set_plain_text, undo, redo and clearing, they are the ones in effect, and
    the statistics are those of the text in effect; each setting is one step of undo. *)
Theorem properties_partial : forall cs real, Forall (fun c => is_import c = false) cs ->
  let d := fold_left p_step cs (p_new real) in
  let h := fold_left p_hist cs (p_first real) in
  p_sees d = h_now h /\ p_stats d = s_real (h_now h)
  /\ nonempty (p_undo d) = nonempty (h_past h) /\ nonempty (p_redo d) = nonempty (h_future h).
Proof. exact properties_theorem. Qed.
Print Assumptions properties_partial.
Example properties_case :
  let cs := [SetTitle [97]%N; EditText (5, 2)%Z; SetDirection 1%N; SetWrap 3%N; PUndo; SetTitle [98]%N; PUndo; PUndo; PRedo; PUndo; PUndo] in
  Forall (fun c => is_import c = false) cs
  /\ h_now (fold_left p_hist cs (p_first (3, 1)%Z)) = mk_sight [97]%N 0%N 0%N (3, 1)%Z
  /\ length (h_future (fold_left p_hist cs (p_first (3, 1)%Z))) = 3.
Proof. split; [repeat constructor|]. split; reflexivity. Qed.
(** C67. set_title, then set_markdown or set_html, then undo: the statistics are those
    of the text that is gone. *)
Theorem properties_refuted : exists t real, let d := fold_left p_step [SetTitle t; ImportText real; PUndo] (p_new (3, 1)%Z) in
  p_real d = real /\ p_stats d = (3, 1)%Z /\ real <> (3, 1)%Z.
Proof. exact import_title_refuted. Qed.
Print Assumptions properties_refuted.
