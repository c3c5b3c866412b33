(** Undo and redo: theorems only. Programs: SessionModel.v, UndoModel.v;
    what the words mean: SessionSpec.v, UndoSpec.v, PropSpec.v. *)
From Verif Require Import Base FormatRunsModel RopeModel DocModel DocSpec HistModel HistSpec DocReach PropSpec DocRefuted
  UndoModel UndoSpec UndoFacts SessionModel SessionSpec SessionChain SessionTheorems SessionTyping.

(** C09. Typing, formatted typing, removing and breaking, at a caret or over a
    selection: undo gives back the document there was, redo the content after the
    edit. *)
Theorem edit_undo_redo : forall d e t its, reach d -> edit_ok e -> doc_items d = Ok its -> snd (edit_range e) <= length its ->
  no_change e = false ->
  exists d1 m1 d2 m2 d3 m3 k,
    s_step (d, new_history) (Edit e t) = Ok (d1, m1) /\ shows d1 k /\ k_items k = spec_edit e its
    /\ s_step (d1, m1) UndoCall = Ok (d2, m2) /\ same_document d2 d
    /\ s_step (d2, m2) RedoCall = Ok (d3, m3) /\ shows d3 k.
Proof. exact edit_undo_theorem. Qed.
Print Assumptions edit_undo_redo.
Example edit_undo_redo_case :
  let d := two_paras in
  reach d /\ edit_ok (EInsert 1 4 [120]%N) /\ no_change (EInsert 1 4 [120]%N) = false
  /\ exists its, doc_items d = Ok its /\ snd (edit_range (EInsert 1 4 [120]%N)) <= length its
  /\ text_of (s_run (d, new_history) [Edit (EInsert 1 4 [120]%N) 0]) = Ok [97; 120; 100]%N
  /\ text_of (s_run (d, new_history) [Edit (EInsert 1 4 [120]%N) 0; UndoCall]) = Ok [97; 98; 10; 99; 100]%N
  /\ text_of (s_run (d, new_history) [Edit (EInsert 1 4 [120]%N) 0; UndoCall; RedoCall]) = Ok [97; 120; 100]%N.
Proof.
  split; [exact two_paras_reach|]. split; [vm_compute; easy|]. split; [reflexivity|].
  eexists. split; [vm_compute; reflexivity|]. split; [vm_compute; repeat constructor|]. vm_compute. easy.
Qed.

(** C09. Character formatting of any range, setting or merging. *)
Theorem format_undo_redo : forall d st q p a, reach d ->
  exists d1 m1 d2 m2 d3 m3,
    s_step (d, new_history) (Format st q p a) = Ok (d1, m1)
    /\ s_step (d1, m1) UndoCall = Ok (d2, m2) /\ same_document d2 d
    /\ s_step (d2, m2) RedoCall = Ok (d3, m3) /\ same_document d3 d1.
Proof. exact format_undo_theorem. Qed.
Print Assumptions format_undo_redo.
Example format_undo_redo_case :
  let d := two_paras in
  reach d /\ exists d1 m1 its its1, s_step (d, new_history) (Format true bold_req 1 4) = Ok (d1, m1)
   /\ doc_items d = Ok its /\ doc_items d1 = Ok its1 /\ its <> its1.
Proof.
  split; [repeat constructor|]. do 4 eexists. split; [vm_compute; reflexivity|].
  split; [vm_compute; reflexivity|]. split; [vm_compute; reflexivity|]. easy.
Qed.

(** C09. Paragraph formatting of any range. *)
Theorem block_format_undo_redo : forall d q p a, reach d ->
  exists d1 m1 d2 m2 m3,
    s_step (d, new_history) (BlockFormat q p a) = Ok (d1, m1)
    /\ s_step (d1, m1) UndoCall = Ok (d2, m2) /\ same_document d2 d
    /\ s_step (d2, m2) RedoCall = Ok (d1, m3).
Proof. exact block_format_undo_theorem. Qed.
Print Assumptions block_format_undo_redo.
Example block_format_undo_redo_case :
  let d := two_paras in
  reach d /\ exists d1 m1, s_step (d, new_history) (BlockFormat center_req 1 4) = Ok (d1, m1) /\ para_attrs d1 <> para_attrs d.
Proof. split; [repeat constructor|]. do 2 eexists. split; [vm_compute; reflexivity|]. easy. Qed.

(** C10. Any session of edits, undo, redo, edit blocks, clearing and
    set_plain_text on a new document follows a history: undo shows the content
    before, redo the content after, a new edit forgets what could be redone and
    nothing else, and the two queries tell what is possible. *)
Theorem undo_history_partial : forall cs, calls_fit first_history cs ->
  exists s h, s_run new_session cs = Ok s /\ hrun first_history cs h /\ at_history s h.
Proof. exact session_from_new. Qed.
Print Assumptions undo_history_partial.
Definition a_session : list call :=
  [SetText [97; 98]%N; Edit (EInsert 2 2 [99]%N) 0; Edit (EInsert 3 3 [100]%N) 100; Edit (EBreak 1 1) 200; UndoCall; UndoCall;
   RedoCall; BeginBlock; Edit (ERemove 0 1) 9000; Edit (EInsert 0 0 [120]%N) 9100; EndBlock; UndoCall].
Example undo_history_case : calls_fit first_history a_session
  /\ text_of (s_run new_session a_session) = Ok [97; 98; 99; 100]%N
  /\ text_of (s_run new_session (firstn 11 a_session)) = Ok [120; 98; 99; 100]%N
  /\ text_of (s_run new_session (firstn 6 a_session)) = Ok [97; 98]%N.
Proof.
  split; [|vm_compute; easy]. unfold a_session.
  repeat match goal with
  | |- calls_fit _ (_ :: _) => split; [vm_compute; repeat split; try lia; try easy|]
  | |- calls_fit _ [] => exact I
  | |- forall h', hstep _ _ h' -> _ => intros ? H; vm_compute in H
  | H : _ \/ _ |- _ => destruct H as [H|H]
  | H : exists _, _ |- _ => destruct H
  | H : _ /\ _ |- _ => destruct H
  | H : ?h = mk_history _ _ _ _ |- _ => subst h
  | H : _ :: _ = _ :: _ |- _ => injection H as; subst
  | H : False |- _ => destruct H
  | H : [] = _ :: _ |- _ => discriminate H
  end.
  all: repeat constructor.
Qed.

(** C10. n times undo and n times redo change nothing. *)
Theorem back_and_forth : forall cs n s, calls_fit first_history cs -> s_run new_session cs = Ok s ->
  (forall h, hrun first_history cs h -> block h = None) -> can_redo (snd s) here = false ->
  exists s', s_run s (repeat UndoCall n ++ repeat RedoCall n) = Ok s' /\ (forall k, shows (fst s) k -> shows (fst s') k)
    /\ can_undo (snd s') here = can_undo (snd s) here /\ can_redo (snd s') here = false.
Proof. exact back_and_forth_theorem. Qed.
Print Assumptions back_and_forth.
Example back_and_forth_case :
  let cs := [SetText [97; 98]%N; Edit (EInsert 2 2 [99]%N) 0; Edit (EBreak 1 1) 200] in
  calls_fit first_history cs /\ (exists s, s_run new_session cs = Ok s /\ can_redo (snd s) here = false /\ can_undo (snd s) here = true)
  /\ (forall h, hrun first_history cs h -> block h = None)
  /\ text_of (s_run new_session (cs ++ [UndoCall; UndoCall])) = Ok [97; 98]%N
  /\ text_of (s_run new_session (cs ++ [UndoCall; UndoCall; RedoCall; RedoCall])) = Ok [97; 10; 98; 99]%N.
Proof.
  assert (Q : forall h, hrun first_history [SetText [97; 98]%N; Edit (EInsert 2 2 [99]%N) 0; Edit (EBreak 1 1) 200] h -> block h = None).
  { intros h (h1 & H1 & h2 & H2 & h3 & H3 & H). cbn in H. subst h. vm_compute in H1. subst h1. vm_compute in H2. destruct H2 as [H2|(? & ? & ? & H2 & _)]; [|discriminate H2].
    subst h2. vm_compute in H3. destruct H3 as [H3|(? & ? & ? & H2 & H4 & H3)]; [now subst|]. now subst. }
  split; [|split; [|split; [exact Q|vm_compute; easy]]].
  - repeat match goal with
    | |- calls_fit _ (_ :: _) => split; [vm_compute; repeat split; try lia; try easy|]
    | |- calls_fit _ [] => exact I
    | |- forall h', hstep _ _ h' -> _ => intros ? H; vm_compute in H
    | H : _ \/ _ |- _ => destruct H as [H|H]
    | H : exists _, _ |- _ => destruct H
    | H : _ /\ _ |- _ => destruct H
    | H : ?h = mk_history _ _ _ _ |- _ => subst h
    | H : False |- _ => destruct H
    | H : [] = _ :: _ |- _ => discriminate H
    end; repeat constructor.
  - eexists. split; [vm_compute; reflexivity|]. vm_compute. easy.
Qed.

(** C10. Stacks do not affect each other. *)
Theorem stacks_separate : forall (W C : Type) (undo_c : W -> C -> res W) (redo_c : W -> C -> res (W * C)) (merge_c : C -> C -> option C)
  w0 os w m o w' m' k j,
  mrun undo_c redo_c merge_c (w0, new_manager) os = Ok (w, m) ->
  mstep undo_c redo_c merge_c (w, m) o = Ok (w', m') -> about k o -> (o = EndGroup -> sid (owner m) = k) ->
  j <> k -> get_stack m j <> None -> get_stack m' j = get_stack m j.
Proof. exact @separate_theorem. Qed.
Print Assumptions stacks_separate.
Example stacks_separate_case :
  exists w m, mrun (fun _ c => Ok c) (fun _ c => Ok (S c, c)) (fun _ _ => None) (0, new_manager)
    [CreateStack; Act push_one (Some 1%N); Act push_one (Some 0%N)] = Ok (w, m)
  /\ get_stack m 1 = Some ([One 0], []) /\ get_stack m 0 = Some ([One 1], [])
  /\ exists w' m', mstep (fun _ c => Ok c) (fun _ c => Ok (S c, c)) (fun _ _ => None) (w, m) (Undo (Some 0%N)) = Ok (w', m')
     /\ get_stack m' 1 = Some ([One 0], []) /\ get_stack m' 0 = Some ([], [One 1]).
Proof. do 2 eexists. split; [vm_compute; reflexivity|]. split; [reflexivity|]. split; [reflexivity|]. do 2 eexists. split; [vm_compute; reflexivity|]. easy. Qed.

(** C10. Deleting a stack succeeds for every existing stack but the first, which
    is then gone; otherwise nothing happens. *)
Theorem stack_deleted : forall (C : Type) (m : manager C) k m' ok, m_delete m k = (m', ok) ->
  (ok = true <-> k <> 0%N /\ get_stack m k <> None) /\ (ok = true -> get_stack m' k = None) /\ (ok = false -> m' = m).
Proof. exact @delete_theorem. Qed.
Print Assumptions stack_deleted.
Example stack_deleted_case : snd (m_delete (fst (m_create (@new_manager nat))) 1%N) = true /\ snd (m_delete (@new_manager nat) 0%N) = false.
Proof. split; reflexivity. Qed.

(** C10. Undo inside an open edit block undoes the step before the block and
    shows a text the document never had. *)
Theorem undo_in_block_refuted : exists cs text,
  text_of (s_run new_session cs) = Ok text /\ last cs EndBlock = UndoCall
  /\ forall n, n < length cs -> text_of (s_run new_session (firstn n cs)) <> Ok text.
Proof.
  exists inside_block, [98]%N. split; [exact (proj1 inside_block_refuted)|]. split; [reflexivity|]. exact (proj2 inside_block_refuted).
Qed.
Print Assumptions undo_in_block_refuted.

(** C11. A group with any nesting is one entry, an empty one none; provided no
    group was made on another stack before. *)
Theorem group_one_step_partial : forall (W C : Type) (undo_c : W -> C -> res W) (redo_c : W -> C -> res (W * C)) (merge_c : C -> C -> option C)
  s os w m w' cs us rs,
  idle m -> (owner m = None \/ owner m = Some s) -> get_stack m s = Some (us, rs) ->
  balanced s 0 os -> actions w os = Ok (w', cs) ->
  exists m', mrun undo_c redo_c merge_c (w, m) (BeginGroup (Some s) :: os ++ [EndGroup]) = Ok (w', m')
   /\ get_stack m' s = Some (match cs with [] => (us, rs) | _ => (Group cs :: us, []) end)
   /\ idle m' /\ owner m' = Some s /\ (forall k, k <> s -> same_stack m m' k).
Proof. exact @group_theorem. Qed.
Print Assumptions group_one_step_partial.
Example group_one_step_case :
  let os := [Act push_one (Some 0%N); BeginGroup (Some 0%N); Act push_one (Some 0%N); EndGroup; Act push_one (Some 0%N)] in
  idle (@new_manager nat) /\ balanced 0 0 os /\ actions 0 os = Ok (3, [0; 1; 2])
  /\ exists m', mrun (fun _ c => Ok c) (fun _ c => Ok (S c, c)) (fun _ _ => None) (0, new_manager) (BeginGroup (Some 0%N) :: os ++ [EndGroup]) = Ok (3, m')
     /\ get_stack m' 0 = Some ([Group [0; 1; 2]], []).
Proof. split; [split; reflexivity|]. split; [repeat split|]. split; [reflexivity|]. eexists. split; vm_compute; reflexivity. Qed.

(** C11. Undoing a group undoes all its commands, last first, in one step. *)
Theorem group_undo : forall (W C : Type) (undo_c : W -> C -> res W) s w m w0 cs us rs,
  get_stack m s = Some (Group cs :: us, rs) -> undone undo_c w (rev cs) w0 ->
  exists m', m_undo undo_c w m (Some s) = Ok (w0, m', true) /\ get_stack m' s = Some (us, Group cs :: rs)
   /\ (forall k, k <> s -> same_stack m m' k).
Proof. exact @undo_group_theorem. Qed.
Print Assumptions group_undo.
Example group_undo_case :
  exists m w, mrun (fun _ c => Ok c) (fun _ c => Ok (S c, c)) (fun _ _ => None) (5, new_manager)
     [BeginGroup (Some 0%N); Act push_one (Some 0%N); Act push_one (Some 0%N); EndGroup] = Ok (w, m)
  /\ get_stack m 0 = Some ([Group [5; 6]], []) /\ undone (fun _ c => Ok c) w (rev [5; 6]) 5.
Proof. do 2 eexists. split; [vm_compute; reflexivity|]. split; [reflexivity|]. eexists. split; [reflexivity|]. eexists. split; reflexivity. Qed.

(** C11. Cancelling a group undoes its commands, last first, and leaves no trace
    in the history. *)
Theorem group_cancel : forall (W C : Type) (undo_c : W -> C -> res W) (redo_c : W -> C -> res (W * C)) (merge_c : C -> C -> option C)
  s os w m w' cs w0,
  idle m -> (owner m = None \/ owner m = Some s) -> balanced s 0 os -> actions w os = Ok (w', cs) -> undone undo_c w' (rev cs) w0 ->
  exists m', mrun undo_c redo_c merge_c (w, m) (BeginGroup (Some s) :: os ++ [CancelGroup]) = Ok (w0, m') /\ idle m' /\ owner m' = None
   /\ (forall k, same_stack m m' k).
Proof. exact @cancel_theorem. Qed.
Print Assumptions group_cancel.
Example group_cancel_case :
  let os := [Act push_one (Some 0%N); BeginGroup (Some 0%N); Act push_one (Some 0%N); EndGroup; Act push_one (Some 0%N)] in
  idle (@new_manager nat) /\ balanced 0 0 os /\ actions 5 os = Ok (8, [5; 6; 7]) /\ undone (fun _ c => Ok c) 8 (rev [5; 6; 7]) 5.
Proof. split; [split; reflexivity|]. split; [repeat split|]. split; [reflexivity|]. repeat (eexists; split; [reflexivity|]). reflexivity. Qed.

(** C11. A group begun on one stack after a finished group on another: two
    commands, two steps. *)
Theorem group_one_step_refuted :
  exists w m, mrun (fun _ c => Ok c) (fun _ c => Ok (S c, c)) (fun _ _ => None) (0, new_manager)
     [CreateStack; BeginGroup (Some 1%N); Act push_one (Some 1%N); EndGroup;
      BeginGroup (Some 0%N); Act push_one (Some 0%N); Act push_one (Some 0%N); EndGroup] = Ok (w, m)
   /\ get_stack m 0 = Some ([One 2; One 1], []).
Proof. exact two_groups_refuted. Qed.
Print Assumptions group_one_step_refuted.

(** C37. Strings of word characters typed one after the other from [p], no two
    more than two seconds apart, at most 200 characters in all: one undo step, undone
    to the document before the first, redone to the text after the last. *)
Theorem keystrokes_partial : forall d its p w t ts, reach d -> doc_items d = Ok its -> p <= length its ->
  let all := w ++ concat (map fst ts) in
  Forall word_char all -> length all <= 200 -> quick t ts ->
  exists d1 m1 d2 m2 d3 m3 k,
    s_run (d, new_history) (typing p ((w, t) :: ts)) = Ok (d1, m1) /\ shows d1 k /\ k_items k = spec_insert p all its
    /\ s_step (d1, m1) UndoCall = Ok (d2, m2) /\ same_document d2 d /\ can_undo m2 here = false
    /\ s_step (d2, m2) RedoCall = Ok (d3, m3) /\ shows d3 k.
Proof. exact keystrokes_theorem. Qed.
Print Assumptions keystrokes_partial.
Example keystrokes_case :
  let d := two_paras in
  let ts := [([121]%N, 1500%N); ([122]%N, 3000%N)] in
  reach d /\ Forall word_char ([120]%N ++ concat (map fst ts)) /\ quick 0 ts
  /\ text_of (s_run (d, new_history) (typing 1 (([120]%N, 0%N) :: ts))) = Ok [97; 120; 121; 122; 98; 10; 99; 100]%N
  /\ text_of (s_run (d, new_history) (typing 1 (([120]%N, 0%N) :: ts) ++ [UndoCall])) = Ok [97; 98; 10; 99; 100]%N.
Proof.
  split; [repeat constructor|]. split; [repeat constructor|]. split; [vm_compute; easy|]. vm_compute. easy.
Qed.

(** C37. A selection typed over, then one more character: undone together, but
    redo leaves the selected text in place. *)
Theorem keystrokes_refuted : exists d cs text text', reach d
  /\ text_of (s_run (d, new_history) cs) = Ok text
  /\ text_of (s_run (d, new_history) (cs ++ [UndoCall; RedoCall])) = Ok text' /\ text' <> text.
Proof.
  exists (import_plain_text new_document [97; 98]%N), overtype, [120; 121]%N, [120; 121; 97; 98]%N.
  split; [repeat constructor|]. split; [exact (proj1 overtype_refuted)|].
  split; [exact (proj2 (proj2 overtype_refuted))|]. easy.
Qed.
Print Assumptions keystrokes_refuted.
