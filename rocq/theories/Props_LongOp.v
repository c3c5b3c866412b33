(** C32, C47, C48, C49: long operations, and replacing the content. *)
From Coq Require Import List NArith Bool Lia. Import ListNotations.
From Verif Require Import Base LongOpModel LongOpSpec LongOpFacts LongOpTheorems.
From Verif Require DocModel HistModel UndoModel SessionModel.

(** Schedules below: documents are lists of numbers, shown as they are. *)
Notation demo := (exec (R := nat) (fun d : list nat => d) 0).
Definition w (a : act (list nat) nat nat) : label (list nat) nat nat := Worker 1%N a.

(** ** C32: statuses and results *)
(** Completed and Failed are final (the operation may be forgotten by a cleanup). *)
Theorem final_status_partial : forall (D T R X : Type) (text : D -> T) (cancelled : X) d a b s s' i (x : status X),
  exec (R := R) text cancelled (start d) a = Some s -> exec text cancelled s b = Some s' ->
  operation_status s i = Some x -> x = Completed \/ (exists e, x = Failed e) ->
  operation_status s' i = Some x \/ operation_status s' i = None.
Proof. exact @status_kept_fact. Qed.
Print Assumptions final_status_partial.
Definition exported : list (label (list nat) nat nat) := [Begin false; w ABegin; w (AReturn 7); w ALoad; w AStore; w AAnnounce; w ASet].
Example final_status_case : exists s s', demo (start []) exported = Some s
  /\ demo s [CancelFlag 1%N; CancelStatus; Edit (cons 1); Begin true] = Some s'
  /\ operation_status s 1%N = Some Completed /\ operation_status s' 1%N = Some Completed.
Proof. apply ran2. vm_compute. easy. Qed.
(** A client can see Cancelled and, later, Completed. *)
Theorem final_status_refuted : exists a b s s', demo (start []) a = Some s /\ demo s b = Some s'
  /\ operation_status s 1%N = Some Cancelled /\ operation_status s' 1%N = Some Completed.
Proof.
  exists [Begin false; w ABegin; w (AReturn 7); w ALoad; CancelFlag 1%N; CancelStatus], [w AStore; w AAnnounce; w ASet].
  apply ran2. vm_compute. easy.
Qed.
Print Assumptions final_status_refuted.

(** A result never disappears or changes. *)
Theorem result_kept : forall (D T R X : Type) (text : D -> T) (cancelled : X) d a b s s' i (r : R),
  exec text cancelled (start d) a = Some s -> exec text cancelled s b = Some s' ->
  operation_result s i = Some r -> operation_result s' i = Some r.
Proof. exact @result_kept_fact. Qed.
Print Assumptions result_kept.
Example result_kept_case : exists s s', demo (start []) exported = Some s /\ demo s [Cleanup; Begin false] = Some s'
  /\ operation_result s 1%N = Some 7 /\ operation_status s' 1%N = None /\ operation_result s' 1%N = Some 7.
Proof. apply ran2. vm_compute. easy. Qed.
(** A Completed status means the result can be fetched. *)
Theorem completed_has_result : forall (D T R X : Type) (text : D -> T) (cancelled : X) d ls s i,
  exec (R := R) text cancelled (start d) ls = Some s -> operation_status s i = Some Completed ->
  exists r, operation_result s i = Some r.
Proof. exact @completed_result_fact. Qed.
Print Assumptions completed_has_result.
(** A worker that returned gets to its end by its own steps, whatever the others
    are doing; the status is then Cancelled if the flag was set, else as the
    worker returned, and there is a result exactly when it is Completed. *)
Theorem worker_ends : forall (D T R X : Type) (text : D -> T) (cancelled : X) d ls s i (x : R + X),
  exec text cancelled (start d) ls = Some s -> s_pcs s i = PReturned x ->
  exists acts s', exec text cancelled s (map (Worker i) acts) = Some s' /\ s_pcs s' i = PGone /\ s_doc s' = s_doc s
    /\ (operation_status s i <> None -> operation_status s' i = Some
         (if flag_of s i then Cancelled else match x with inl _ => Completed | inr e => Failed e end))
    /\ operation_result s' i = (if flag_of s i then None else match x with inl r => Some r | inr _ => None end).
Proof. exact @finishes_fact. Qed.
Print Assumptions worker_ends.
Example worker_ends_case : exists s, demo (start []) [Begin false; w ABegin; w (AReturn 7)] = Some s
  /\ s_pcs s 1%N = PReturned (inl 7) /\ operation_status s 1%N = Some Running.
Proof. apply ran. vm_compute. easy. Qed.
(** [wait] returns once there is a result: never for an operation that failed or
    was cancelled. *)
Definition cancelled_run : list (label (list nat) nat nat) :=
  [Begin false; CancelFlag 1%N; CancelStatus; w ABegin; w AAbort; w ALoad; w AAnnounce; w ASet].
Definition failed_run : list (label (list nat) nat nat) := [Begin false; w ABegin; w (AFail 3); w ALoad; w AAnnounce; w ASet].
Theorem wait_refuted : exists s s', demo (start []) cancelled_run = Some s /\ demo (start []) failed_run = Some s'
  /\ operation_status s 1%N = Some Cancelled /\ operation_status s' 1%N = Some (Failed 3)
  /\ (forall b t, demo s b = Some t -> operation_result t 1%N = None)
  /\ (forall b t, demo s' b = Some t -> operation_result t 1%N = None).
Proof.
  destruct (ran (demo (start []) cancelled_run) (fun s => operation_status s 1%N = Some Cancelled /\ s_pcs s 1%N = PGone
    /\ option_map c_status (s_cells s 1%N) = Some Cancelled)) as (s & E & K1 & K2 & K3);
    [vm_compute; repeat split|].
  destruct (ran (demo (start []) failed_run) (fun s => operation_status s 1%N = Some (Failed 3) /\ s_pcs s 1%N = PGone
    /\ option_map c_status (s_cells s 1%N) = Some (Failed 3))) as (s' & E' & K1' & K2' & K3');
    [vm_compute; repeat split|].
  exists s, s'. repeat (split; [assumption|]).
  split; [apply (no_result_later _ _ _ _ _ _ _ E K2 K3)|apply (no_result_later _ _ _ _ _ _ _ E' K2' K3')]; discriminate.
Qed.
Print Assumptions wait_refuted.

(** Cancelling before the worker's last look at the flag: never a result, and
    once the call has returned the status is Cancelled for good. *)
Theorem cancel_in_time : forall (D T R X : Type) (text : D -> T) (cancelled : X) d a b s0 s i,
  exec (R := R) text cancelled (start d) a = Some s0 -> ~ In (Worker i ALoad) a -> operation_status s0 i <> None ->
  exec text cancelled s0 (CancelFlag i :: b) = Some s ->
  operation_result s i = None /\
  (s_cancelling s <> Some i -> operation_status s i = Some Cancelled \/ operation_status s i = None).
Proof. exact @cancel_early_fact. Qed.
Print Assumptions cancel_in_time.
Definition importing_one : list (label (list nat) nat nat) := [Begin true; w ABegin; w (AChange (cons 5))].
Example cancel_in_time_case : ~ In (w ALoad) importing_one /\ exists s0 s, demo (start [1]) importing_one = Some s0
  /\ demo s0 (CancelFlag 1%N :: [CancelStatus; w AAbort; w ALoad; w AAnnounce; w ASet; Begin true]) = Some s
  /\ operation_status s0 1%N = Some Running /\ operation_status s 1%N = Some Cancelled /\ s_doc s = [1].
Proof. split; [unfold importing_one, w; cbn; intuition congruence|]. apply ran2. vm_compute. easy. Qed.
(** Before the last check inside the import: it does not commit. *)
Theorem cancel_stops_import : forall (D T R X : Type) (text : D -> T) (cancelled : X) d a b s0 s i,
  exec (R := R) text cancelled (start d) a = Some s0 -> ~ In (Worker i APass) a -> operation_status s0 i <> None ->
  exec text cancelled s0 (CancelFlag i :: b) = Some s -> forall r, ~ In (Worker i (ACommit r)) b.
Proof. exact @cancel_no_commit_fact. Qed.
Print Assumptions cancel_stops_import.
(** After that check the import commits, and is still reported as Cancelled. *)
Theorem cancel_stops_import_refuted : exists ls s, demo (start [1]) ls = Some s
  /\ operation_status s 1%N = Some Cancelled /\ s_pcs s 1%N = PGone /\ s_doc s = [5; 1].
Proof.
  exists (importing_one ++ [w APass; CancelFlag 1%N; CancelStatus; w (ACommit 2); w ALoad; w AAnnounce; w ASet]).
  apply ran. vm_compute. easy.
Qed.
Print Assumptions cancel_stops_import_refuted.

(** An operation that nobody cancels sends at most one final event: the one for
    its final status. *)
Theorem final_event_partial : forall (D T R X : Type) (text : D -> T) (cancelled : X) d ls s i,
  exec (R := R) text cancelled (start d) ls = Some s -> ~ In (CancelFlag i) ls ->
  length (events_of s i) <= 1 /\
  (forall x, operation_status s i = Some x -> x <> Running -> x <> Cancelled /\ events_of s i = [x]).
Proof. exact @final_events_fact. Qed.
Print Assumptions final_event_partial.
Example final_event_case : ~ In (CancelFlag 1%N) exported
  /\ exists s, demo (start []) exported = Some s /\ operation_status s 1%N = Some Completed /\ events_of s 1%N = [Completed].
Proof. split; [unfold exported, w; cbn; intuition congruence|]. apply ran. vm_compute. easy. Qed.
(** Otherwise there can be two, contradicting each other. *)
Theorem final_event_refuted : exists ls s, demo (start []) ls = Some s /\ events_of s 1%N = [Cancelled; Completed]
  /\ operation_status s 1%N = Some Completed.
Proof.
  exists [Begin false; w ABegin; w (AReturn 7); w ALoad; CancelFlag 1%N; CancelStatus; w AStore; w AAnnounce; w ASet].
  apply ran. vm_compute. easy.
Qed.
Print Assumptions final_event_refuted.

(** Steps of other operations leave an operation's status and result alone; only
    a cleanup forgets it, and only when it is not running. *)
Theorem operations_separate : forall (D T R X : Type) (text : D -> T) (cancelled : X) d ls s l s' i,
  exec (R := R) text cancelled (start d) ls = Some s -> operation_status s i <> None -> step text cancelled s l = Some s' ->
  (forall a, l <> Worker i a) -> l <> CancelFlag i -> s_cancelling s <> Some i ->
  operation_result s' i = operation_result s i /\
  (operation_status s' i = operation_status s i \/ (l = Cleanup /\ operation_status s i <> Some Running /\ operation_status s' i = None)).
Proof. exact @others_fact. Qed.
Print Assumptions operations_separate.
Example operations_separate_case : exists s s', demo (start [1]) (importing_one ++ [Begin false; CancelFlag 2%N]) = Some s
  /\ step (fun d : list nat => d) 0 s CancelStatus = Some s'
  /\ operation_status s 1%N = Some Running /\ s_cancelling s = Some 2%N
  /\ operation_status s' 2%N = Some Cancelled /\ operation_status s' 1%N = Some Running.
Proof. apply ran2. vm_compute. easy. Qed.
(** Every operation gets an identifier never used before. *)
Theorem operation_ids_new : forall (D T R X : Type) (text : D -> T) (cancelled : X) d ls s im s',
  exec (R := R) text cancelled (start d) ls = Some s -> step text cancelled s (Begin im) = Some s' ->
  operation_status s (s_next s') = None /\ operation_result s (s_next s') = None
  /\ operation_status s' (s_next s') = Some Running /\ operation_result s' (s_next s') = None.
Proof. exact @begin_fact. Qed.
Print Assumptions operation_ids_new.

(** ** C47: imports that do not complete *)
(** An import that is stopped by a cancellation or fails puts back the document as it was
    when the import's transaction began. *)
Theorem import_undone_partial : forall (D T R X : Type) (text : D -> T) (cancelled : X) d a b s s' i x,
  exec (R := R) text cancelled (start d) a = Some s -> s_pcs s i = PStart true -> x = AAbort \/ (exists e, x = AFail e) ->
  exec text cancelled s (Worker i ABegin :: b ++ [Worker i x]) = Some s' -> s_doc s' = s_doc s.
Proof. exact @import_undone_fact. Qed.
Print Assumptions import_undone_partial.
Example import_undone_case : exists s s', demo (start [1]) [Begin true] = Some s
  /\ demo s (w ABegin :: [w (AChange (cons 5)); w (AChange (cons 6)); ReadText] ++ [w (AFail 2)]) = Some s'
  /\ s_pcs s 1%N = PStart true /\ s_doc s' = [1].
Proof. apply ran2. vm_compute. easy. Qed.
(** An edit made meanwhile is undone with it, though it can still be "undone". *)
Theorem import_undone_refuted : exists ls s, demo (start [1]) ls = Some s
  /\ operation_status s 1%N = Some Cancelled /\ s_pcs s 1%N = PGone
  /\ s_doc s <> edits ls [1] /\ edits ls [1] = [9; 1] /\ s_undo s = 1.
Proof.
  exists [Begin true; w ABegin; w (AChange (cons 5)); Edit (cons 9); CancelFlag 1%N; CancelStatus; w AAbort; w ALoad; w AAnnounce; w ASet].
  apply ran. vm_compute. easy.
Qed.
Print Assumptions import_undone_refuted.

(** ** C48: the text read is the current text *)
Theorem text_current_partial : forall (D T R X : Type) (text : D -> T) (cancelled : X) d ls s,
  exec (R := R) text cancelled (start d) ls = Some s ->
  (forall a b s1, ls = a ++ ReadText :: b -> exec text cancelled (start d) a = Some s1 -> no_import s1) ->
  plain_text text s = text (s_doc s).
Proof. exact @text_current_fact. Qed.
Print Assumptions text_current_partial.
Definition imported (between : list (label (list nat) nat nat)) : list (label (list nat) nat nat) :=
  ReadText :: Begin true :: between ++ [w ABegin; w (AChange (cons 5)); w APass; w (ACommit 1); w ALoad; w AStore; w AAnnounce; w ASet].
Example text_current_case : (exists s, demo (start [1]) (imported []) = Some s /\ plain_text (fun d => d) s = [5; 1])
  /\ (forall a b s1, imported [] = a ++ ReadText :: b -> demo (start [1]) a = Some s1 -> no_import s1).
Proof.
  split; [apply ran; now vm_compute|].
  intros a b s1 E. destruct a as [|l a].
  - intros [= <-] i. easy.
  - exfalso. assert (Hin : In ReadText (tl (imported []))).
    { rewrite E. cbn. apply in_or_app. right. now left. }
    cbn in Hin. unfold w in Hin. intuition congruence.
Qed.
(** A read while an import is at work is remembered: after the import has completed the old text is still shown. *)
Theorem text_current_refuted : exists ls s, demo (start [1]) ls = Some s /\ operation_result s 1%N = Some 1
  /\ s_pcs s 1%N = PGone /\ s_doc s = [5; 1] /\ plain_text (fun d => d) s = [1].
Proof. exists (imported [ReadText]). apply ran. vm_compute. easy. Qed.
Print Assumptions text_current_refuted.

(** ** C49: replacing the content clears the undo history *)
(** [set_plain_text] and [clear]: nothing is left to undo or redo. *)
Theorem set_text_clears_partial : forall (s : SessionModel.session) t, exists s',
  SessionModel.s_step s (SessionModel.SetText t) = Ok s'
  /\ UndoModel.can_undo (snd s') SessionModel.here = false /\ UndoModel.can_redo (snd s') SessionModel.here = false.
Proof. exact set_text_clears_fact. Qed.
Print Assumptions set_text_clears_partial.
(** Inside an open edit block it does not: the edits before it are kept, and come back when the block ends. *)
Theorem set_text_clears_refuted : exists cs s, SessionModel.s_run SessionModel.new_session cs = Ok s
  /\ (exists c, cs = c ++ [SessionModel.SetText [97; 98]%N; SessionModel.EndBlock])
  /\ UndoModel.can_undo (snd s) SessionModel.here = true.
Proof. exact set_text_in_block_fact. Qed.
Print Assumptions set_text_clears_refuted.
(** [set_markdown] and [set_html] never do: edits made before the import stay on the undo history. *)
Theorem import_clears_refuted : exists s, demo (start [1]) (Edit (cons 2) :: imported []) = Some s
  /\ operation_status s 1%N = Some Completed /\ s_undo s = 1.
Proof. apply ran. vm_compute. easy. Qed.
Print Assumptions import_clears_refuted.
