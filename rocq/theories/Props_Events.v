(** Properties of event delivery and of transactions. *)
From Coq Require Import List NArith Arith Bool Permutation. Import ListNotations.
From Verif Require Import Base EventModel EventSpec EventFacts TxnModel TxnSpec TxnFacts.

(** C22. The poller gets every queued event once, in order. *)
Theorem poll_delivery : forall (E : Type) (os : list (event_op E)),
  let w := event_run start os in
  polled w ++ not_polled w = queued os
  /\ polled (event_step w Poll) = queued os.
Proof. exact @poll_theorem. Qed.
Print Assumptions poll_delivery.
Example poll_delivery_case :
  let w := event_run start [Queue 1; Subscribe; Dispatch; Poll; Queue 2; Queue 3; Take; Poll] in
  polled w = [1; 2; 3] /\ pending (mb w) = [].
Proof. vm_compute. auto. Qed.

(** C22. A callback gets every event queued while it is subscribed, and those not
    yet handed to callbacks when it subscribed, exactly once each; in order when
    deliveries do not overlap. *)
Theorem callback_delivery_partial : forall (E : Type) (os1 os2 : list (event_op E)),
  let w1 := event_run start os1 in
  let i := next_sub w1 in
  let w2 := event_run (event_step w1 Subscribe) os2 in
  ~ In (Unsubscribe i) os2 ->
  Permutation (received i w2 ++ on_the_way i w2 ++ not_taken w2) (not_taken w1 ++ queued os2)
  /\ (uninterrupted os2 -> received i w2 ++ not_taken w2 = not_taken w1 ++ queued os2).
Proof. exact @subscriber_theorem. Qed.
Print Assumptions callback_delivery_partial.
Example callback_delivery_case :
  let os2 := [Queue 2; Dispatch; Queue 3; Poll; Subscribe; Dispatch; Queue 4] in
  let w1 := event_run start [Queue 1] in
  let w2 := event_run (event_step w1 Subscribe) os2 in
  uninterrupted os2 /\ ~ In (Unsubscribe (next_sub w1)) os2
  /\ received (next_sub w1) w2 = [1; 2; 3] /\ not_taken w2 = [4].
Proof. split; [repeat constructor|]. split; [cbn; intuition discriminate|]. vm_compute. auto. Qed.

(** C22. A dropped subscription is sent nothing more. *)
Theorem callback_dropped : forall (E : Type) (os1 os2 : list (event_op E)) (i : nat),
  let w1 := event_run start os1 in
  i < next_sub w1 ->
  let w2 := event_run (event_step w1 (Unsubscribe i)) os2 in
  Permutation (received i w2 ++ on_the_way i w2) (received i w1 ++ on_the_way i w1).
Proof. exact @dropped_theorem. Qed.
Print Assumptions callback_dropped.
Example callback_dropped_case :
  let w1 := event_run start [Subscribe; Queue 1; Dispatch] in
  let w2 := event_run (event_step w1 (Unsubscribe 0)) [Queue 2; Dispatch] in
  0 < next_sub w1 /\ received 0 w1 = [1] /\ received 0 w2 = [1].
Proof. vm_compute. auto. Qed.

(** C22, order. A callback that edits the document while it is being called lets a
    second callback see the events out of order. *)
Theorem callback_order_refuted :
  exists (os : list (event_op nat)) (i : nat), let w := event_run start os in
  on_the_way i w = [] /\ not_taken w = [] /\ received i w <> queued os.
Proof. exists nested, 0. vm_compute. repeat split; discriminate. Qed.
Print Assumptions callback_order_refuted.

(** C22, memory. After a poll only events that callbacks have not taken are kept. *)
Theorem events_released_partial : forall (E : Type) (os : list (event_op E)),
  let w := event_step (event_run start os) Poll in
  pending (mb w) = not_taken (event_run start os).
Proof. exact @memory_theorem. Qed.
Print Assumptions events_released_partial.
Example events_released_case :
  pending (mb (event_run start [Subscribe; Queue 1; Queue 2; Dispatch; Queue 3; Poll])) = [3].
Proof. reflexivity. Qed.

(** C22, memory. Without polling, delivered events are kept for ever. *)
Theorem events_released_refuted : forall n, exists os : list (event_op nat),
  let w := event_run start os in
  length (queued os) = n /\ received 0 w = queued os /\ length (pending (mb w)) = n.
Proof. exact memory_refuted_w. Qed.
Print Assumptions events_released_refuted.

(** C23. What the listeners of a unit of work see is the events of the committed
    transactions, in order. *)
Theorem committed_events_partial : forall (D Ev : Type) (refresh : D -> D) (d : D) (os : list (uow_op D Ev)) (u : uow D Ev),
  Forall no_restore_to os -> uow_run refresh (uow_start d) os = Ok u ->
  hub u = map Some (published [] os).
Proof. exact @publish_theorem. Qed.
Print Assumptions committed_events_partial.
Example committed_events_case :
  let os := [Begin; Emit 1; Emit 2; Commit; Begin; Emit 3; Rollback; Begin; Emit 4; Abandon; Begin; Change S; Emit 5; Commit] in
  Forall no_restore_to os /\ published [] os = [1; 2; 5]
  /\ exists u : uow nat nat, uow_run (fun d => d) (uow_start 0) os = Ok u /\ hub u = [Some 1; Some 2; Some 5].
Proof. split; [repeat constructor|]. split; [reflexivity|]. eexists. split; vm_compute; reflexivity. Qed.

(** C23. After a savepoint is restored inside a transaction, the events raised
    until its commit are lost. *)
Theorem committed_events_refuted :
  exists (os : list (uow_op unit nat)) (u : uow unit nat),
  uow_run (fun d => d) (uow_start tt) os = Ok u
  /\ In (Emit 5) os /\ last os Abandon = Commit /\ published [] os = [5] /\ hub u = [None].
Proof.
  exists [Begin; MakeSavepoint; RestoreTo 1%N; Emit 5; Commit]. destruct restored_events_lost as (u & H & E). exists u.
  split; [exact H|]. split; [do 3 right; left; reflexivity|]. split; [reflexivity|]. split; [reflexivity|exact E].
Qed.
Print Assumptions committed_events_refuted.

(** C12. Whatever a use case did before it failed, the failure leaves the tables,
    the text and the id counters as they were before the call, and publishes
    nothing. *)
Theorem failed_call_partial : forall (D Ev : Type) (refresh : D -> D) (d : D) (os : list (uow_op D Ev)) (u : uow D Ev)
  (body : list (uow_op D Ev)) (u1 : uow D Ev) (fin : uow_op D Ev),
  uow_run refresh (uow_start d) os = Ok u -> txn u = None ->
  Forall inner_op body -> uow_run refresh u (Begin :: body) = Ok u1 ->
  fin = Rollback \/ fin = Abandon ->
  exists u2, uow_step refresh u1 fin = Ok u2 /\ txn u2 = None
   /\ same_store (st u2) (st u) /\ kept_ids u2 = kept_ids u
   /\ (Forall no_restore_to body -> hub u2 = hub u).
Proof. exact @failed_theorem. Qed.
Print Assumptions failed_call_partial.
Example failed_call_case :
  exists u u2 : uow nat nat,
  uow_run (fun d => d) (uow_start 7) [Begin; Change S; NewId 0; Commit] = Ok u /\ txn u = None
  /\ uow_run (fun d => d) u [Begin; Change S; NewId 0; MakeSavepoint; Emit 3; RestoreTables 0; Rollback] = Ok u2
  /\ tables (st u2) = 8 /\ counter (cnts (st u2)) 0 = Some 2%N /\ hub u2 = [].
Proof. do 2 eexists. split; [vm_compute; reflexivity|]. split; [reflexivity|]. split; [vm_compute; reflexivity|]. repeat split. Qed.

(** C13. Ids handed out are all different, over every history of committed, failed
    and undone work; undo of an edit restores the tables it saved. *)
Theorem ids_distinct_partial : forall (D Ev : Type) (refresh : D -> D) (d : D) (os : list (uow_op D Ev)) (u : uow D Ev),
  Forall no_restore_to os -> closed_first false os ->
  uow_run refresh (uow_start d) os = Ok u ->
  NoDup (kept_ids u ++ fresh_ids u).
Proof. exact @ids_theorem. Qed.
Print Assumptions ids_distinct_partial.
Example ids_distinct_case :
  let os := [Begin; NewId 0; NewId 1; Commit; Begin; RestoreTables 0; Commit; Begin; NewId 0; Rollback; Begin; NewId 0; NewId 0] in
  Forall no_restore_to os /\ closed_first false os
  /\ exists u : uow nat nat, uow_run (fun d => d) (uow_start 0) os = Ok u
     /\ kept_ids u ++ fresh_ids u = [(0, 1); (1, 1); (0, 2); (0, 3)]%N.
Proof. split; [repeat constructor|]. split; [repeat split|]. eexists. split; vm_compute; reflexivity. Qed.

(** C13. Undoing by restoring a savepoint, as the relationship commands do, hands
    out the same id again. *)
Theorem ids_distinct_refuted :
  exists (os : list (uow_op unit nat)) (u : uow unit nat),
  closed_first false os /\ uow_run (fun d => d) (uow_start tt) os = Ok u /\ ~ NoDup (kept_ids u).
Proof.
  destruct savepoint_recycles as (u & H & E). do 2 eexists. split; [|split; [exact H|]].
  - repeat split.
  - rewrite E. intros N0. inversion N0 as [|? ? N1 ?]. apply N1. now left.
Qed.
Print Assumptions ids_distinct_refuted.
