(** Delivery of document events: polling and callbacks.

    Source: crates/public_api/src/inner.rs:145-213, 409-415 and events.rs:76-103.
    The document mutex makes each of [queue_event], [drain_poll_events],
    [take_queued_events] and [subscribe_inner] atomic; the calls of the callbacks
    happen outside it. A callback that panics is not modelled. *)
From Coq Require Import List Arith Lia Bool. Import ListNotations.
From Verif Require Import Base.

Section Events.
Context {E : Type}.

(** inner.rs:66-100: [pending_events], [callback_cursor], [poll_cursor] and
    [callbacks]: a number for each callback and whether its subscription is alive
    (events.rs:82-87: dropping the subscription both clears the flag and frees
    it, so one flag stands for both tests). *)
Record mailbox := mk_mailbox {
  pending : list E; callback_cursor : nat; poll_cursor : nat; callbacks : list (nat * bool)
}.
(** inner.rs:145-147. *)
Definition queue_event (m : mailbox) (e : E) : mailbox :=
  mk_mailbox (pending m ++ [e]) (callback_cursor m) (poll_cursor m) (callbacks m).
(** inner.rs:206-213. *)
Definition trim (m : mailbox) : mailbox :=
  let k := Nat.min (callback_cursor m) (poll_cursor m) in
  if 0 <? k then mk_mailbox (skipn k (pending m)) (callback_cursor m - k) (poll_cursor m - k) (callbacks m) else m.
(** inner.rs:154-163. *)
Definition drain_poll (m : mailbox) : mailbox * list E :=
  if length (pending m) <=? poll_cursor m then (trim m, [])
  else (trim (mk_mailbox (pending m) (callback_cursor m) (length (pending m)) (callbacks m)),
        skipn (poll_cursor m) (pending m)).
(** inner.rs:170-203: the events with the callbacks to call for each. *)
Definition take_queued (m : mailbox) : mailbox * list (E * list nat) :=
  if length (pending m) <=? callback_cursor m then (m, [])
  else
    let cbs := filter snd (callbacks m) in
    let live := map fst cbs in
    let m' := mk_mailbox (pending m) (length (pending m)) (poll_cursor m) cbs in
    match live with
    | [] => (m', [])
    | _ => (m', map (fun e => (e, live)) (skipn (callback_cursor m) (pending m)))
    end.
(** inner.rs:409-415: the calls a batch stands for, in order. *)
Definition calls (q : list (E * list nat)) : list (nat * E) :=
  flat_map (fun x => map (fun i => (i, fst x)) (snd x)) q.
(** events.rs:90-103. *)
Definition subscribe (m : mailbox) (i : nat) : mailbox :=
  mk_mailbox (pending m) (callback_cursor m) (poll_cursor m) (callbacks m ++ [(i, true)]).
(** events.rs:82-87. *)
Definition unsubscribe (m : mailbox) (i : nat) : mailbox :=
  mk_mailbox (pending m) (callback_cursor m) (poll_cursor m)
    (map (fun x => (fst x, snd x && negb (fst x =? i))) (callbacks m)).

(** The mailbox with what happens around it: subscription numbers, batches being
    delivered (one per call of [dispatch_queued_events] under way, on any thread
    or nested in a callback), what polling returned and the calls made so far. *)
Record world := mk_world {
  mb : mailbox; next_sub : nat; flight : list (list (nat * E)); polled : list E; called : list (nat * E)
}.
Definition start : world := mk_world (mk_mailbox [] 0 0 []) 0 [] [] [].
Inductive event_op :=
| Queue (e : E)          (* an edit queues an event *)
| Poll                   (* poll_events *)
| Subscribe              (* on_change *)
| Unsubscribe (i : nat)  (* a subscription is dropped *)
| Take                   (* take_queued_events at the end of a method *)
| Call (k : nat)         (* batch [k] makes its next call *)
| Dispatch.              (* take and deliver without interruption *)
Fixpoint pop_at (k : nat) (bs : list (list (nat * E))) : list (list (nat * E)) * list (nat * E) :=
  match bs, k with
  | [], _ => ([], [])
  | [] :: rest, 0 => ([] :: rest, [])
  | (c :: b) :: rest, 0 => (b :: rest, [c])
  | b :: rest, S k' => let (r, c) := pop_at k' rest in (b :: r, c)
  end.
Definition event_step (w : world) (o : event_op) : world :=
  match o with
  | Queue e => mk_world (queue_event (mb w) e) (next_sub w) (flight w) (polled w) (called w)
  | Poll => let (m, es) := drain_poll (mb w) in mk_world m (next_sub w) (flight w) (polled w ++ es) (called w)
  | Subscribe => mk_world (subscribe (mb w) (next_sub w)) (S (next_sub w)) (flight w) (polled w) (called w)
  | Unsubscribe i => mk_world (unsubscribe (mb w) i) (next_sub w) (flight w) (polled w) (called w)
  | Take => let (m, q) := take_queued (mb w) in mk_world m (next_sub w) (flight w ++ [calls q]) (polled w) (called w)
  | Call k => let (f, c) := pop_at k (flight w) in mk_world (mb w) (next_sub w) f (polled w) (called w ++ c)
  | Dispatch => let (m, q) := take_queued (mb w) in mk_world m (next_sub w) (flight w) (polled w) (called w ++ calls q)
  end.
Definition event_run (w : world) (os : list event_op) : world := fold_left event_step os w.
End Events.
Arguments mailbox : clear implicits.
Arguments world : clear implicits.
Arguments event_op : clear implicits.
