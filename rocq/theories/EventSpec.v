(** What delivery should be. *)
From Coq Require Import List Arith Bool. Import ListNotations.
From Verif Require Import Base EventModel.

Section Spec.
Context {E : Type}.
(** The events queued by a history, in order. *)
Definition queued (os : list (event_op E)) : list E :=
  flat_map (fun o => match o with Queue e => [e] | _ => [] end) os.
(** What callback [i] has received, and what is on its way to it. *)
Definition for_sub (i : nat) (l : list (nat * E)) : list E := map snd (filter (fun x => fst x =? i) l).
Definition received (i : nat) (w : world E) : list E := for_sub i (called w).
Definition on_the_way (i : nat) (w : world E) : list E := for_sub i (concat (flight w)).
(** Queued and not yet handed to the callbacks, or to the poller. *)
Definition not_taken (w : world E) : list E := skipn (callback_cursor (mb w)) (pending (mb w)).
Definition not_polled (w : world E) : list E := skipn (poll_cursor (mb w)) (pending (mb w)).
(** Histories in which deliveries do not overlap. *)
Definition uninterrupted (os : list (event_op E)) : Prop :=
  Forall (fun o => match o with Take | Call _ => False | _ => True end) os.
End Spec.
