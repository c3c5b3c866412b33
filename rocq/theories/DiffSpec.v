(** What change reports should mean. *)
From Verif Require Import Base DiffModel.

(** The report "at [p], [r] items removed and [a] added" describes the change
    from [old] to [new]: the items before [p] and those after the region are the
    same. *)
Definition describes {A} (old new : list A) (p r a : nat) : Prop :=
  p + r <= length old /\ p + a <= length new
  /\ firstn p old = firstn p new /\ skipn (p + r) old = skipn (p + a) new.

(** A listener that keeps its own copy of the flow applies an event to it: it
    drops the removed elements, and reads the inserted ones from the document. *)
Definition apply_flow {A} (current : list A) (copy : list A) (e : flow_event) : list A :=
  match e with
  | FlowRemoved i n => firstn i copy ++ skipn (i + n) copy
  | FlowInserted i n => firstn i copy ++ firstn n (skipn i current) ++ skipn i copy
  end.

(** Block states in document order: each block starts one past the end of the
    previous one. *)
Fixpoint placed {F} (n : nat) (l : list (bstate F)) : Prop :=
  match l with
  | [] => True
  | s :: rest => bs_pos s = n /\ placed (n + length (bs_text s) + 1) rest
  end.
