(** Specifications for long operations. *)
From Coq Require Import List NArith Bool. Import ListNotations.
From Verif Require Import Base LongOpModel.

Section Spec.
Context {D T R X : Type}.
(** An import is running: its transaction may still change or restore the document. *)
Definition importing (p : pc D R X) : Prop :=
  match p with PStart true | PWork (Some _) | PPassed (Some _) => True | _ => False end.
Definition no_import (s : state D T R X) : Prop := forall i, ~ importing (s_pcs s i).
(** Steps that leave the document alone, or belong to operation [i]. *)
Definition only (i : N) (l : label D R X) : Prop :=
  match l with Edit _ => False | Worker j _ => j = i | _ => True end.
(** The final events sent for an operation, in order. *)
Definition events_of (s : state D T R X) (i : N) : list (status X) :=
  map snd (filter (fun e => N.eqb (fst e) i) (s_events s)).
(** The edits of a schedule, and nothing else of it, applied to a document. *)
Fixpoint edits (ls : list (label D R X)) (d : D) : D :=
  match ls with [] => d | Edit f :: rest => edits rest (f d) | _ :: rest => edits rest d end.
End Spec.
