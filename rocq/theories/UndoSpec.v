(** What grouping should do. *)
From Coq Require Import List NArith Bool. Import ListNotations.
From Verif Require Import Base UndoModel.

Section Spec.
Context {W C : Type}.
(** Only brackets and actions on stack [s], every bracket closed; [depth] is the
    number of brackets open so far. *)
Fixpoint balanced (s : N) (depth : nat) (os : list (mop W C)) : Prop :=
  match os with
  | [] => depth = 0
  | BeginGroup o :: rest => o = Some s /\ balanced s (S depth) rest
  | EndGroup :: rest => match depth with S k => balanced s k rest | O => False end
  | Act _ o :: rest => o = Some s /\ balanced s depth rest
  | _ => False
  end.
(** The actions alone: the world they lead to and the commands executed. *)
Fixpoint actions (w : W) (os : list (mop W C)) : res (W * list C) :=
  match os with
  | [] => Ok (w, [])
  | Act f _ :: rest =>
      match f w with
      | Ok (w', c) => let! (w'', cs) := actions w' rest in Ok (w'', c :: cs)
      | Err => actions w rest
      | Panic => Panic
      end
  | _ :: rest => actions w rest
  end.
(** No group is open. *)
Definition idle (m : manager C) : Prop := open m = None /\ level m = 0.
(** Stack [k] is as before. *)
Definition same_stack (m m' : manager C) (k : N) : Prop := get_stack m' k = get_stack m k.
(** The stack an operation is about. *)
Definition about (k : N) (o : mop W C) : Prop :=
  match o with
  | Undo o | Redo o | BeginGroup o | Act _ o => sid o = k
  | Clear j | DeleteStack j => j = k
  | EndGroup | CancelGroup | CreateStack => True
  | ClearAll => False
  end.
(** The world between two states, following commands backwards. *)
Fixpoint undone (undo_c : W -> C -> res W) (w : W) (cs : list C) (w0 : W) : Prop :=
  match cs with
  | [] => w0 = w
  | c :: before => exists w1, undo_c w c = Ok w1 /\ undone undo_c w1 before w0
  end.
End Spec.
