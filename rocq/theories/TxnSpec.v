(** What transactions should guarantee. *)
From Coq Require Import List NArith Bool. Import ListNotations.
From Verif Require Import Base TxnModel.

Section Spec.
Context {D Ev : Type}.
(** The events of the committed transactions of a history, in order. *)
Fixpoint published (cur : list Ev) (os : list (uow_op D Ev)) : list Ev :=
  match os with
  | [] => []
  | Begin :: rest => published [] rest
  | Emit e :: rest => published (cur ++ [e]) rest
  | Commit :: rest => cur ++ published [] rest
  | Rollback :: rest | Abandon :: rest => published [] rest
  | _ :: rest => published cur rest
  end.
(** What a use case does between opening and closing its transaction. *)
Definition inner_op (o : uow_op D Ev) : Prop :=
  match o with Begin | Commit | Rollback | Abandon => False | _ => True end.
Definition no_restore_to (o : uow_op D Ev) : Prop := match o with RestoreTo _ => False | _ => True end.
(** A transaction is closed before the next one is opened. *)
Fixpoint closed_first (open : bool) (os : list (uow_op D Ev)) : Prop :=
  match os with
  | [] => True
  | Begin :: rest => open = false /\ closed_first true rest
  | Commit :: rest | Rollback :: rest | Abandon :: rest => closed_first false rest
  | _ :: rest => closed_first open rest
  end.
(** Everything a reader of the store can see. *)
Definition same_store (a b : store (D := D)) : Prop :=
  tables a = tables b /\ forall name, counter (cnts a) name = counter (cnts b) name.
End Spec.
