(** What a run list means, independently of the functions that edit it. *)
From Verif Require Import Base FormatRunsModel.

Definition covers (r : run) (k : nat) : bool := (rstart r <=? k) && (k <? rend r).

(** Format in force at byte [k] of the paragraph text, [None] when the byte is
    in no run. *)
Fixpoint fmt_at (runs : list run) (k : nat) : option cfmt :=
  match runs with
  | [] => None
  | r :: rest => if covers r k then Some (rfmt r) else fmt_at rest k
  end.

(** What a reader sees: no run means the default format. *)
Definition eff_at (runs : list run) (k : nat) : cfmt :=
  match fmt_at runs k with Some f => f | None => cfmt_default end.

(** Runs are non-empty, ordered and disjoint, starting at or after [lo]. *)
Fixpoint ordered (lo : nat) (runs : list run) : Prop :=
  match runs with
  | [] => True
  | r :: rest => lo <= rstart r /\ rstart r < rend r /\ ordered (rend r) rest
  end.

(** No two consecutive runs touch with equal formats. *)
Fixpoint maximal (runs : list run) : Prop :=
  match runs with
  | r :: ((r' :: _) as rest) =>
      ~ (rend r = rstart r' /\ rfmt r = rfmt r') /\ maximal rest
  | _ => True
  end.

(** Every run edge satisfies [P]. *)
Definition edges (P : nat -> Prop) (runs : list run) : Prop :=
  Forall (fun r => P (rstart r) /\ P (rend r)) runs.

(** A byte offset of [text] between two characters. *)
Definition on_char_edge (text : str) (k : nat) : Prop :=
  exists i, i <= length text /\ k = boff text i.

(** The invariant of format_runs.rs:113-124 plus alignment on characters. *)
Definition wf_runs (text : str) (runs : list run) : Prop :=
  ordered 0 runs /\ maximal runs /\ edges (on_char_edge text) runs.

(** Images: offsets ascending and on character edges. *)
Fixpoint ascending (images : list image) : Prop :=
  match images with
  | i :: ((j :: _) as rest) => ioff i <= ioff j /\ ascending rest
  | _ => True
  end.
