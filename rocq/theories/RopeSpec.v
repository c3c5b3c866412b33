(** What the rope and index mean: an ordered list of segments, one per block
    or table anchor, each with its own text. *)
From Verif Require Import Base RopeModel.

Notation seg := (marker * str)%type.

(** Texts separated by a newline. *)
Fixpoint join (ts : list str) : str :=
  match ts with
  | [] => []
  | [t] => t
  | t :: rest => t ++ NL :: join rest
  end.

(** Byte start of each segment in the joined text. *)
Fixpoint starts (off : nat) (l : list seg) : list (marker * nat) :=
  match l with
  | [] => []
  | (m, t) :: rest => (m, off) :: starts (off + blen t + 1) rest
  end.

(** Position of a marker. *)
Fixpoint seg_pos (m : marker) (l : list seg) : option nat :=
  match l with
  | [] => None
  | (k, _) :: rest => if marker_eqb m k then Some 0 else option_map S (seg_pos m rest)
  end.

Definition count_anchors (l : list seg) : nat :=
  length (filter (fun s => is_anchor_marker (fst s)) l).

(** The store holds exactly the segments [l], in order. *)
Record rep (st : rstore) (l : list seg) : Prop := {
  rep_rope : rope st = join (map snd l);
  rep_entries : entries (index st) = starts 0 l;
  rep_total : total (index st) = blen (rope st);
  rep_midx : forall m, midx (index st) m = seg_pos m l;
  rep_anchors : anchor_count (index st) = count_anchors l;
  rep_nodup : NoDup (map fst l)
}.
