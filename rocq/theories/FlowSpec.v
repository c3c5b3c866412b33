(** What a snapshot of a paragraph should say. *)
From Verif Require Import Base FormatRunsModel RopeModel DocModel DocSpec QueryModel QuerySpec ListDocModel PropSpec FlowModel.

(** The snapshot describes paragraph [k] of the document: where it starts, how long it
    is, its text, and fragments that cover it with its formats. *)
Definition describes (its : list item) (k : nat) (s : bsnap) : Prop :=
  exists para, nth_error (paragraphs its) k = Some para
   /\ sn_pos s = para_start k its /\ sn_len s = length para /\ sn_text s = plain para
   /\ flat_map frag_items (sn_frags s) = para /\ flat_map frag_images_of (sn_frags s) = []
   /\ layout (sn_id s) 0 0 (sn_frags s) (length para) (blen (plain para)).
(** The texts with a line feed between them. *)
Fixpoint joined (ts : list str) : str :=
  match ts with [] => [] | [t] => t | t :: rest => t ++ NL :: joined rest end.
