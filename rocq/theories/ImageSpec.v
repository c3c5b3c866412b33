(** Specification for inserted images. *)
From Verif Require Import Base FormatRunsModel RopeModel DocModel DocSpec QueryModel.

(** The characters up to the next paragraph break. *)
Fixpoint rest_of_line (its : list item) : list item :=
  match its with Chr c f :: rest => Chr c f :: rest_of_line rest | _ => [] end.
(** A character without formatting. *)
Definition plain_format (x : item) : Prop := match x with Chr _ f => f = cfmt_default | Brk => True end.
(** Positions a fragment takes. *)
Definition frag_length (f : fragment) : nat := match f with FText _ _ _ n _ => n | FImage _ _ _ => 1 end.
