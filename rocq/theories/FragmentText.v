(** Fragments of text, and documents whose stored positions follow the text. *)
From Verif Require Import Base FormatRunsModel RopeModel DocModel QueryModel FragmentModel.

(** A paragraph of a fragment that holds text only: its text is the text of its
    pieces. This is what a copy of text and [from_plain_text] produce. *)
Definition is_text (s : segment) : Prop := match s with SegText _ _ => True | SegImage _ => False end.
Definition text_only (fb : fblock) : Prop :=
  Forall is_text (fb_elems fb) /\ fb_text fb = flat_map segment_text (fb_elems fb).

(** The stored positions of the paragraphs do not decrease along the document. *)
Fixpoint ascending (l : list Z) : Prop :=
  match l with
  | a :: ((b :: _) as rest) => (a <= b)%Z /\ ascending rest
  | _ => True
  end.
Definition in_order (d : doc) : Prop := ascending (map b_pos (get_multi d (d_order d))).

(** A fragment of one paragraph without paragraph formatting. *)
Definition single_inline (fbs : list fblock) : Prop :=
  exists fb, fbs = [fb] /\ is_inline_only fb = true.
