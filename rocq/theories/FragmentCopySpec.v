(** Specification of a copy. *)
From Verif Require Import Base FormatRunsModel FormatRunsSpec RopeModel DocModel DocSpec HistModel
  QueryModel QuerySpec ListModel ListDocModel FragmentModel FragmentText FragmentSpec PropSpec.

(** The items between places [n] and [m]. *)
Definition between (n m : nat) (its : list item) : list item := firstn (m - n) (skipn n its).

(** The paragraphs of the selection [n..m]. A break at its very end is not
    followed by an empty paragraph. *)
Definition ends_with_break (m : nat) (its : list item) : bool :=
  match nth_error its (m - 1) with Some Brk => true | _ => false end.
(** The end of the text that is copied. *)
Definition copied_end (m : nat) (its : list item) : nat := if ends_with_break m its then m - 1 else m.
Definition copied (n m : nat) (its : list item) : list (list item) :=
  let ps := paragraphs (between n m its) in
  if ends_with_break m its then removelast ps else ps.

(** Length of paragraph [k]. *)
Definition para_length (k : nat) (its : list item) : nat :=
  match nth_error (paragraphs its) k with Some p => length p | None => 0 end.
(** Paragraph [k] is in the selection [n..m] with the break that ends it, or is
    the last one and is in the selection. *)
Definition whole_para (n m : nat) (its : list item) (k : nat) : Prop :=
  let s := para_start k its in
  let e := s + para_length k its in
  n <= s /\ (e < m \/ e = m /\ S k = length (paragraphs its)).

(** A paragraph without a list and without paragraph format, except that tab
    positions do not count and an indent of 0 is none. *)
Definition without_format (fb : fblock) : Prop :=
  fb_list fb = None
  /\ exists tabs i ti, (i = None \/ i = Some 0%Z) /\ (ti = None \/ ti = Some 0%Z)
     /\ fb_fmt fb = mk_bfmt None None None None None None i ti None tabs None None None None None None.
