(** Words of a document, seen from outside. *)
From Verif Require Import Base FormatRunsModel FormatRunsSpec DocModel DocSpec HistModel QuerySpec PropSpec.

Section Words.
Variable bounds : str -> list str.
Variable alnum : char -> bool.

(** What is asked of the segmentation: the pieces make up the text, and a line
    feed is not a letter. *)
Record word_laws : Prop := {
  bounds_concat : forall t, concat (bounds t) = t;
  newline_no_letter : alnum NL = false
}.

(** The words of a list of pieces: those with a letter or digit; start and end. *)
Fixpoint words_of (start : nat) (pieces : list str) : list (nat * nat) :=
  match pieces with
  | [] => []
  | w :: rest =>
      let more := words_of (start + length w) rest in
      if existsb alnum w then (start, start + length w) :: more else more
  end.
(** The words of a document, paragraph by paragraph, as positions. *)
Fixpoint words_from (start : nat) (ps : list (list item)) : list (nat * nat) :=
  match ps with
  | [] => []
  | p :: rest => words_of start (bounds (plain p)) ++ words_from (start + length p + 1) rest
  end.
Definition words (its : list item) : list (nat * nat) := words_from 0 (paragraphs its).

(** The letters, digits and underscores, where a move to the right stops. *)
Definition word_char (c : char) : bool := alnum c || (c =? 95)%N.
(** An underscore that is in no word. *)
Definition lone_underscore (its : list item) (p : nat) : Prop :=
  nth_error (plain its) p = Some 95%N /\ forall s e, In (s, e) (words its) -> ~ (s <= p < e).
(** The break after a paragraph that is not empty. *)
Definition text_end (its : list item) (p : nat) : Prop :=
  nth_error its p = Some Brk /\ exists q, p = S q /\ nth_error its q <> Some Brk /\ q < length its.
End Words.

(** A small instance: the letters a-z and the digits, in maximal runs. *)
Definition small_alnum (c : char) : bool := ((97 <=? c) && (c <=? 122) || (48 <=? c) && (c <=? 57))%N.
Fixpoint small_bounds (t : str) : list str :=
  match t with
  | [] => []
  | c :: rest =>
      match small_bounds rest with
      | (x :: w) :: more =>
          if small_alnum c && small_alnum x then (c :: x :: w) :: more else [c] :: (x :: w) :: more
      | r => [c] :: r
      end
  end.
