(** What searching and replacing mean, on the text and on the items of a
    document. *)
From Verif Require Import Base DocSpec SearchModel.

(** The query stands at position [p] of the text. *)
Definition occurs (query text : str) (p : nat) : Prop :=
  exists l r, text = l ++ query ++ r /\ length l = p.

(** A place where a word starts or ends, or an end of the text. *)
Definition at_word_edge (words : str -> list (nat * nat)) (text : str) (k : nat) : Prop :=
  k = 0 \/ k = length text \/ exists s n, In (s, n) (words text) /\ (k = s \/ k = s + n).

(** The positions are those where [P] holds, in increasing order, all with the
    same length. *)
Inductive increasing : list nat -> Prop :=
| inc_nil : increasing []
| inc_cons p ps : (forall q, In q ps -> p < q) -> increasing ps -> increasing (p :: ps).
Definition reports (P : nat -> Prop) (n : nat) (ms : list (nat * nat)) : Prop :=
  increasing (map fst ms) /\ (forall p, In p (map fst ms) <-> P p) /\ (forall m, In m ms -> snd m = n).

(** The first position from [from] on where [P] holds, or the last one before. *)
Definition next_from (P : nat -> Prop) (from : nat) (r : option nat) : Prop :=
  match r with
  | Some p => P p /\ from <= p /\ forall q, P q -> from <= q -> p <= q
  | None => forall q, P q -> q < from
  end.
Definition last_before (P : nat -> Prop) (from : nat) (r : option nat) : Prop :=
  match r with
  | Some p => P p /\ p < from /\ forall q, P q -> q < from -> q <= p
  | None => forall q, P q -> from <= q
  end.

(** Ranges of positions, from left to right, that do not overlap and are not
    empty. *)
Fixpoint apart (from : nat) (ms : list (nat * nat)) : Prop :=
  match ms with
  | [] => True
  | (p, n) :: rest => from <= p /\ 0 < n /\ apart (p + n) rest
  end.

(** Ranges of a document that can be replaced together. *)
Definition good_ranges (its : list item) (ms : list (nat * nat)) : Prop :=
  apart 0 ms /\ Forall (fun m => fst m + snd m <= length its) ms.

(** A range inside one paragraph: no break in it. *)
Definition in_paragraph (its : list item) (m : nat * nat) : bool :=
  negb (existsb is_break (firstn (snd m) (skipn (fst m) its))).

(** Replace ranges that do not overlap, from the last to the first; the
    replacement takes the format of the character before the range. *)
Definition spec_replace (r : str) (ms : list (nat * nat)) (its : list item) : list item :=
  fold_right (fun m its => spec_insert (fst m) r (spec_delete (fst m) (fst m + snd m) its)) its ms.

(** The same on plain text: the text between the ranges is kept, and the ranges
    become [r]. [from] is where the rest of the text starts. *)
Fixpoint rewrite (r : str) (from : nat) (ms : list (nat * nat)) (text : str) : str :=
  match ms with
  | [] => text
  | (p, n) :: rest => firstn (p - from) text ++ r ++ rewrite r (p + n) rest (skipn (p - from + n) text)
  end.

(** The query stands at [p], and if whole words are asked for, between edges of
    words. *)
Definition hits (g : engines) (o : find_options) (text query : str) (p : nat) : Prop :=
  query <> [] /\ occurs query text p
  /\ (whole_word o = true -> at_word_edge (words g) text p /\ at_word_edge (words g) text (p + length query)).

(** The byte range [(s, e)] of a text covers the characters [m]. *)
Definition covers (text : str) (p n : nat) (x : nat * nat) : Prop :=
  exists a m b, text = a ++ m ++ b /\ x = (blen a, blen a + blen m) /\ p = length a /\ n = length m.

(** The same when two characters are the same if [lc] makes them equal. *)
Definition hits_folded (g : engines) (o : find_options) (lc : char -> char) (text query : str) (p : nat) : Prop :=
  query <> []
  /\ (exists w, occurs w text p /\ map lc w = map lc query)
  /\ (whole_word o = true -> at_word_edge (words g) text p /\ at_word_edge (words g) text (p + length query)).

(** A literal query whose occurrences do not overlap. *)
Definition never_overlaps (query text : str) : Prop :=
  forall p q, occurs query text p -> occurs query text q -> p < q -> p + length query <= q.

(** Options and engines for examples. *)
Definition plain_find : find_options := mk_options true false false.
Definition fold_find : find_options := mk_options false false false.
Definition no_engines : engines := mk_engines (fun s => s) (fun _ => []) (fun _ _ _ => None).
