(** Common vocabulary: characters, byte lengths, result values.

    Citations are relative to /repo. *)
From Coq Require Export List Arith ZArith NArith Lia Bool.
From Coq Require Export ZifyBool ZifyNat ZifyN.
Export ListNotations.

(** Outcome of a Rust call: [Ok] value, [Err] (an [anyhow::Error]; the message
    is dropped), or [Panic] (unwrap/expect failure, slice out of bounds,
    integer underflow). *)
Inductive res (A : Type) : Type :=
| Ok : A -> res A
| Err : res A
| Panic : res A.
Arguments Ok {A} _.
Arguments Err {A}.
Arguments Panic {A}.

Definition bind {A B} (x : res A) (f : A -> res B) : res B :=
  match x with Ok a => f a | Err => Err | Panic => Panic end.

Notation "'let!' x := e 'in' k" := (bind e (fun x => k))
  (at level 200, x pattern, e at level 100, k at level 200, right associativity).

(** [Option::ok_or_else(..)?]: a missing value is an error. *)
Definition ok_or {A} (x : option A) : res A :=
  match x with Some a => Ok a | None => Err end.

(** [Option::unwrap()]: a missing value is a panic. *)
Definition unwrap {A} (x : option A) : res A :=
  match x with Some a => Ok a | None => Panic end.

(** A Rust [char] is a Unicode code point. *)
Definition char := N.

(** A Rust [String]/[&str]/[ropey::Rope] is the list of its characters; the
    byte representation is recovered through [utf8_len]. *)
Notation str := (list char).

Definition NL : char := 10%N.
Definition CR : char := 13%N.
(** U+FFFC OBJECT REPLACEMENT CHARACTER. *)
Definition FFFC : char := 65532%N.

(** [char::len_utf8]. *)
Definition utf8_len (c : char) : nat :=
  if (c <? 128)%N then 1
  else if (c <? 2048)%N then 2
  else if (c <? 65536)%N then 3
  else 4.

(** [str::len] / [Rope::len_bytes]. *)
Fixpoint blen (s : str) : nat :=
  match s with
  | [] => 0
  | c :: s' => utf8_len c + blen s'
  end.

(** Byte offset of the [i]-th character ([Rope::char_to_byte] without the
    bounds check; saturates at the end). *)
Definition boff (s : str) (i : nat) : nat := blen (firstn i s).

(** [Rope::char_to_byte]: panics past the end. *)
Definition char_to_byte (s : str) (i : nat) : res nat :=
  if i <=? length s then Ok (boff s i) else Panic.

(** [Rope::byte_to_char]: index of the character that contains byte [b]
    (rounding down inside a character); [b = len] gives [len_chars]. *)
Fixpoint b2c (s : str) (b : nat) : nat :=
  match s with
  | [] => 0
  | c :: s' => if b <? utf8_len c then 0 else S (b2c s' (b - utf8_len c))
  end.
Definition byte_to_char (s : str) (b : nat) : res nat :=
  if b <=? blen s then Ok (b2c s b) else Panic.

(** A byte offset that falls between two characters (or at either end):
    [str::is_char_boundary]. *)
Definition is_boundary (s : str) (b : nat) : bool :=
  (b <=? blen s) && (boff s (b2c s b) =? b).

(** [Rope::insert(char_idx, text)]: panics past the end. *)
Definition rope_insert (s : str) (i : nat) (t : str) : res str :=
  if i <=? length s then Ok (firstn i s ++ t ++ skipn i s) else Panic.

(** [Rope::remove(i..j)]: panics on a reversed or out-of-range interval. *)
Definition rope_remove (s : str) (i j : nat) : res str :=
  if (i <=? j) && (j <=? length s) then Ok (firstn i s ++ skipn j s) else Panic.

(** [Rope::byte_slice(a..b)] / [&s[a..b]]: panics unless both ends are
    character boundaries in order. *)
Definition byte_slice (s : str) (a b : nat) : res str :=
  if (a <=? b) && is_boundary s a && is_boundary s b
  then Ok (firstn (b2c s b - b2c s a) (skipn (b2c s a) s))
  else Panic.
