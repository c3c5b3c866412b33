(** Words: the word around a cursor and the moves by words.

    Source: crates/public_api/src/cursor.rs, flat documents. The Unicode tables
    are parameters: the segmentation of a text at word bounds
    ([split_word_bounds]) and the alphanumeric characters
    ([char::is_alphanumeric]). *)
From Verif Require Import Base FormatRunsModel RopeModel DocModel HistModel QueryModel CursorModel.

Section Words.
Variable bounds : str -> list str.
Variable alnum : char -> bool.

(** unicode_segmentation's [unicode_word_indices]: the pieces between word
    bounds that hold an alphanumeric character, with their byte offsets. *)
Fixpoint word_indices_go (o : nat) (ws : list str) : list (nat * str) :=
  match ws with
  | [] => []
  | w :: rest =>
      let more := word_indices_go (o + blen w) rest in
      if existsb alnum w then (o, w) :: more else more
  end.
Definition word_indices (t : str) : list (nat * str) := word_indices_go 0 (bounds t).

(** cursor.rs:2432-2449: the single pass over the words; [ls], [le] are the
    last word seen. The answer is relative to the paragraph. *)
Fixpoint word_pass (t : str) (off ls le : nat) (ws : list (nat * str)) : res (option (nat * nat)) :=
  match ws with
  | [] => Ok (if (off =? le) && (ls <? le) then Some (ls, le) else None)
  | (o, w) :: rest =>
      let! before := byte_slice t 0 o in
      let s := length before in
      let e := s + length w in
      if (s <=? off) && (off <? e) then Ok (Some (s, e)) else word_pass t off s e rest
  end.

(** cursor.rs:2400-2454 [find_word_boundaries]. *)
Definition find_word_boundaries (d : doc) (pos : nat) : res (nat * nat) :=
  match block_info d pos with
  | Panic => Panic
  | Err => Ok (pos, pos)
  | Ok (start, len) =>
      if len =? 0 then Ok (pos, pos)
      else
        match text_info d start len with
        | Panic => Panic
        | Err => Ok (pos, pos)
        | Ok t =>
            let! r := word_pass t (pos - start) 0 0 (word_indices t) in
            Ok (match r with Some (s, e) => (start + s, start + e) | None => (pos, pos) end)
        end
  end.

(** cursor.rs:2170-2178: the first letter, digit or underscore; U+005F is 95. *)
Fixpoint first_word_char (i : nat) (t : str) : option nat :=
  match t with
  | [] => None
  | c :: rest => if alnum c || (c =? 95)%N then Some i else first_word_char (S i) rest
  end.

(** cursor.rs:2150-2183, [NextWord], [EndOfWord] and [WordRight]. *)
Definition word_right (d : doc) (pos : nat) : res nat :=
  let! (_, end_) := find_word_boundaries d pos in
  if end_ =? pos then
    let! max := or_default (max_cursor_position d) 0 in
    let scan := Nat.min (max - pos) 64 in
    if scan =? 0 then Ok pos
    else
      match text_info d pos scan with
      | Panic => Panic
      | Err => Ok (pos + scan)
      | Ok t =>
          match first_word_char 0 t with
          | Some i => let! (_, e) := find_word_boundaries d (pos + i) in Ok e
          | None => Ok (pos + scan)
          end
      end
  else Ok end_.

(** cursor.rs:2184-2208, [PreviousWord], [StartOfWord] and [WordLeft]; the loop
    runs from [search] down to 0. *)
Fixpoint word_back (d : doc) (search : nat) : res nat :=
  let! (ws, we) := find_word_boundaries d search in
  if ws <? we then Ok ws
  else match search with 0 => Ok 0 | S k => word_back d k end.
Definition word_left (d : doc) (pos : nat) : res nat :=
  let! (start, _) := find_word_boundaries d pos in
  if start <? pos then Ok start
  else match pos with 0 => Ok 0 | S k => word_back d k end.

(** cursor.rs:377-384 [select] of the word under the cursor. *)
Definition select_word (d : doc) (c : cursor) : res cursor :=
  let! (s, e) := find_word_boundaries d (c_pos c) in Ok (mk_cursor e s).

(** cursor.rs:334-342 [move_position] for the word moves, whose count is not
    used. *)
Definition move_word (graphemes : str -> list str) (d : doc) (c : cursor) (right keep : bool) : res (cursor * bool) :=
  let! target := (if right then word_right d (c_pos c) else word_left d (c_pos c)) in
  let! c' := set_position graphemes d c target keep in
  Ok (c', negb (c_pos c' =? c_pos c)).
End Words.
