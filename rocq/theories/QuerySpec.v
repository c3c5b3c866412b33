(** Specifications for the queries. *)
From Verif Require Import Base FormatRunsModel FormatRunsSpec RopeModel DocModel DocSpec QueryModel.

(** Words of a text: places where a character that is not white space follows
    the start of the text or white space. *)
Fixpoint word_starts (after_space : bool) (s : str) : nat :=
  match s with
  | [] => 0
  | c :: s' =>
      if is_whitespace c then word_starts true s'
      else (if after_space then 1 else 0) + word_starts false s'
  end.
Definition count_words (s : str) : nat := word_starts true s.

(** What a fragment shows. *)
Definition frag_items (f : fragment) : list item :=
  match f with FText t g _ _ _ => map (fun c => Chr c g) t | FImage _ _ _ => [] end.
Definition frag_images_of (f : fragment) : list image :=
  match f with FText _ _ _ _ _ => [] | FImage i _ _ => [i] end.

(** The fragments of block [b] laid out one after the other, from character
    offset [off] and byte [byte] to [off'] and [byte']: no gap, no overlap, no
    empty text; an image takes one character offset and no byte. *)
Fixpoint layout (b : id) (off byte : nat) (fs : list fragment) (off' byte' : nat) : Prop :=
  match fs with
  | [] => off = off' /\ byte = byte'
  | FText t _ o n e :: rest =>
      t <> [] /\ o = off /\ n = length t /\ e = synth_element_id b byte
      /\ layout b (off + length t) (byte + blen t) rest off' byte'
  | FImage i o e :: rest =>
      o = off /\ ioff i = byte /\ e = synth_element_id b (ioff i)
      /\ layout b (off + 1) byte rest off' byte'
  end.

(** What a segment shows. *)
Definition seg_items (s : segment) : list item :=
  match s with SegText t f => map (fun c => Chr c f) t | SegImage _ => [] end.
