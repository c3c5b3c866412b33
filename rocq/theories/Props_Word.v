(** C54: words. *)
From Verif Require Import Base FormatRunsModel RopeModel DocModel DocSpec HistModel HistSpec QueryModel QuerySpec PropSpec
  DocTheorems QueryTheorems DocRefuted CursorModel CursorSpec CursorFacts CursorTheorems WordModel WordSpec WordFacts WordTheorems WordRefuted.

(** C54. The words of a document are apart, each is inside the document and holds
    a letter or digit, and every letter or digit is in one. *)
Theorem words_of_a_document : forall bounds alnum d its,
  word_laws bounds alnum -> reach d -> doc_items d = Ok its ->
  (forall s e, In (s, e) (words bounds alnum its) -> s < e <= length its
     /\ exists q c, s <= q < e /\ nth_error (plain its) q = Some c /\ alnum c = true)
  /\ (forall q c, nth_error (plain its) q = Some c -> alnum c = true ->
       exists s e, In (s, e) (words bounds alnum its) /\ s <= q < e)
  /\ (forall s e s' e', In (s, e) (words bounds alnum its) -> In (s', e') (words bounds alnum its) -> s < s' -> e <= s')
  /\ (forall s e e', In (s, e) (words bounds alnum its) -> In (s, e') (words bounds alnum its) -> e = e').
Proof. intros B A d its L R. exact (words_theorem B A L its d (reach_sound d R)). Qed.
Print Assumptions words_of_a_document.
Example words_of_a_document_case :
  word_laws small_bounds small_alnum /\ reach three_words
  /\ (exists its, doc_items three_words = Ok its /\ words small_bounds small_alnum its = [(0, 2); (3, 4); (8, 9)]).
Proof. split; [apply small_laws|]. split; [repeat constructor|]. eexists. split; vm_compute; reflexivity. Qed.

(** Selecting the word at a cursor inside a word selects that word, whole.
    Otherwise nothing is selected, or the word that ends at the cursor, or, from
    the end of a paragraph, the first word of the next one. *)
Theorem select_word_partial : forall bounds alnum d its c,
  word_laws bounds alnum -> reach d -> doc_items d = Ok its -> c_pos c <= length its ->
  exists s e, select_word bounds alnum d c = Ok (mk_cursor e s)
   /\ ((In (s, e) (words bounds alnum its) /\ s <= c_pos c < e)
       \/ (forall s' e', In (s', e') (words bounds alnum its) -> ~ (s' <= c_pos c < e'))
          /\ (s = c_pos c /\ e = c_pos c
              \/ In (s, e) (words bounds alnum its) /\ (e = c_pos c \/ text_end its (c_pos c) /\ s = S (c_pos c)))).
Proof. intros B A d its c L R. exact (select_theorem B A L d its c (reach_sound d R)). Qed.
Print Assumptions select_word_partial.
Example select_word_case :
  word_laws small_bounds small_alnum /\ reach three_words
  /\ select_word small_bounds small_alnum three_words (mk_cursor 1 5) = Ok (mk_cursor 2 0)
  /\ select_word small_bounds small_alnum three_words (mk_cursor 9 9) = Ok (mk_cursor 9 8).
Proof. split; [apply small_laws|]. split; [repeat constructor|]. split; vm_compute; reflexivity. Qed.

(** A cursor at the end of a word, which is the end of a paragraph, selects a word
    of the next paragraph. *)
Theorem select_word_refuted :
  exists its p s e, counted two_paras /\ doc_items two_paras = Ok its
   /\ In (0, p) (words small_bounds small_alnum its)
   /\ select_word small_bounds small_alnum two_paras (mk_cursor p p) = Ok (mk_cursor e s) /\ p < s < e.
Proof. exact word_select_refuted_w. Qed.
Print Assumptions select_word_refuted.

(** At the end of a word the word is selected only if it is the last one of its
    paragraph. *)
Theorem select_word_end_refuted :
  exists d its p, counted d /\ doc_items d = Ok its /\ In (0, p) (words small_bounds small_alnum its)
   /\ select_word small_bounds small_alnum d (mk_cursor p p) = Ok (mk_cursor p p).
Proof. exact word_end_refuted_w. Qed.
Print Assumptions select_word_end_refuted.

(** The move to the left ends at the last start of a word before the cursor, or
    at the start of the document; it moves, unless the cursor is at the start of
    a paragraph that begins with a word and follows a paragraph with text. *)
Theorem word_left_partial : forall bounds alnum d its p,
  word_laws bounds alnum -> reach d -> doc_items d = Ok its -> p <= length its ->
  ~ (text_end its (p - 1) /\ exists e, In (p, e) (words bounds alnum its)) ->
  exists q, word_left bounds alnum d p = Ok q /\ (0 < p -> q < p) /\ (q = 0 \/ exists e, In (q, e) (words bounds alnum its))
   /\ (forall s e, In (s, e) (words bounds alnum its) -> s < p -> s <= q).
Proof. intros B A d its p L R. exact (left_theorem B A L d its p (reach_sound d R)). Qed.
Print Assumptions word_left_partial.
Example word_left_case :
  word_laws small_bounds small_alnum /\ reach three_words
  /\ word_left small_bounds small_alnum three_words 8 = Ok 3
  /\ word_left small_bounds small_alnum three_words 2 = Ok 0.
Proof. split; [apply small_laws|]. split; [repeat constructor|]. split; vm_compute; reflexivity. Qed.

(** There the move to the left does not move, although a word is before it. *)
Theorem word_left_refuted :
  exists its p, counted two_paras /\ doc_items two_paras = Ok its /\ 0 < p /\ p <= length its
   /\ In (0, 2) (words small_bounds small_alnum its) /\ word_left small_bounds small_alnum two_paras p = Ok p.
Proof. exact word_left_refuted_w. Qed.
Print Assumptions word_left_refuted.

(** The move to the right passes over no end of a word. It ends at the end of a
    word, at an underscore that is in no word, or 64 characters further or at
    the end of the document with no letter in between. It moves, unless the
    cursor is at the end of the document or before such an underscore. *)
Theorem word_right_partial : forall bounds alnum d its p,
  word_laws bounds alnum -> counted d -> doc_items d = Ok its -> p <= length its ->
  exists q, word_right bounds alnum d p = Ok q /\ p <= q <= length its
   /\ (p < length its -> ~ lone_underscore bounds alnum its p -> p < q)
   /\ (forall s e, In (s, e) (words bounds alnum its) -> p < e -> q <= e)
   /\ ((exists s, In (s, q) (words bounds alnum its)) \/ lone_underscore bounds alnum its q
       \/ (q = Nat.min (p + 64) (length its)
           /\ forall i c, p <= i < q -> nth_error (plain its) i = Some c -> word_char alnum c = false)).
Proof. intros B A d its p L. exact (right_theorem B A L d its p). Qed.
Print Assumptions word_right_partial.
Example word_right_case :
  word_laws small_bounds small_alnum /\ counted three_words
  /\ word_right small_bounds small_alnum three_words 2 = Ok 4
  /\ word_right small_bounds small_alnum two_paras 2 = Ok 5.
Proof. split; [apply small_laws|]. split; [apply three_words_counted|]. split; vm_compute; reflexivity. Qed.

(** Before an underscore that is in no word the move to the right does not move. *)
Theorem word_right_refuted :
  exists d its, counted d /\ doc_items d = Ok its /\ In (2, 3) (words small_bounds small_alnum its)
   /\ word_right small_bounds small_alnum d 0 = Ok 0.
Proof. exact word_right_refuted_w. Qed.
Print Assumptions word_right_refuted.

(** A move by a word never fails; the cursor ends inside the document at the first
    place between characters at or after the edge of the word, and the answer
    says whether it moved. *)
Theorem move_by_word_partial : forall bounds alnum G d its c (right keep : bool),
  word_laws bounds alnum -> segmentation G -> counted d -> doc_items d = Ok its -> in_range its c ->
  exists t q c', (if right then word_right bounds alnum d (c_pos c) else word_left bounds alnum d (c_pos c)) = Ok t
   /\ move_word bounds alnum G d c right keep = Ok (c', negb (q =? c_pos c)) /\ c_pos c' = q /\ in_range its c'
   /\ (keep = false -> c_anchor c' = q)
   /\ In q (stops G its) /\ Nat.min t (length its) <= q <= length its
   /\ (forall q', In q' (stops G its) -> Nat.min t (length its) <= q' -> q <= q').
Proof. intros B A G d its c right keep L. exact (move_word_theorem B A L G d its c right keep). Qed.
Print Assumptions move_by_word_partial.
Example move_by_word_case :
  word_laws small_bounds small_alnum /\ counted three_words
  /\ move_word small_bounds small_alnum marks three_words (mk_cursor 0 0) true true = Ok (mk_cursor 2 0, true).
Proof. split; [apply small_laws|]. split; [apply three_words_counted|]. vm_compute. reflexivity. Qed.
