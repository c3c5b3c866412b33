(** Words: the small instance satisfies the laws; witnesses. *)
From Verif Require Import Base BaseFacts FormatRunsModel FormatRunsSpec RopeModel DocModel DocSpec HistModel HistSpec QueryModel QuerySpec PropSpec
  DocRefuted CursorModel CursorSpec WordModel WordSpec.

Lemma small_laws : word_laws small_bounds small_alnum.
Proof.
  split; [|reflexivity]. induction t as [|c t IH]; [reflexivity|]. cbn [small_bounds].
  destruct (small_bounds t) as [|[|x w] more]; cbn [concat app] in *; try (now rewrite <- IH).
  destruct (_ && _); cbn [concat app]; now rewrite <- IH.
Qed.

(** "ab", a line break, "cd"; the words are (0, 2) and (3, 5). *)
Lemma word_left_refuted_w :
  exists its p, counted two_paras /\ doc_items two_paras = Ok its /\ 0 < p /\ p <= length its
   /\ In (0, 2) (words small_bounds small_alnum its) /\ word_left small_bounds small_alnum two_paras p = Ok p.
Proof. eexists _, 3. split; [apply two_paras_counted|]. split; [vm_compute; reflexivity|]. split; [lia|]. vm_compute. repeat split; try lia; auto. Qed.

Lemma word_select_refuted_w :
  exists its p s e, counted two_paras /\ doc_items two_paras = Ok its
   /\ In (0, p) (words small_bounds small_alnum its)
   /\ select_word small_bounds small_alnum two_paras (mk_cursor p p) = Ok (mk_cursor e s) /\ p < s < e.
Proof. eexists _, 2, 3, 5. split; [apply two_paras_counted|]. split; [vm_compute; reflexivity|]. vm_compute. repeat split; try lia; auto. Qed.

(** The end of a word that is followed by a space and another word. *)
Definition three_words : doc := import_plain_text new_document [97; 98; 32; 99; 95; 32; 95; 32; 100]%N.
Lemma three_words_counted : counted three_words. Proof. repeat constructor. Qed.
Lemma word_end_refuted_w :
  exists d its p, counted d /\ doc_items d = Ok its /\ In (0, p) (words small_bounds small_alnum its)
   /\ select_word small_bounds small_alnum d (mk_cursor p p) = Ok (mk_cursor p p).
Proof. eexists three_words, _, 2. split; [apply three_words_counted|]. split; [vm_compute; reflexivity|]. vm_compute. auto. Qed.

(** An underscore that stands alone: "_ a". *)
Definition underscore_first : doc := import_plain_text new_document [95; 32; 97]%N.
Lemma underscore_counted : counted underscore_first. Proof. repeat constructor. Qed.
Lemma word_right_refuted_w :
  exists d its, counted d /\ doc_items d = Ok its /\ In (2, 3) (words small_bounds small_alnum its)
   /\ word_right small_bounds small_alnum d 0 = Ok 0.
Proof. eexists underscore_first, _. split; [apply underscore_counted|]. split; [vm_compute; reflexivity|]. vm_compute. auto. Qed.
