(** Concrete documents and cursors, and counterexamples. *)
From Verif Require Import Base FormatRunsModel RopeModel DocModel DocSpec HistModel HistSpec QueryModel QuerySpec PropSpec
  DocTheorems QueryTheorems DocRefuted DiffModel DiffSpec CursorModel CursorSpec CursorFacts CursorTheorems.

(** An e with an acute accent, an a, a break, a b. *)
Definition accented : doc := import_plain_text new_document [101; 769; 97; 10; 98]%N.
Lemma accented_counted : counted accented.
Proof. apply counted_import. constructor. Qed.
Definition accented_items : list item :=
  match doc_items accented with Ok its => its | _ => [] end.
Lemma accented_doc_items : doc_items accented = Ok accented_items.
Proof. vm_compute. reflexivity. Qed.
Lemma accented_stops : stops marks accented_items = [0; 2; 3; 4; 5].
Proof. vm_compute. reflexivity. Qed.
Definition three_cursors : list cursor := [mk_cursor 1 3; mk_cursor 2 2; mk_cursor 5 4].

Lemma cursors_import_refuted_w :
  exists d cs its, counted d /\ csteps marks (two_paras, [mk_cursor 5 5]) [OpImport [97%N]] = Ok (d, cs)
   /\ doc_items d = Ok its /\ ~ Forall (in_range its) cs.
Proof.
  eexists (import_plain_text two_paras [97%N]), _, _. split; [apply counted_import; apply two_paras_reach|].
  split; [reflexivity|]. split; [vm_compute; reflexivity|]. intros H. inversion H as [|? ? [H1 _] _]. cbn in H1. lia.
Qed.
Lemma cursor_at_refuted_w :
  exists cs its, csteps marks (two_paras, []) [OpNew 9] = Ok (two_paras, cs)
   /\ doc_items two_paras = Ok its /\ ~ Forall (in_range its) cs.
Proof.
  eexists _, _. split; [vm_compute; reflexivity|]. split; [vm_compute; reflexivity|].
  intros H. inversion H as [|? ? [H1 _] _]. cbn in H1. lia.
Qed.
Lemma block_start_refuted_w :
  exists its p q, counted two_paras /\ doc_items two_paras = Ok its /\ nth_error its p = Some Brk
   /\ resolve_move marks two_paras p MBlockStart 1 = Ok q /\ p < q.
Proof.
  eexists _, 2, 3. split; [apply two_paras_counted|]. split; [vm_compute; reflexivity|]. split; [reflexivity|].
  split; [vm_compute; reflexivity|lia].
Qed.
Lemma movement_new_refuted_w :
  exists es d its, Forall edit_ok es /\ run_edits new_document es = Ok d /\ doc_items d = Ok its
   /\ In 2 (stops marks its) /\ In 3 (stops marks its) /\ next_grapheme marks d 2 = Ok 2.
Proof.
  exists [EInsert 0 0 [97; 98]%N; EBreak 1 1], (match run_edits new_document [EInsert 0 0 [97; 98]%N; EBreak 1 1] with Ok d => d | _ => new_document end).
  eexists. split; [repeat constructor|]. split; [vm_compute; reflexivity|]. split; [vm_compute; reflexivity|].
  split; [vm_compute; auto 10|]. split; [vm_compute; auto 10|]. vm_compute. reflexivity.
Qed.

(** From "b" in "a", two empty paragraphs and "b", the previous paragraph is
    skipped. *)
Definition gap_doc : doc := import_plain_text new_document [97; 10; 10; 10; 98]%N.
Lemma previous_block_refuted_w :
  exists d its, counted d /\ doc_items d = Ok its /\ owner its 4 = 3
   /\ resolve_move marks d 4 MPrevBlock 1 = Ok (para_start 1 its) /\ para_start 1 its < para_start 2 its.
Proof.
  exists gap_doc. eexists. split; [apply counted_import; constructor|]. split; [vm_compute; reflexivity|].
  split; [vm_compute; reflexivity|]. split; [vm_compute; reflexivity|]. vm_compute. repeat constructor.
Qed.

(** Undo of a paragraph break at the end of the last paragraph. *)
Lemma undo_event_refuted_w :
  exists before after : list (bstate unit), NoDup (map bs_id before) /\ NoDup (map bs_id after) /\ placed 0 before /\ placed 0 after
   /\ exists p r a n, undo_event before after = Some (p, r, a, n) /\ ~ describes (build_doc_text before) (build_doc_text after) p r a.
Proof.
  exists [mk_bstate 2%N 0 [97%N] tt; mk_bstate 3%N 2 [] tt], [mk_bstate 2%N 0 [97%N] tt].
  split; [repeat constructor; cbn; intuition discriminate|]. split; [repeat constructor; cbn; easy|].
  split; [cbn; auto|]. split; [cbn; auto|]. exists 2, 0, 0, 1. split; [vm_compute; reflexivity|].
  intros (_ & H & _). cbn in H. lia.
Qed.
Lemma flow_insert_refuted_w :
  exists d' last evs, reach two_paras /\ flow_step two_paras (d_order two_paras) (EInsert 1 4 [120%N]) = Ok (d', last, evs)
   /\ fold_left (apply_flow (d_order d')) evs (d_order two_paras) <> d_order d'.
Proof.
  exists (match run_edit two_paras (EInsert 1 4 [120%N]) with Ok (d, _) => d | _ => new_document end).
  eexists _, _. split; [apply two_paras_reach|]. split; [vm_compute; reflexivity|]. vm_compute. discriminate.
Qed.
