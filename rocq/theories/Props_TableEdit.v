(** Edits at positions of documents with a table (C71). [edited]: a table put into any
    document without tables, and then any number of table operations and of edits at
    positions. *)
From Verif Require Import Base TableModel TableSpec TableTextModel TableTextSpec TableTextRefuted TableEditModel TableEditSpec TableEditTheorems TableEditRefuted FlowSpec.
Local Open Scope Z_scope.

(** At all times the paragraphs can be read, and what is on record about them is right. *)
Theorem table_edit_readable : forall x, edited x -> exists ts, document_texts x ts.
Proof. exact edited_texts. Qed.
Print Assumptions table_edit_readable.
Theorem table_edit_records : forall x ts, edited x -> document_texts x ts -> recorded_right x ts.
Proof. exact edited_recorded. Qed.
Print Assumptions table_edit_records.
Example table_edit_records_case : edited typed_broken /\ map (fun b => (tb_pos b, tb_len b)) (flow_blocks (x_table typed_broken)) = [(0, 2); (3, 1); (5, 2); (8, 4)]
  /\ t_count (x_table typed_broken) = 4 /\ t_chars (x_table typed_broken) = 9.
Proof. split; [exact typed_broken_edited|]. vm_compute. repeat split. Qed.

(** Typing puts the text at the position asked for, or at the end if it is behind the
    end, in a cell as elsewhere; the position returned is behind the text. *)
Theorem table_edit_typing : forall x ts p text, edited x -> document_texts x ts ->
  let q := Nat.min p (length (joined ts)) in
  exists x' k, x_insert_text x (Z.of_nat p) text = Ok (x', Z.of_nat (q + length text)) /\ edited x' /\ same_blocks (x_table x) (x_table x')
   /\ holds ts k p /\ document_texts x' (replaced ts k (q - start_of k ts) (q - start_of k ts) text)
   /\ joined (replaced ts k (q - start_of k ts) (q - start_of k ts) text) = firstn q (joined ts) ++ text ++ skipn q (joined ts).
Proof. exact typing. Qed.
Print Assumptions table_edit_typing.
Example table_edit_typing_case : edited between /\ document_texts between between_texts /\ document_texts typed typed_texts.
Proof. split; [exact between_edited|]. split; [exact between_read|exact typed_read]. Qed.

(** A break outside the table cuts its paragraph in two. Inside a cell see
    [table_text_breaking_refuted] (C64). *)
Theorem table_edit_breaking_partial : forall x ts k p, edited x -> document_texts x ts -> holds ts k p -> outside x k ->
  let q := Nat.min p (length (joined ts)) in
  exists x', x_break_at x (Z.of_nat p) = Ok x' /\ edited x'
   /\ document_texts x' (cut_in_two ts k (q - start_of k ts))
   /\ joined (cut_in_two ts k (q - start_of k ts)) = firstn q (joined ts) ++ NL :: skipn q (joined ts).
Proof. exact breaking. Qed.
Print Assumptions table_edit_breaking_partial.
Example table_edit_breaking_case : edited typed /\ document_texts typed typed_texts /\ holds typed_texts 2 7 /\ outside typed 2
  /\ cut_in_two typed_texts 2 2 = [[97; 98]; [112]; [99; 100]; [101; 102; 103; 104]]%N.
Proof. split; [exact typed_edited|]. split; [exact typed_read|]. split; [eexists; split; [reflexivity|cbn; lia]|]. split; [exact typed_outside|reflexivity]. Qed.

(** Deleting inside one paragraph, in a cell as elsewhere, when no paragraph comes after
    the table. Missing: selections over several paragraphs or cells, and see below. *)
Theorem table_edit_deleting_partial : forall x ts k p a, edited x -> table_last x -> document_texts x ts -> holds ts k p -> holds ts k a ->
  (p <= length (joined ts) /\ a <= length (joined ts))%nat ->
  let s := Nat.min p a in let e := Nat.max p a in
  exists x', x_delete x (Z.of_nat p) (Z.of_nat a) = Ok (Some x') /\ edited x' /\ table_last x' /\ same_blocks (x_table x) (x_table x')
   /\ document_texts x' (replaced ts k (s - start_of k ts) (e - start_of k ts) [])
   /\ joined (replaced ts k (s - start_of k ts) (e - start_of k ts) []) = firstn s (joined ts) ++ skipn e (joined ts).
Proof. exact deleting. Qed.
Print Assumptions table_edit_deleting_partial.
Example table_edit_deleting_case : edited ending_typed /\ table_last ending_typed /\ document_texts ending_typed ending_texts
  /\ holds ending_texts 3 11 /\ holds ending_texts 3 12 /\ replaced ending_texts 3 0 1 [] = [[97; 98]; [99; 100; 101; 102; 103; 104]; []; [113]]%N.
Proof.
  split; [exact ending_typed_edited|]. split; [exact ending_last|]. split; [exact ending_read|]. split; [eexists; split; [reflexivity|cbn; lia]|]. split; [eexists; split; [reflexivity|cbn; lia]|reflexivity].
Qed.
(** Below a table the wrong characters are deleted: of "ab", a table of one empty cell
    and "cdefgh", the selection of "c" deletes "d". *)
Theorem table_edit_deleting_refuted : exists x ts k x', edited x /\ document_texts x ts /\ holds ts k 4 /\ holds ts k 5
  /\ nth_error (joined ts) 4 = Some 99%N /\ x_delete x 4 5 = Ok (Some x')
  /\ map (fun b => text_of x' (tb_id b)) (t_others (x_table x')) = [Ok [97; 98]%N; Ok [99; 101; 102; 103; 104]%N].
Proof. exact deletion_refuted. Qed.
Print Assumptions table_edit_deleting_refuted.
(** And a deletion above it leaves the paragraph below at a wrong place. *)
Theorem table_edit_deleting_places_refuted : exists x x', edited x /\ placed (x_table x) /\ x_delete x 0 1 = Ok (Some x') /\ ~ placed (x_table x').
Proof. exact deletion_places_refuted. Qed.
Print Assumptions table_edit_deleting_places_refuted.

(** A snapshot shows all paragraphs, those of the table cell by cell, with their texts
    and places. *)
Theorem table_edit_snapshot : forall x ts, edited x -> document_texts x ts -> exists es, x_snapshot x = Ok es /\ snapshot_right x ts es.
Proof. exact snapshot_shows. Qed.
Print Assumptions table_edit_snapshot.
Example table_edit_snapshot_case : edited typed_broken
  /\ x_snapshot typed_broken = Ok [XBlock (mk_xsnap 2 0 2 [97; 98]); XTable 1 1 [mk_xcell 0 0 1 1 [mk_xsnap 4 3 1 [112]]];
       XBlock (mk_xsnap 3 5 2 [99; 100]); XBlock (mk_xsnap 5 8 4 [101; 102; 103; 104])]%N.
Proof. split; [exact typed_broken_edited|]. vm_compute. reflexivity. Qed.
