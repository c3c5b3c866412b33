(** Copying in a document with a table (C75). *)
From Coq Require Import Sorting.Permutation.
From Verif Require Import Base RopeModel TableModel TableSpec TableTextModel TableTextSpec TableEditModel TableEditSpec TableEditRefuted PropSpec FlowSpec
  XCopyModel XCopySpec XCopyTheorems XCopyRefuted.
Local Open Scope Z_scope.

(** A selection that meets no cell: the parts of the paragraphs it meets, and its text.
    Missing: a break at the very end of the selection, and selections in a cell. *)
Theorem copy_outside_table_partial : forall x ts s e, edited x -> document_texts x ts -> (s < e)%nat -> (forall k, touched ts s e k -> outside x k) ->
  exists ps text i, x_extract x (Z.of_nat s) (Z.of_nat e) = Ok (mk_xfrag ps [] text) /\ x_extract x (Z.of_nat e) (Z.of_nat s) = Ok (mk_xfrag ps [] text)
   /\ parts ts s e i (map xp_text ps) /\ marked ts s e i ps /\ selected_text ts s e text.
Proof. exact copy_outside_theorem. Qed.
Print Assumptions copy_outside_table_partial.
Example copy_outside_table_case : edited typed /\ document_texts typed typed_texts /\ (1 < 2)%nat /\ (forall k, touched typed_texts 1 2 k -> outside typed k)
  /\ x_extract typed 1 2 = Ok (mk_xfrag [mk_xpiece [98]%N false] [] [98]%N).
Proof. split; [exact typed_edited|]. split; [exact typed_read|]. split; [repeat constructor|]. split; [exact above_only|vm_compute; reflexivity]. Qed.

(** A selection with all of the table in it: the text, the parts of the paragraphs around
    the table, and the whole table between them. Missing: as above. *)
Theorem copy_with_table_partial : forall x ts s e, edited x -> document_texts x ts -> (s < e)%nat -> table_selected x ts s e ->
  (exists k, touched ts s e k /\ outside x k) \/ (2 <= length (t_cells (x_table x)))%nat ->
  exists above cells below text i, x_extract x (Z.of_nat s) (Z.of_nat e) = Ok (mk_xfrag (above ++ below) [mk_ftab (t_rows (x_table x)) (t_cols (x_table x)) cells (length above)] text)
   /\ x_extract x (Z.of_nat e) (Z.of_nat s) = x_extract x (Z.of_nat s) (Z.of_nat e) /\ table_copied x cells
   /\ parts ts s e i (map xp_text above ++ copied_texts cells ++ map xp_text below)
   /\ marked ts s e i above /\ marked ts s e (i + length above + length (copied_texts cells)) below /\ selected_text ts s e text.
Proof. exact copy_table_theorem. Qed.
Print Assumptions copy_with_table_partial.
Example copy_with_table_case : edited typed /\ document_texts typed typed_texts /\ (1 < 7)%nat /\ table_selected typed typed_texts 1 7
  /\ (exists k, touched typed_texts 1 7 k /\ outside typed k) /\ (exists f, x_extract typed 1 7 = Ok f /\ xf_plain f = [98; 10; 112; 10; 99; 100]%N).
Proof.
  split; [exact typed_edited|]. split; [exact typed_read|]. split; [repeat constructor|]. split; [exact all_of_it|]. split; [exact some_below|]. eexists. split; [vm_compute; reflexivity|reflexivity].
Qed.

(** A fragment made from the whole document has all of its text, every paragraph whole,
    and the table in its place. *)
Theorem fragment_of_document : forall x ts, edited x -> document_texts x ts -> (2 <= length ts)%nat -> Z.of_nat (length (joined ts)) < 2 ^ 63 - 1 ->
  exists above cells below, x_from_document x = Ok (mk_xfrag (above ++ below) [mk_ftab (t_rows (x_table x)) (t_cols (x_table x)) cells (length above)] (joined ts))
   /\ table_copied x cells /\ map (fun q => Ok (xp_text q)) above = map (fun b => text_of x (tb_id b)) (firstn (t_at (x_table x)) (t_others (x_table x)))
   /\ map (fun q => Ok (xp_text q)) below = map (fun b => text_of x (tb_id b)) (skipn (t_at (x_table x)) (t_others (x_table x)))
   /\ Forall (fun q => xp_full q = true) (above ++ below).
Proof. exact copy_document_theorem. Qed.
Print Assumptions fragment_of_document.
Example fragment_of_document_case : edited three /\ document_texts three three_texts /\ (2 <= length three_texts)%nat /\ Z.of_nat (length (joined three_texts)) < 2 ^ 63 - 1.
Proof. split; [exact three_edited|]. split; [exact three_read|]. split; [cbn; lia|vm_compute; reflexivity]. Qed.

(** The text selected in one cell is copied twice. *)
Theorem copy_in_cell_refuted : exists x ts s e text, edited x /\ document_texts x ts /\ holds ts 1 s /\ holds ts 1 e /\ ~ outside x 1
  /\ between_positions s e (joined ts) = text /\ text <> [] /\ x_extract x (Z.of_nat s) (Z.of_nat e) = Ok (mk_xfrag [mk_xpiece text false; mk_xpiece text false] [] (text ++ NL :: text)).
Proof. exact cell_twice_refuted. Qed.
Print Assumptions copy_in_cell_refuted.
(** Two cells of three are selected, and three are copied. *)
Theorem copy_some_cells_refuted : exists x ts s e f, edited x /\ document_texts x ts /\ between_positions s e (joined ts) = [120; 10; 121]%N
  /\ x_extract x (Z.of_nat s) (Z.of_nat e) = Ok f /\ xf_plain f = [120; 10; 121; 10; 113]%N /\ map (fun t => length (fx_cells t)) (xf_tables f) = [3%nat].
Proof. exact more_cells_refuted. Qed.
Print Assumptions copy_some_cells_refuted.
(** The cell "p", copied from another document and pasted over the cell "y": nothing changes. *)
Theorem paste_over_cells_refuted : exists x ts y f p, edited x /\ edited y /\ document_texts x ts /\ x_from_document y = Ok f /\ map (fun t => copied_texts (fx_cells t)) (xf_tables f) = [[[112]]]%N
  /\ holds ts 2 p /\ nth_error ts 2 = Some [121]%N /\ x_paste_cells x (Z.of_nat p) (mk_xfrag [] (xf_tables f) [112]%N) = Ok (Some x).
Proof. exact pasted_over_refuted. Qed.
Print Assumptions paste_over_cells_refuted.
(** This is so for every table whose cells have a paragraph each. *)
Theorem paste_over_cells_keeps : forall x p f x', edited x -> (forall t c, In t (xf_tables f) -> In c (fx_cells t) -> (length (fc_blocks c) <= 1)%nat) ->
  x_paste_cells x p f = Ok (Some x') -> x' = x.
Proof. exact paste_unchanged_theorem. Qed.
Print Assumptions paste_over_cells_keeps.
