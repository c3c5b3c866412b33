(** Tables and the text of a document (C64). [xhistory]: a table put into any
    document without tables, and then any number of table operations and of edits
    of single paragraphs, in cells and outside. *)
From Verif Require Import Base RopeModel TableModel TableSpec TableTextModel TableTextSpec TableTextTheorems TableTextRefuted.
From Verif Require Import DocModel DocSpec PropSpec.
Local Open Scope Z_scope.

(** Inserting a table: the paragraphs are those of the document, the table stands
    after the ones that start before the cursor, every cell is empty. *)
Theorem table_text_new : forall d p a rows cols tid next, reach d -> 1 <= rows -> 1 <= cols ->
  exists its x, doc_items d = Ok its /\ x_insert_table d p a rows cols tid next = Ok x
   /\ t_rows (x_table x) = rows /\ t_cols (x_table x) = cols
   /\ t_at (x_table x) = paragraphs_started (clip its (Z.min p a)) its
   /\ outside_text x = map (fun q => Ok (plain q)) (paragraphs its)
   /\ (forall r k, slot (x_table x) r k -> shows x r k empty_cell).
Proof. exact text_new. Qed.
Print Assumptions table_text_new.
Example table_text_new_case : reach page /\ outside_text with_table = [Ok [97; 98; 99; 100; 101; 102]%N; Ok [120]%N]
  /\ shows with_table 0 1 empty_cell /\ t_at (x_table with_table) = 2%nat.
Proof. split; [exact page_reach|]. split; [vm_compute; reflexivity|]. split; [eexists; split; vm_compute; reflexivity|]. vm_compute. reflexivity. Qed.
(** It meets what C45 asks of a table. *)
Theorem table_text_new_placed : forall d p a rows cols tid next x, counted d -> x_insert_table d p a rows cols tid next = Ok x ->
  placed_history (x_table x).
Proof. exact new_placed. Qed.
Print Assumptions table_text_new_placed.
Example table_text_new_placed_case : counted page /\ x_insert_table page 8 8 1 2 70%N 80%N = Ok with_table.
Proof. split; [exact page_counted|]. apply got_ok. vm_compute. reflexivity. Qed.

(** Every paragraph can be read at all times. *)
Theorem table_text_readable : forall x b, xhistory x -> block_in x b -> exists t, text_of x b = Ok t.
Proof. exact readable_theorem. Qed.
Print Assumptions table_text_readable.
Example table_text_readable_case : xhistory filled /\ shows filled 0 0 [Ok [112]%N] /\ shows filled 0 1 [Ok [113]%N]
  /\ outside_text filled = [Ok [97; 98; 99; 100; 101; 102]%N; Ok [120]%N].
Proof. split; [exact filled_history|]. exact filled_texts. Qed.

(** Rows and columns: every slot shows what it showed, moved with its row or
    column; new slots are empty; nothing outside the table changes. *)
Theorem table_text_row_insertion : forall x i, xhistory x -> 0 <= i <= t_rows (x_table x) ->
  exists x', x_step x (InsertRow i) = Ok x' /\ same_outside x x'
   /\ t_rows (x_table x') = t_rows (x_table x) + 1 /\ t_cols (x_table x') = t_cols (x_table x)
   /\ (forall r k ts, shows x r k ts -> shows x' (if r <? i then r else r + 1) k ts)
   /\ (~ across_row (x_table x) i -> forall k, 0 <= k < t_cols (x_table x) -> shows x' i k empty_cell).
Proof. exact text_row_in. Qed.
Print Assumptions table_text_row_insertion.
Theorem table_text_column_insertion : forall x i, xhistory x -> 0 <= i <= t_cols (x_table x) ->
  exists x', x_step x (InsertColumn i) = Ok x' /\ same_outside x x'
   /\ t_rows (x_table x') = t_rows (x_table x) /\ t_cols (x_table x') = t_cols (x_table x) + 1
   /\ (forall r k ts, shows x r k ts -> shows x' r (if k <? i then k else k + 1) ts)
   /\ (~ across_column (x_table x) i -> forall r, 0 <= r < t_rows (x_table x) -> shows x' r i empty_cell).
Proof. exact text_column_in. Qed.
Print Assumptions table_text_column_insertion.
Theorem table_text_row_removal : forall x i, xhistory x -> 0 <= i < t_rows (x_table x) -> 1 < t_rows (x_table x) ->
  exists x', x_step x (RemoveRow i) = Ok x' /\ same_outside x x'
   /\ t_rows (x_table x') = t_rows (x_table x) - 1 /\ t_cols (x_table x') = t_cols (x_table x)
   /\ (forall r k ts, shows x r k ts -> r <> i -> shows x' (if r <? i then r else r - 1) k ts).
Proof. exact text_row_out. Qed.
Print Assumptions table_text_row_removal.
Theorem table_text_column_removal : forall x i, xhistory x -> 0 <= i < t_cols (x_table x) -> 1 < t_cols (x_table x) ->
  exists x', x_step x (RemoveColumn i) = Ok x' /\ same_outside x x'
   /\ t_rows (x_table x') = t_rows (x_table x) /\ t_cols (x_table x') = t_cols (x_table x) - 1
   /\ (forall r k ts, shows x r k ts -> k <> i -> shows x' r (if k <? i then k else k - 1) ts).
Proof. exact text_column_out. Qed.
Print Assumptions table_text_column_removal.
Example table_text_rows_case : xhistory filled /\ 1 < t_cols (x_table filled)
  /\ exists x', x_step filled (RemoveColumn 0) = Ok x' /\ shows x' 0 0 [Ok [113]%N].
Proof.
  split; [exact filled_history|]. split; [vm_compute; reflexivity|]. exists (got (x_step filled (RemoveColumn 0))). split; [apply got_ok; vm_compute; reflexivity|].
  eexists. split; vm_compute; reflexivity.
Qed.

(** Merging: the cell keeps the text of its first slot, and all other cells
    theirs. Missing: the texts of the other merged cells, see below. *)
Theorem table_text_merge_partial : forall x r0 c0 r1 c1, xhistory x -> ~ reached (x_table x) r0 c0 r1 c1 ->
  0 <= r0 <= r1 -> r1 < t_rows (x_table x) -> 0 <= c0 <= c1 -> c1 < t_cols (x_table x) ->
  (forall c, In c (t_cells (x_table x)) -> in_rect r0 c0 r1 c1 (tc_row c) (tc_col c) -> tc_rs c = 1 /\ tc_cs c = 1) ->
  exists x', x_step x (Merge r0 c0 r1 c1) = Ok x' /\ same_outside x x'
   /\ (forall r k ts, shows x r k ts -> ~ in_rect r0 c0 r1 c1 r k -> shows x' r k ts)
   /\ (forall r k ts, shows x r0 c0 ts -> in_rect r0 c0 r1 c1 r k -> shows x' r k ts).
Proof. exact text_merge. Qed.
Print Assumptions table_text_merge_partial.
Example table_text_merge_case : xhistory filled /\ ~ reached (x_table filled) 0 0 0 1 /\ xhistory merged /\ shows merged 0 1 [Ok [112]%N].
Proof. split; [exact filled_history|]. split; [exact filled_clean|]. split; [exact merged_history|]. eexists. split; vm_compute; reflexivity. Qed.
(** Refuted: after merging, the text of the second cell is nowhere. *)
Theorem table_text_merge_refuted : exists x r k x', xhistory x /\ shows x r k [Ok [113]%N] /\ clean (x_table x) (Merge 0 0 0 1)
  /\ x_step x (Merge 0 0 0 1) = Ok x' /\ forall b, block_in x' b -> text_of x' b <> Ok [113]%N.
Proof. exact merge_refuted. Qed.
Print Assumptions table_text_merge_refuted.

(** Splitting: the text stays in the first part, the other parts are empty. *)
Theorem table_text_split : forall x c sr sc, xhistory x -> In c (t_cells (x_table x)) -> 1 <= sr <= tc_rs c -> 1 <= sc <= tc_cs c -> ~ (tc_rs c = 1 /\ tc_cs c = 1) ->
  exists x', x_step x (Split (tc_id c) sr sc) = Ok x' /\ same_outside x x'
   /\ (forall r k ts, shows x r k ts -> covers c r k = false -> shows x' r k ts)
   /\ shows x' (tc_row c) (tc_col c) (cell_text x c)
   /\ (forall r k, covers c r k = true -> shows x' r k (cell_text x c) \/ shows x' r k empty_cell).
Proof. exact text_split. Qed.
Print Assumptions table_text_split.
Example table_text_split_case : xhistory merged /\ exists c, t_cells (x_table merged) = [c] /\ tc_cs c = 2
  /\ exists x', x_step merged (Split (tc_id c) 1 2) = Ok x' /\ shows x' 0 0 [Ok [112]%N] /\ shows x' 0 1 empty_cell.
Proof.
  split; [exact merged_history|]. eexists. split; [vm_compute; reflexivity|]. split; [reflexivity|].
  exists (got (x_step merged (Split 80%N 1 2))). split; [apply got_ok; vm_compute; reflexivity|]. split; eexists; split; vm_compute; reflexivity.
Qed.

(** Removing the table: the paragraphs outside are left with their texts.
    Missing: a table after the last paragraph when that one is empty. *)
Theorem table_text_removal_partial : forall x, xhistory x ->
  (t_at (x_table x) < length (t_others (x_table x)))%nat \/ last (outside_text x) (Ok []) <> Ok [] ->
  exists others n ch st, x_remove_table x = Ok (others, n, ch, st) /\ block_ids others = block_ids (t_others (x_table x))
   /\ map (fun b => block_content st (tb_id b)) others = outside_text x.
Proof. exact text_remove. Qed.
Print Assumptions table_text_removal_partial.
Example table_text_removal_case : xhistory filled /\ last (outside_text filled) (Ok []) = Ok [120]%N.
Proof. split; [exact filled_history|]. vm_compute. reflexivity. Qed.
(** Refuted: "abcdef" and an emptied paragraph, then a table. Removing it moves
    "def" out of the first paragraph, and panics when the text is shorter. *)
Theorem table_text_removal_refuted : exists x others n ch st, xhistory x /\ outside_text x = [Ok [97; 98; 99; 100; 101; 102]%N; Ok []]
  /\ x_remove_table x = Ok (others, n, ch, st)
  /\ map (fun b => block_content st (tb_id b)) others = [Ok [97; 98]%N; Ok [100; 101; 102; 10]%N].
Proof. exact removal_refuted. Qed.
Print Assumptions table_text_removal_refuted.
Theorem table_text_removal_panic_refuted : exists x, xhistory x /\ outside_text x = [Ok [97]%N; Ok []] /\ x_remove_table x = Panic.
Proof. exact removal_panic_refuted. Qed.
Print Assumptions table_text_removal_panic_refuted.
(** After the removal the block count is right whatever the cells held. When they
    held no text, the paragraphs are in place and the characters counted. *)
Theorem table_removal_places_partial : forall x others n ch st, x_remove_table x = Ok (others, n, ch, st) ->
  (counted_right (x_table x) -> n = Z.of_nat (length others))
  /\ (placed (x_table x) -> own_blocks (x_table x) -> (forall b, In b (flat_map tc_blocks (t_cells (x_table x))) -> tb_len b = 0) ->
      in_place 0 others /\ (counted_right (x_table x) -> ch = fold_right (fun b m => tb_len b + m) 0 others)).
Proof. exact removed_places. Qed.
Print Assumptions table_removal_places_partial.
Example table_removal_places_case : placed_history (x_table halved) /\ map tb_pos (t_others (x_table halved)) = [0; 9]
  /\ exists others st, x_remove_table halved = Ok (others, 2, 7, st) /\ map tb_pos others = [0; 7].
Proof.
  split; [refine (new_placed page 6 6 1 2 70%N 80%N halved page_counted (got_ok _ _)); vm_compute; reflexivity|]. split; [vm_compute; reflexivity|].
  exists (fst (fst (fst (left_over halved)))), (snd (left_over halved)). split; [|vm_compute; reflexivity].
  rewrite left_ok by (vm_compute; reflexivity). destruct (left_over halved) as [[[o n] ch] st] eqn:E.
  assert (N : n = snd (fst (fst (left_over halved)))) by (rewrite E; easy). assert (C : ch = snd (fst (left_over halved))) by (rewrite E; easy).
  cbn [fst snd]. rewrite N, C. vm_compute snd. reflexivity.
Qed.
(** Refuted: with text in a cell, the paragraphs below keep its characters in their
    positions and the document counts them. *)
Theorem table_removal_places_refuted : exists x others n ch st, xhistory x /\ placed (x_table x) /\ counted_right (x_table x) /\ own_blocks (x_table x)
  /\ x_remove_table x = Ok (others, n, ch, st) /\ ~ in_place 0 others /\ ch <> fold_right (fun b m => tb_len b + m) 0 others.
Proof. exact removal_places_refuted. Qed.
Print Assumptions table_removal_places_refuted.

(** Editing a paragraph, in a cell or outside, changes that one only. *)
Theorem table_text_typing : forall x b k text, xhistory x -> block_in x b ->
  exists t st, text_of x b = Ok t /\ type_in (x_store x) b k text = Ok st
   /\ forall d', same_blocks (x_table x) d' -> let x' := mk_xdoc d' st (x_tid x) in
        text_of x' b = Ok (firstn k t ++ text ++ skipn k t) /\ forall i, block_in x i -> i <> b -> text_of x' i = text_of x i.
Proof. exact text_type. Qed.
Print Assumptions table_text_typing.
Theorem table_text_erasing : forall x b k n, xhistory x -> block_in x b ->
  exists t st, text_of x b = Ok t /\ erase_in (x_store x) b k n = Ok st
   /\ forall d', same_blocks (x_table x) d' -> let x' := mk_xdoc d' st (x_tid x) in
        text_of x' b = Ok (firstn k t ++ skipn (k + n) t) /\ forall i, block_in x i -> i <> b -> text_of x' i = text_of x i.
Proof. exact text_erase. Qed.
Print Assumptions table_text_erasing.
Example table_text_typing_case : xhistory with_table /\ block_in with_table 4%N /\ same_blocks (x_table with_table) (x_table with_table)
  /\ shows one_cell 0 0 [Ok [112]%N].
Proof.
  split; [exact with_table_history|]. split; [apply has_in; vm_compute; reflexivity|]. split; [apply same_blocks_refl|]. eexists. split; vm_compute; reflexivity.
Qed.
(** Breaking a paragraph outside the table gives two, one after the other. Missing:
    paragraphs of cells. *)
Theorem table_text_breaking_partial : forall x b k, xhistory x -> In b (block_ids (t_others (x_table x))) ->
  exists t x', text_of x b = Ok t /\ x_insert_block x b k = Ok x' /\ one_block_more b (x_table x) (x_table x')
   /\ text_of x' b = Ok (firstn k t) /\ text_of x' (t_nextb (x_table x)) = Ok (skipn k t)
   /\ forall i, block_in x i -> i <> b -> text_of x' i = text_of x i.
Proof. exact text_break. Qed.
Print Assumptions table_text_breaking_partial.
Example table_text_breaking_case : xhistory filled /\ In 2%N (block_ids (t_others (x_table filled))) /\ x_insert_block filled 2%N 2 = Ok broken
  /\ outside_text broken = [Ok [97; 98]%N; Ok [99; 100; 101; 102]%N; Ok [120]%N].
Proof. split; [exact filled_history|]. split; [vm_compute; auto|]. split; [apply got_ok; vm_compute; reflexivity|vm_compute; reflexivity]. Qed.
(** Such a break leaves every paragraph, of cells too, where the text before it ends, and
    the statistics right. *)
Theorem table_text_breaking_placed : forall x b k x' y, xhistory x -> placed (x_table x) -> counted_right (x_table x) ->
  In y (t_others (x_table x)) -> tb_id y = b -> x_insert_block x b k = Ok x' -> placed (x_table x') /\ counted_right (x_table x').
Proof. exact break_places. Qed.
Print Assumptions table_text_breaking_placed.
Example table_text_breaking_placed_case : exists y x', xhistory with_table /\ placed (x_table with_table) /\ counted_right (x_table with_table)
  /\ In y (t_others (x_table with_table)) /\ tb_id y = 2%N /\ x_insert_block with_table 2%N 2 = Ok x'
  /\ map tb_pos (t_others (x_table x')) = [0; 3; 8]%Z.
Proof. exact break_places_case. Qed.
(** Refuted: in a cell, what is behind the break leaves the table and becomes the last
    paragraph of the document. *)
Theorem table_text_breaking_refuted : exists x b x', xhistory x /\ shows x 0 1 [Ok [113]%N] /\ In b (cell_ids (t_cells (x_table x))) /\ text_of x b = Ok [113]%N
  /\ x_insert_block x b 0 = Ok x' /\ shows x' 0 1 [Ok []] /\ outside_text x' = outside_text x ++ [Ok [113]%N].
Proof. exact breaking_refuted. Qed.
Print Assumptions table_text_breaking_refuted.
