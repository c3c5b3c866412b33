(** What edits at positions of a document with a table should do. *)
From Coq Require Import Sorting.Permutation.
From Verif Require Import Base RopeModel TableModel TableSpec TableTextModel TableTextSpec TableEditModel DocSpec PropSpec FlowSpec.
Local Open Scope Z_scope.

(** The paragraphs of the document in order: those above the table, those of the cells
    row by row, those below. *)
Definition document_order (x : xdoc) (bs : list tblock) : Prop :=
  let d := x_table x in
  exists l, Permutation l (t_cells d) /\ reads l
    /\ bs = firstn (t_at d) (t_others d) ++ flat_map tc_blocks l ++ skipn (t_at d) (t_others d).
(** Their texts. [joined] (FlowSpec) puts a line feed between them: a position is a
    place in that text. *)
Definition document_texts (x : xdoc) (ts : list str) : Prop :=
  exists bs, document_order x bs /\ map (fun b => text_of x (tb_id b)) bs = map Ok ts.
(** Where paragraph [k] starts. *)
Definition starts (ts : list str) : nat := fold_right (fun t n => S (length t + n)) 0%nat ts.
Definition start_of (k : nat) (ts : list str) : nat := starts (firstn k ts).
(** Paragraph [k] has position [p]; the last one has all behind its end. *)
Definition holds (ts : list str) (k p : nat) : Prop :=
  exists t, nth_error ts k = Some t /\ (start_of k ts <= p)%nat /\ ((p <= start_of k ts + length t)%nat \/ S k = length ts).
(** Paragraph [k] of the document is not in the table. *)
Definition outside (x : xdoc) (k : nat) : Prop :=
  exists bs b, document_order x bs /\ nth_error bs k = Some b /\ In b (t_others (x_table x)).
(** No paragraph comes after the table. *)
Definition table_last (x : xdoc) : Prop := (length (t_others (x_table x)) <= t_at (x_table x))%nat.
(** The recorded lengths are those of the texts. *)
Definition lengths_right (x : xdoc) : Prop :=
  forall b, In b (t_others (x_table x) ++ flat_map tc_blocks (t_cells (x_table x))) -> exists t, text_of x (tb_id b) = Ok t /\ tb_len b = Z.of_nat (length t).

(** A table put into a document without tables, then any number of edits at positions:
    typing anywhere, breaking paragraphs outside the table, deleting inside a paragraph
    when none comes after the table; and of table operations while the cells are empty. *)
Inductive edited : xdoc -> Prop :=
| edited_new d p a rows cols tid next x : reach d -> counted d -> x_insert_table d p a rows cols tid next = Ok x -> edited x
| edited_table x o x' : edited x -> unfilled (x_table x) -> clean (x_table x) o -> x_step x o = Ok x' -> edited x'
| edited_type x p text x' q : edited x -> x_insert_text x (Z.of_nat p) text = Ok (x', q) -> edited x'
| edited_break x ts k p x' : edited x -> document_texts x ts -> holds ts k p -> outside x k -> x_break_at x (Z.of_nat p) = Ok x' -> edited x'
| edited_delete x ts p a x' : edited x -> table_last x -> document_texts x ts -> (p <= length (joined ts) /\ a <= length (joined ts))%nat ->
    x_delete x (Z.of_nat p) (Z.of_nat a) = Ok (Some x') -> edited x'.

(** Everything on record is right: where each paragraph starts, how long it is, how many
    there are and how many characters they have. *)
Definition recorded_right (x : xdoc) (ts : list str) : Prop :=
  (forall bs k b, document_order x bs -> nth_error bs k = Some b ->
     tb_pos b = Z.of_nat (start_of k ts) /\ option_map (fun t => Z.of_nat (length t)) (nth_error ts k) = Some (tb_len b))
  /\ t_count (x_table x) = Z.of_nat (length ts) /\ t_chars (x_table x) = Z.of_nat (length (concat ts)).
(** Paragraph [k] with [mid] in place of the characters from [i] to [j]. *)
Definition replaced (ts : list str) (k i j : nat) (mid : str) : list str :=
  match nth_error ts k with Some t => firstn k ts ++ (firstn i t ++ mid ++ skipn j t) :: skipn (S k) ts | None => ts end.
(** Paragraph [k] cut in two at [i]. *)
Definition cut_in_two (ts : list str) (k i : nat) : list str :=
  match nth_error ts k with Some t => firstn k ts ++ firstn i t :: skipn i t :: skipn (S k) ts | None => ts end.
(** What a snapshot shows: the paragraphs above the table, the table with its cells in
    reading order, those below; every paragraph with its text, length and place. *)
Definition snapshot_right (x : xdoc) (ts : list str) (es : list xelem) : Prop :=
  exists above cells below l, es = map XBlock above ++ XTable (t_rows (x_table x)) (t_cols (x_table x)) cells :: map XBlock below
   /\ Permutation l (t_cells (x_table x)) /\ reads l
   /\ map xs_id above = block_ids (firstn (t_at (x_table x)) (t_others (x_table x)))
   /\ map xs_id below = block_ids (skipn (t_at (x_table x)) (t_others (x_table x)))
   /\ map (fun c => (xc_row c, xc_col c, xc_rs c, xc_cs c, map xs_id (xc_blocks c))) cells
      = map (fun c => (tc_row c, tc_col c, tc_rs c, tc_cs c, block_ids (tc_blocks c))) l
   /\ map xs_text (above ++ flat_map xc_blocks cells ++ below) = ts
   /\ forall k s, nth_error (above ++ flat_map xc_blocks cells ++ below) k = Some s ->
        xs_len s = length (xs_text s) /\ xs_pos s = start_of k ts.
