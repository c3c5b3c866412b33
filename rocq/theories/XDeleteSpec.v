(** What deleting a selection over several cells should do. *)
From Verif Require Import Base RopeModel TableModel TableTextModel TableTextSpec TableEditModel TableEditSpec FlowSpec.

(** The selection from [s] to [e] has a place in paragraph [k]. *)
Definition touches (ts : list str) (s e k : nat) : Prop :=
  exists t, nth_error ts k = Some t /\ start_of k ts <= e /\ s <= start_of k ts + length t.
(** The paragraphs it touches are empty, the others as they were. *)
Definition emptied (ts : list str) (s e : nat) (ts' : list str) : Prop :=
  length ts' = length ts
  /\ forall k t, nth_error ts k = Some t ->
       (touches ts s e k -> nth_error ts' k = Some []) /\ (~ touches ts s e k -> nth_error ts' k = Some t).
(** The same table with the same cells and the same paragraphs. *)
Definition cell_shape (c : tcell) := (tc_id c, tc_row c, tc_col c, tc_rs c, tc_cs c, tc_fmt c, block_ids (tc_blocks c)).
Definition same_shape (d d' : tdoc) : Prop :=
  t_rows d' = t_rows d /\ t_cols d' = t_cols d /\ t_widths d' = t_widths d
  /\ map cell_shape (t_cells d') = map cell_shape (t_cells d) /\ block_ids (t_others d') = block_ids (t_others d).
(** What the selection says it has. *)
Definition selected (ts : list str) (s e : nat) : str := firstn (e - s) (skipn s (joined ts)).
