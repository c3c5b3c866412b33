(** What copying in a document with a table should give. *)
From Coq Require Import Sorting.Permutation.
From Verif Require Import Base TableModel TableSpec TableTextModel TableTextSpec TableEditSpec FlowSpec PropSpec XCopyModel.

(** The characters from [s] to [e]. *)
Definition between_positions (s e : nat) (l : str) : str := firstn (e - s) (skipn s l).
(** Paragraph [k] is met by the selection: it starts before its end and ends at or behind
    its beginning. *)
Definition touched (ts : list str) (s e k : nat) : Prop :=
  exists t, nth_error ts k = Some t /\ start_of k ts < e /\ s <= start_of k ts + length t.
(** The selection has all of paragraph [k] and the break behind it, if there is one. *)
Definition covered (ts : list str) (s e k : nat) : Prop :=
  exists t, nth_error ts k = Some t /\ s <= start_of k ts /\ (start_of k ts + length t < e \/ S k = length ts /\ start_of k ts + length t <= e).
(** A text is what the selection has; a break at its very end may be missing. *)
Definition selected_text (ts : list str) (s e : nat) (text : str) : Prop :=
  between_positions s e (joined ts) = text \/ between_positions s e (joined ts) = text ++ [NL].
(** [qs] are the parts of the paragraphs met by the selection, the first being
    paragraph [i]. *)
Definition parts (ts : list str) (s e i : nat) (qs : list str) : Prop :=
  (forall k, touched ts s e k <-> i <= k < i + length qs)
  /\ forall j q t, nth_error qs j = Some q -> nth_error ts (i + j) = Some t ->
       q = between_positions (s - start_of (i + j) ts) (e - start_of (i + j) ts) t.
(** The paragraphs [ps], from number [i] on, say rightly whether they were taken whole. *)
Definition marked (ts : list str) (s e i : nat) (ps : list xpiece) : Prop :=
  forall j p, nth_error ps j = Some p -> (xp_full p = true <-> covered ts s e (i + j)).
(** All of the table is selected: every paragraph of it that the document has. *)
Definition table_selected (x : xdoc) (ts : list str) (s e : nat) : Prop :=
  forall k t, nth_error ts k = Some t -> ~ outside x k -> s <= start_of k ts /\ start_of k ts < e /\ start_of k ts + length t <= e.
(** The copy of the table [cs]: the cells in reading order, each in its row and column, with
    its spans and the texts of its paragraphs. *)
Definition table_copied (x : xdoc) (cs : list fcell) : Prop :=
  exists l, Permutation l (t_cells (x_table x)) /\ reads l
   /\ map (fun c => (fc_row c, fc_col c, fc_rs c, fc_cs c)) cs = map (fun c => (tc_row c, tc_col c, tc_rs c, tc_cs c)) l
   /\ map (fun c => map (fun q => Ok (xp_text q)) (fc_blocks c)) cs = map (cell_text x) l.
(** The texts of the paragraphs of the copied cells, one after the other. *)
Definition copied_texts (cs : list fcell) : list str := flat_map (fun c => map xp_text (fc_blocks c)) cs.
