(** Cursors, seen from outside. *)
From Verif Require Import Base FormatRunsModel DocModel DocSpec HistModel QuerySpec PropSpec DiffModel DiffSpec CursorModel.

(** What is asked of the segmentation into user-perceived characters: the
    clusters are not empty and make up the text; the two sides of an edge are
    segmented alike on their own; a line feed is a cluster. *)
Record segmentation (graphemes : str -> list str) : Prop := {
  seg_concat : forall t, concat (graphemes t) = t;
  seg_nonempty : forall t g, In g (graphemes t) -> g <> [];
  seg_split : forall t a b, graphemes t = a ++ b -> graphemes (concat a) = a /\ graphemes (concat b) = b;
  seg_newline : forall t, graphemes (NL :: t) = [NL] :: graphemes t
}.

(** A small instance: a combining mark U+0300..U+036F joins the character before
    it. *)
Definition is_mark (c : char) : bool := ((768 <=? c) && (c <=? 879))%N.
Fixpoint marks (t : str) : list str :=
  match t with
  | [] => []
  | c :: t' =>
      match marks t' with
      | (m :: x) :: rest => if is_mark m && negb (c =? NL)%N then (c :: m :: x) :: rest else [c] :: (m :: x) :: rest
      | r => [c] :: r
      end
  end.

(** The positions a cursor can stop at: the edges of the clusters of each
    paragraph, in order. *)
Fixpoint stops_of (start : nat) (gs : list str) : list nat :=
  start :: match gs with [] => [] | g :: rest => stops_of (start + length g) rest end.
Fixpoint stops_from (graphemes : str -> list str) (start : nat) (ps : list (list item)) : list nat :=
  match ps with
  | [] => []
  | p :: rest => stops_of start (graphemes (plain p)) ++ stops_from graphemes (start + length p + 1) rest
  end.
Definition stops (graphemes : str -> list str) (its : list item) : list nat :=
  stops_from graphemes 0 (paragraphs its).

(** How a position of [its] is carried to a position of [its'] by a change that
    replaces [r] items from [e] on by [a] items: a position before the change
    keeps what is before it, one after it keeps what is after it, one inside
    goes to the end of the new items. *)
Definition carried (its its' : list item) (e r a x x' : nat) : Prop :=
  (x <= e -> x' = x /\ firstn x' its' = firstn x its)
  /\ (e < x -> e + r <= x -> skipn x' its' = skipn x its)
  /\ (e < x <= e + r -> x' = e + a).

(** A cursor inside the document. *)
Definition in_range (its : list item) (c : cursor) : Prop := c_pos c <= length its /\ c_anchor c <= length its.
(** Operations that do not replace the whole document and create cursors inside
    it. *)
Definition cedit_ok (k : cedit) : Prop := match k with KInsertFmt text _ => text <> [] | _ => True end.
(** Every operation but the import of a text; new cursors are created at the
    start, from where they can be moved. *)
Definition op_local (o : cop) : Prop :=
  match o with OpNew p => p = 0 | OpEdit _ k => cedit_ok k | OpImport _ => False | _ => True end.
(** The part of the document a cursor operation replaces. *)
Definition sel_start (c : cursor) : nat := Nat.min (c_pos c) (c_anchor c).
Definition sel_len (c : cursor) : nat := Nat.max (c_pos c) (c_anchor c) - sel_start c.
Definition cedit_len (k : cedit) : nat :=
  match k with KInsert t | KInsertFmt t _ => length t | KBreak => 1 | KRemove => 0 end.
