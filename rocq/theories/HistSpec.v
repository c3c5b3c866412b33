(** What a text-editing call does, on items and on plain text. *)
From Verif Require Import Base FormatRunsModel DocModel DocSpec HistModel.

Definition spec_edit (e : edit) (its : list item) : list item :=
  match e with
  | EInsert p a text => spec_insert (lo its p a) text (spec_delete (lo its p a) (hi its p a) its)
  | EInsertFmt p a text x =>
      spec_insert_fmt (lo its p a) text (ins_to_cfmt x) (spec_delete (lo its p a) (hi its p a) its)
  | EBreak p a => spec_break (lo its p a) (spec_delete (lo its p a) (hi its p a) its)
  | ERemove p a => spec_delete (lo its p a) (hi its p a) its
  end.

(** On strings every call is one splice of the selected range. *)
Definition edit_range (e : edit) : nat * nat :=
  match e with
  | EInsert p a _ | EInsertFmt p a _ _ | EBreak p a | ERemove p a => (Nat.min p a, Nat.max p a)
  end.
Definition edit_text (e : edit) : str :=
  match e with
  | EInsert _ _ text | EInsertFmt _ _ text _ => text
  | EBreak _ _ => [NL]
  | ERemove _ _ => []
  end.
(** Positions past the end mean the end: [firstn] and [skipn] see to that. *)
Definition string_edit (t : str) (e : edit) : str :=
  splice (fst (edit_range e)) (snd (edit_range e)) (edit_text e) t.

(** The one call left out: a formatted insertion of no text. *)
Definition edit_ok (e : edit) : Prop :=
  match e with EInsertFmt _ _ text _ => text <> [] | _ => True end.

(** Where the cursor is after the call. *)
Definition edit_cursor (e : edit) (its : list item) : nat :=
  match e with
  | EInsert p a text => lo its p a + length text
  | EInsertFmt p a text _ => Nat.min p a + length text
  | EBreak p a => lo its p a + 1
  | ERemove p a => Nat.min p a
  end.
