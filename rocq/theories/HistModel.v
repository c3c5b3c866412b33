(** The text-editing methods of a cursor, seen as functions of the document and
    the cursor's two positions.

    Source: crates/public_api/src/cursor.rs. Positions are [usize], hence [nat].
    Left out here: the undo stack (UndoModel), events and the other cursors
    (CursorModel), which these functions only write to. *)
From Verif Require Import Base FormatRunsModel RopeModel DocModel.

(** convert.rs:18-21 [to_usize] panics on a negative number. *)
Definition to_usize (z : Z) : res nat := if (0 <=? z)%Z then Ok (Z.to_nat z) else Panic.

(** insert_text_uc.rs:497-505 [execute]: with and without a selection. *)
Definition insert_text (d : doc) (p a : Z) (text : str) : res (doc * Z) :=
  if (p =? a)%Z then let! (d', np, _) := insert_text_simple d p text in Ok (d', np)
  else insert_text_selection d p a text.
(** insert_formatted_text_uc.rs [execute]: the same choice. *)
Definition insert_formatted_text (d : doc) (p a : Z) (text : str) (f : cfmt) : res (doc * Z) :=
  if (p =? a)%Z then let! (d', np, _) := insert_formatted_simple d p text f in Ok (d', np)
  else insert_formatted_selection d p a text f.

(** cursor.rs:391-454 [insert_text]; an error without selection is returned. *)
Definition cursor_insert_text (d : doc) (p a : nat) (text : str) : res (doc * nat) :=
  match insert_text d (Z.of_nat p) (Z.of_nat a) text with
  | Ok (d', np) => let! q := to_usize np in Ok (d', q)
  | Panic => Panic
  | Err =>
      if p =? a then Err
      else
        let! (d1, np, _) := delete_text d (Z.of_nat p) (Z.of_nat a) in
        let! q := to_usize np in
        let! (d2, np2) := insert_text d1 (Z.of_nat q) (Z.of_nat q) text in
        let! q2 := to_usize np2 in Ok (d2, q2)
  end.

(** cursor.rs:457-519 [insert_formatted_text]. *)
Definition cursor_insert_formatted (d : doc) (p a : nat) (text : str) (x : ins_fmt) : res (doc * nat) :=
  match insert_formatted_text d (Z.of_nat p) (Z.of_nat a) text (ins_to_cfmt x) with
  | Ok (d', np) => let! q := to_usize np in Ok (d', q)
  | Panic => Panic
  | Err =>
      if p =? a then Err
      else
        let! (d1, np, _) := delete_text d (Z.of_nat p) (Z.of_nat a) in
        let! q := to_usize np in
        let! (d2, np2) := insert_formatted_text d1 (Z.of_nat q) (Z.of_nat q) text (ins_to_cfmt x) in
        let! q2 := to_usize np2 in Ok (d2, q2)
  end.

(** cursor.rs:523-569 [insert_block]. *)
Definition cursor_insert_block (d : doc) (p a : nat) : res (doc * nat) :=
  let! (d1, q) :=
    (if p =? a then Ok (d, p)
     else let! (d1, np, _) := delete_text d (Z.of_nat p) (Z.of_nat a) in
          let! q := to_usize np in Ok (d1, q)) in
  let! (d2, np, _) := insert_block d1 (Z.of_nat q) in
  let! q2 := to_usize np in Ok (d2, q2).

(** cursor.rs:1602-1641 [remove_selected_text] (also [do_delete], which deletes
    the two positions it is given). *)
Definition cursor_remove_selected (d : doc) (p a : nat) : res (doc * nat * str) :=
  if p =? a then Ok (d, p, [])
  else
    let! (d', np, cut) := delete_text d (Z.of_nat p) (Z.of_nat a) in
    let! q := to_usize np in Ok (d', q, cut).

(** One call of a text-editing method. *)
Inductive edit :=
| EInsert (p a : nat) (text : str)
| EInsertFmt (p a : nat) (text : str) (x : ins_fmt)
| EBreak (p a : nat)
| ERemove (p a : nat).

Definition run_edit (d : doc) (e : edit) : res (doc * nat) :=
  match e with
  | EInsert p a text => cursor_insert_text d p a text
  | EInsertFmt p a text x => cursor_insert_formatted d p a text x
  | EBreak p a => cursor_insert_block d p a
  | ERemove p a => let! (d', q, _) := cursor_remove_selected d p a in Ok (d', q)
  end.

Fixpoint run_edits (d : doc) (es : list edit) : res doc :=
  match es with
  | [] => Ok d
  | e :: rest => let! (d', _) := run_edit d e in run_edits d' rest
  end.
