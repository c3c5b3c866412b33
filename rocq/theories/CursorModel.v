(** Several cursors on one document: editing, moving, selecting, and the change
    events that go with an edit.

    Source: crates/public_api/src/{cursor,inner,document}.rs, flat documents
    (no table: [table_cell_at] answers nothing and no position is snapped to a
    table edge). The segmentation of a text into grapheme clusters is a
    parameter: its Unicode tables are not modelled. *)
From Verif Require Import Base FormatRunsModel RopeModel DocModel HistModel QueryModel DiffModel.

(** [result.unwrap_or(default)]: an error becomes the default, a panic stays. *)
Definition or_default {A} (x : res A) (dflt : A) : res A :=
  match x with Ok a => Ok a | Err => Ok dflt | Panic => Panic end.

Section Graphemes.
(** [unicode_segmentation::UnicodeSegmentation::graphemes(text, true)]. *)
Variable graphemes : str -> list str.

(** The block a position query answers: start and length, through [to_usize]. *)
Definition block_info (d : doc) (pos : nat) : res (nat * nat) :=
  let! (_, start, len, _) := block_at_position d (Z.of_nat pos) in
  let! s := to_usize start in
  let! n := to_usize len in
  Ok (s, n).
Definition text_info (d : doc) (pos len : nat) : res str :=
  let! (_, t) := text_at_position d (Z.of_nat pos) (Z.of_nat len) in Ok t.

(** cursor.rs:2312-2352 [next_grapheme_boundary]. *)
Definition next_grapheme (d : doc) (pos : nat) : res nat :=
  let! end_ := or_default (max_cursor_position d) pos in
  if end_ <=? pos then Ok pos
  else
    match block_info d pos with
    | Panic => Panic
    | Err => Ok (pos + 1)
    | Ok (start, len) =>
        let off := pos - start in
        if len <=? off then Ok (Nat.min (pos + 1) end_)
        else
          match text_info d pos (len - off) with
          | Panic => Panic
          | Err => Ok (pos + 1)
          | Ok t =>
              match graphemes t with
              | ((_ :: _) as g) :: _ => Ok (Nat.min (pos + length g) end_)
              | _ => Ok (Nat.min (pos + 1) end_)
              end
          end
    end.

(** cursor.rs:2357-2393 [prev_grapheme_boundary]. *)
Definition prev_grapheme (d : doc) (pos : nat) : res nat :=
  if pos =? 0 then Ok 0
  else
    match block_info d (pos - 1) with
    | Panic => Panic
    | Err => Ok (pos - 1)
    | Ok (start, len) =>
        if start + len <? pos then Ok (pos - 1)
        else if (len =? 0) || (pos <=? start) then Ok (pos - 1)
        else
          match text_info d start (pos - start) with
          | Panic => Panic
          | Err => Ok (pos - 1)
          | Ok t =>
              match rev (graphemes t) with
              | ((_ :: _) as g) :: _ => if length g <=? pos then Ok (pos - length g) else Panic
              | _ => Ok (pos - 1)
              end
          end
    end.

(** cursor.rs:2286-2295: the first cluster edge at or after an offset. *)
Fixpoint snap_go (gs : list str) (acc off : nat) : nat :=
  match gs with
  | [] => acc
  | g :: rest => if off <=? acc then acc else snap_go rest (acc + length g) off
  end.
(** cursor.rs:2250-2296 [forward_grapheme_boundary_at_or_after]. *)
Definition snap (d : doc) (pos : nat) : res nat :=
  let! end_ := or_default (max_cursor_position d) pos in
  if end_ <=? pos then Ok pos
  else
    match block_info d pos with
    | Panic => Panic
    | Err => Ok pos
    | Ok (start, len) =>
        let off := pos - start in
        if (off =? 0) || (len <=? off) then Ok pos
        else
          match text_info d start len with
          | Panic => Panic
          | Err => Ok pos
          | Ok t => Ok (start + snap_go (graphemes t) 0 off)
          end
    end.

(** inner.rs:36-41 [CursorData] without the cell selection. *)
Record cursor := mk_cursor { c_pos : nat; c_anchor : nat }.

(** cursor.rs:2231-2242 [snap_position_to_grapheme_boundary]. *)
Definition snap_cursor (d : doc) (c : cursor) : res cursor :=
  let! q := snap d (c_pos c) in
  if q =? c_pos c then Ok c
  else Ok (mk_cursor q (if c_anchor c =? c_pos c then q else c_anchor c)).

(** cursor.rs:279-331 [set_position]; [keep] is [MoveMode::KeepAnchor]. *)
Definition set_position (d : doc) (c : cursor) (position : nat) (keep : bool) : res cursor :=
  let! end_ := or_default (max_cursor_position d) 0 in
  let pos := Nat.min position end_ in
  snap_cursor d (mk_cursor pos (if keep then c_anchor c else pos)).

(** document.rs:332-345 [cursor_at]: no clamping. *)
Definition cursor_at (d : doc) (position : nat) : res cursor := snap_cursor d (mk_cursor position position).

(** cursor.rs:2066-2092, 2093-2135 [resolve_move]: the cases that do not need
    word segmentation. *)
Inductive move := MNone | MStart | MEnd | MNext | MPrev | MBlockStart | MBlockEnd | MNextBlock | MPrevBlock.
Fixpoint repeat_move (step : nat -> res nat) (n cur : nat) : res nat :=
  match n with
  | 0 => Ok cur
  | S n' => let! q := step cur in if q =? cur then Ok cur else repeat_move step n' q
  end.
Definition resolve_move (d : doc) (pos : nat) (m : move) (n : nat) : res nat :=
  match m with
  | MNone => Ok pos
  | MStart => Ok 0
  | MEnd => or_default (max_cursor_position d) pos
  | MNext => repeat_move (next_grapheme d) n pos
  | MPrev => repeat_move (prev_grapheme d) n pos
  | MBlockStart => or_default (let! (s, _) := block_info d pos in Ok s) pos
  | MBlockEnd => or_default (let! (s, l) := block_info d pos in Ok (s + l)) pos
  | MNextBlock => or_default (let! (s, l) := block_info d pos in Ok (s + l + 1)) pos
  | MPrevBlock =>
      let! s := or_default (let! (s, _) := block_info d pos in Ok s) pos in
      if 2 <=? s then or_default (let! (s', _) := block_info d (s - 2) in Ok s') 0 else Ok 0
  end.
(** cursor.rs:339-344 [move_position]; the answer is whether the cursor moved. *)
Definition move_position (d : doc) (c : cursor) (m : move) (keep : bool) (n : nat) : res (cursor * bool) :=
  let! target := resolve_move d (c_pos c) m n in
  let! c' := set_position d c target keep in
  Ok (c', negb (c_pos c' =? c_pos c)).

(** cursor.rs:347-376 [select] for the document and the block. *)
Definition select_document (d : doc) : res cursor :=
  let! e := or_default (max_cursor_position d) 0 in Ok (mk_cursor e 0).
Definition select_block (d : doc) (c : cursor) : res cursor :=
  match block_info d (c_pos c) with
  | Panic => Panic
  | Err => Ok c
  | Ok (s, l) => Ok (mk_cursor (s + l) s)
  end.

(** What a cursor can be told to do to the text. *)
Inductive cedit := KInsert (text : str) | KInsertFmt (text : str) (x : ins_fmt) | KBreak | KRemove.
Definition to_edit (c : cursor) (k : cedit) : edit :=
  match k with
  | KInsert text => EInsert (c_pos c) (c_anchor c) text
  | KInsertFmt text x => EInsertFmt (c_pos c) (c_anchor c) text x
  | KBreak => EBreak (c_pos c) (c_anchor c)
  | KRemove => ERemove (c_pos c) (c_anchor c)
  end.

(** inner.rs:115-127 [adjust_cursors] on live cursors. *)
Definition adjust_cursor (e r a : nat) (c : cursor) : cursor :=
  mk_cursor (adjust_offset (c_pos c) e r a) (adjust_offset (c_anchor c) e r a).
Definition adjust_cursors (cs : list cursor) (e r a : nat) : list cursor := map (adjust_cursor e r a) cs.
Fixpoint set_nth {A} (l : list A) (k : nat) (x : A) : list A :=
  match l, k with
  | [], _ => []
  | _ :: l', 0 => x :: l'
  | y :: l', S k' => y :: set_nth l' k' x
  end.

(** cursor.rs:391-454, 457-519, 523-569, 1602-1641 with [finish_edit_ext]
    (cursor.rs:100-135): the new document, all cursors, and the
    [ContentsChanged] report (position, removed, added) if any. *)
Definition cursor_edit_step (d : doc) (cs : list cursor) (k : nat) (ce : cedit)
  : res (doc * list cursor * option (nat * nat * nat)) :=
  match nth_error cs k with
  | None => Ok (d, cs, None)
  | Some c =>
      let p := c_pos c in let a := c_anchor c in
      match ce with
      | KRemove =>
          if p =? a then Ok (d, cs, None)
          else
            let! (d', np) := run_edit d (to_edit c ce) in
            let e := Nat.min p a in let r := Nat.max p a - e in
            Ok (d', set_nth (adjust_cursors cs e r 0) k (mk_cursor np np), Some (e, r, 0))
      | _ =>
          let! (d', np) := run_edit d (to_edit c ce) in
          let e := Nat.min p a in let r := Nat.max p a - e in
          let ad := np - e in
          Ok (d', set_nth (adjust_cursors cs e r ad) k (mk_cursor np np), Some (e, r, ad))
      end
  end.

(** A session: the document and its live cursors. *)
Inductive cop :=
| OpNew (position : nat)                                  (* document.rs [cursor_at] *)
| OpDrop (k : nat)                                        (* a cursor is dropped *)
| OpEdit (k : nat) (ce : cedit)
| OpSet (k position : nat) (keep : bool)
| OpMove (k : nat) (m : move) (keep : bool) (n : nat)
| OpSelectAll (k : nat)
| OpSelectBlock (k : nat)
| OpClear (k : nat)                                       (* [clear_selection] *)
| OpImport (s : str).                                     (* [set_plain_text] *)

Definition session := (doc * list cursor)%type.
Definition update_cursor (s : session) (k : nat) (f : cursor -> res cursor) : res session :=
  match nth_error (snd s) k with
  | None => Ok s
  | Some c => let! c' := f c in Ok (fst s, set_nth (snd s) k c')
  end.
Definition cstep (s : session) (o : cop) : res session :=
  let d := fst s in
  match o with
  | OpNew p => let! c := cursor_at d p in Ok (d, snd s ++ [c])
  | OpDrop k => Ok (d, firstn k (snd s) ++ skipn (S k) (snd s))
  | OpEdit k ce => let! (d', cs, _) := cursor_edit_step d (snd s) k ce in Ok (d', cs)
  | OpSet k p keep => update_cursor s k (fun c => set_position d c p keep)
  | OpMove k m keep n => update_cursor s k (fun c => let! (c', _) := move_position d c m keep n in Ok c')
  | OpSelectAll k => update_cursor s k (fun _ => select_document d)
  | OpSelectBlock k => update_cursor s k (fun c => select_block d c)
  | OpClear k => update_cursor s k (fun c => Ok (mk_cursor (c_pos c) (c_pos c)))
  | OpImport t => Ok (import_plain_text d t, snd s)
  end.
Fixpoint csteps (s : session) (os : list cop) : res session :=
  match os with [] => Ok s | o :: rest => let! s' := cstep s o in csteps s' rest end.
End Graphemes.

(** Flow events of an edit: inner.rs:237-280 called by [finish_edit_ext] unless
    the method passes [flow_may_change = false] (cursor.rs:449, 515). The second
    component is [last_child_order]. *)
Definition checks_flow (e : edit) : bool :=
  match e with EInsert _ _ _ | EInsertFmt _ _ _ _ => false | EBreak _ _ => true | ERemove p a => negb (p =? a) end.
Definition flow_step (d : doc) (last : list id) (e : edit) : res (doc * list id * list flow_event) :=
  let! (d', _) := run_edit d e in
  if checks_flow e then Ok (d', d_order d', flow_events N.eqb last (d_order d')) else Ok (d', last, []).
Fixpoint flow_run (d : doc) (last : list id) (es : list edit) : res (doc * list id * list (list id * list flow_event)) :=
  match es with
  | [] => Ok (d, last, [])
  | e :: rest =>
      let! (d', last', evs) := flow_step d last e in
      let! (d2, last2, more) := flow_run d' last' rest in
      Ok (d2, last2, (d_order d', evs) :: more)
  end.
