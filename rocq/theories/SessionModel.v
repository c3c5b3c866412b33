(** The editing commands as undo/redo commands, and an editing session: the
    methods of a cursor and of the document that go through the undo stack.

    Sources: crates/document_editing/src/use_cases/{insert_text,
    insert_formatted_text,delete_text,insert_block}_uc.rs,
    crates/document_formatting/src/use_cases/*.rs, the controllers (which hand
    the executed use case to [add_command_to_stack]), and
    crates/public_api/src/{cursor,document}.rs. [Instant]s are milliseconds. *)
From Verif Require Import Base FormatRunsModel RopeModel DocModel HistModel UndoModel.

(** [char::is_whitespace]: the code points with the Unicode property
    White_Space. *)
Definition is_whitespace (c : char) : bool :=
  (((9 <=? c) && (c <=? 13)) || (c =? 32) || (c =? 133) || (c =? 160) || (c =? 5760)
   || ((8192 <=? c) && (c <=? 8202)) || (c =? 8232) || (c =? 8233) || (c =? 8239) || (c =? 8287) || (c =? 12288))%N.
(** editing_helpers.rs:155-160. *)
Definition is_punct (c : char) : bool :=
  existsb (N.eqb c) [46; 44; 59; 58; 33; 63; 40; 41; 91; 93; 123; 125; 34; 39; 45]%N.
Definition is_boundary (c : char) : bool := is_whitespace c || is_punct c.

(** insert_text_uc.rs:63-66 [InsertTextUndo]. *)
Inductive ins_undo := USimple (u : simple_undo) | USnap (s : doc).
(** The use cases with what they keep: the request, the result, the time
    ([last_dto], [last_result], [last_merge_time]) and the undo data. A
    snapshot is taken before the first change, so it is the document given. *)
Inductive cmd :=
| CInsert (p a : Z) (text : str) (np : Z) (time : N) (over : bool) (u : ins_undo)
| CInsertFmt (p a : Z) (text : str) (x : ins_fmt) (u : ins_undo)
| CDelete (p a : Z) (np : Z) (cut : str) (time : N) (single : bool) (snap : doc)
| CBreak (p : Z) (snap : doc)
| CFormat (set : bool) (q : fmt_req) (p a : Z) (ivs : list fmt_inverse)
| CBlockFormat (q : bfmt_req) (p a : Z) (snap : doc).

(** insert_text_uc.rs:497-517 [execute]. *)
Definition exec_insert (p a : Z) (text : str) (d : doc) : res (doc * Z * ins_undo) :=
  if (p =? a)%Z then let! (d', np, u) := insert_text_simple d p text in Ok (d', np, USimple u)
  else let! (d', np) := insert_text_selection d p a text in Ok (d', np, USnap d).
Definition do_insert (t : N) (p a : Z) (text : str) (d : doc) : res (doc * Z * cmd) :=
  let! (d', np, u) := exec_insert p a text d in Ok (d', np, CInsert p a text np t (negb (p =? a)%Z) u).
(** insert_formatted_text_uc.rs:428-446. *)
Definition exec_insert_fmt (p a : Z) (text : str) (x : ins_fmt) (d : doc) : res (doc * Z * ins_undo) :=
  if (p =? a)%Z then let! (d', np, u) := insert_formatted_simple d p text (ins_to_cfmt x) in Ok (d', np, USimple u)
  else let! (d', np) := insert_formatted_selection d p a text (ins_to_cfmt x) in Ok (d', np, USnap d).
Definition do_insert_fmt (p a : Z) (text : str) (x : ins_fmt) (d : doc) : res (doc * Z * cmd) :=
  let! (d', np, u) := exec_insert_fmt p a text x d in Ok (d', np, CInsertFmt p a text x u).
(** delete_text_uc.rs:926-939. *)
Definition do_delete (t : N) (p a : Z) (d : doc) : res (doc * Z * cmd) :=
  let! (d', np, cut) := delete_text d p a in
  Ok (d', np, CDelete p a np cut t (Z.abs (p - a) =? 1)%Z d).
(** insert_block_uc.rs:274-284. *)
Definition do_break (p : Z) (d : doc) : res (doc * Z * cmd) :=
  let! (d', np, _) := insert_block d p in Ok (d', np, CBreak p d).
(** set_text_format_uc.rs:335-346, merge_text_format_uc.rs, set_block_format_uc.rs:177-188. *)
Definition exec_format (set : bool) (q : fmt_req) (p a : Z) (d : doc) : res (doc * list fmt_inverse) :=
  if set then set_text_format q d p a else merge_text_format q d p a.
Definition do_format (set : bool) (q : fmt_req) (p a : Z) (d : doc) : res (doc * cmd) :=
  let! (d', ivs) := exec_format set q p a d in Ok (d', CFormat set q p a ivs).
Definition do_block_format (q : bfmt_req) (p a : Z) (d : doc) : res (doc * cmd) :=
  let! d' := set_block_format q d p a in Ok (d', CBlockFormat q p a d).

(** The [undo] methods. *)
Definition undo_ins (d : doc) (u : ins_undo) : res doc :=
  match u with USimple u => undo_simple d u | USnap s => Ok (restore_snapshot d s) end.
Definition undo_cmd (d : doc) (c : cmd) : res doc :=
  match c with
  | CInsert _ _ _ _ _ _ u | CInsertFmt _ _ _ _ u => undo_ins d u
  | CDelete _ _ _ _ _ _ snap | CBreak _ snap | CBlockFormat _ _ _ snap => Ok (restore_snapshot d snap)
  | CFormat _ _ _ _ ivs => Ok (apply_inverse d ivs)
  end.
(** The [redo] methods: the request is executed again and the undo data
    replaced; result and time are kept. *)
Definition redo_cmd (d : doc) (c : cmd) : res (doc * cmd) :=
  match c with
  | CInsert p a text np t over _ =>
      let! (d', _, u) := exec_insert p a text d in Ok (d', CInsert p a text np t over u)
  | CInsertFmt p a text x _ =>
      let! (d', _, u) := exec_insert_fmt p a text x d in Ok (d', CInsertFmt p a text x u)
  | CDelete p a np cut t single _ =>
      let! (d', _, _) := delete_text d p a in Ok (d', CDelete p a np cut t single d)
  | CBreak p _ => let! (d', _, _) := insert_block d p in Ok (d', CBreak p d)
  | CFormat set q p a _ => let! (d', ivs) := exec_format set q p a d in Ok (d', CFormat set q p a ivs)
  | CBlockFormat q p a _ => let! d' := set_block_format q d p a in Ok (d', CBlockFormat q p a d)
  end.

(** insert_text_uc.rs:584-633 [can_merge]; [duration_since] saturates at zero. *)
Definition last_char (t : str) : option char := match rev t with c :: _ => Some c | [] => None end.
Definition first_char (t : str) : option char := match t with c :: _ => Some c | [] => None end.
Definition can_merge_insert (text : str) (np : Z) (t : N) (p' : Z) (text' : str) (t' : N) (over' : bool) : bool :=
  (t' - t <=? 2000)%N && negb over' && (p' =? np)%Z && (length text + length text' <=? 200)
  && negb (match last_char text, first_char text' with
           | Some l, Some f => is_boundary l && negb (is_boundary f) | _, _ => false end).
(** delete_text_uc.rs:972-1027 [can_merge]. *)
Definition can_merge_delete (p a np : Z) (cut : str) (t : N) (single : bool) (p' a' : Z) (t' : N) : bool :=
  (t' - t <=? 2000)%N && single && (Z.abs (p' - a') =? 1)%Z && Bool.eqb (a <? p)%Z (a' <? p')%Z
  && ((if a <? p then Z.max p' a' else Z.min p' a') =? np)%Z
  && (Z.abs (p - a) + 1 <=? 200)%Z
  && negb (match first_char cut with Some c => is_boundary c | None => false end).
(** insert_text_uc.rs:635-665, delete_text_uc.rs:1029-1066 [merge]. *)
Definition widen (u u' : ins_undo) : ins_undo :=
  match u, u' with
  | USimple x, USimple y => USimple (mk_su (su_id x) (su_block x) (su_runs x) (su_images x) (su_chars x) (su_off x) (su_len x + su_len y))
  | _, _ => u
  end.
Definition merge_cmd (c c' : cmd) : option cmd :=
  match c, c' with
  | CInsert p a text np t over u, CInsert p' _ text' np' t' over' u' =>
      if can_merge_insert text np t p' text' t' over'
      then Some (CInsert p p (text ++ text') np' t' over (widen u u')) else None
  | CDelete p a np cut t single snap, CDelete p' a' np' cut' t' _ _ =>
      if can_merge_delete p a np cut t single p' a' t'
      then Some (CDelete p (if a <? p then a - 1 else a + 1)%Z np' cut' t' single snap) else None
  | _, _ => None
  end.

(** The document with its undo manager; inner.rs:320-376 creates stack 1. *)
Definition session := (doc * manager cmd)%type.
Definition new_history : manager cmd := fst (m_create new_manager).
Definition here : option N := Some 1%N.
(** A controller: execute, then [add_command_to_stack]. *)
Definition record (m : manager cmd) (c : cmd) : manager cmd := fst (m_add merge_cmd m c here).

(** cursor.rs:391-569, 1602-1641 with the undo manager; [None] is an error
    returned to the caller, whatever has been changed by then. [f] inserts text. *)
Definition s_insert (f : Z -> Z -> doc -> res (doc * Z * cmd)) (t : N) (s : session) (p a : nat) : res (session * option nat) :=
  let (d, m) := s in
  match f (Z.of_nat p) (Z.of_nat a) d with
  | Ok (d', np, c) => let! q := to_usize np in Ok ((d', record m c), Some q)
  | Panic => Panic
  | Err =>
      if p =? a then Ok (s, None)
      else
        let m1 := fst (m_begin m here) in
        match do_delete t (Z.of_nat p) (Z.of_nat a) d with
        | Panic => Panic
        | Err => Ok ((d, m1), None)
        | Ok (d1, np, c) =>
            let m2 := record m1 c in
            let! q := to_usize np in
            match f (Z.of_nat q) (Z.of_nat q) d1 with
            | Panic => Panic
            | Err => Ok ((d1, m2), None)
            | Ok (d2, np2, c2) =>
                let! m3 := m_end (record m2 c2) in
                let! q2 := to_usize np2 in Ok ((d2, m3), Some q2)
            end
        end
  end.
Definition s_break (t : N) (s : session) (p a : nat) : res (session * option nat) :=
  let (d, m) := s in
  if p =? a then
    match do_break (Z.of_nat p) d with
    | Panic => Panic
    | Err => Ok (s, None)
    | Ok (d', np, c) => let! q := to_usize np in Ok ((d', record m c), Some q)
    end
  else
    let m1 := fst (m_begin m here) in
    match do_delete t (Z.of_nat p) (Z.of_nat a) d with
    | Panic => Panic
    | Err => Ok ((d, m1), None)
    | Ok (d1, np, c) =>
        let m2 := record m1 c in
        let! q := to_usize np in
        match do_break (Z.of_nat q) d1 with
        | Panic => Panic
        | Err => Ok ((d1, m2), None)
        | Ok (d2, np2, c2) =>
            let! m3 := m_end (record m2 c2) in
            let! q2 := to_usize np2 in Ok ((d2, m3), Some q2)
        end
    end.
Definition s_remove (t : N) (s : session) (p a : nat) : res (session * option nat) :=
  let (d, m) := s in
  if p =? a then Ok (s, Some p)
  else match do_delete t (Z.of_nat p) (Z.of_nat a) d with
       | Panic => Panic
       | Err => Ok (s, None)
       | Ok (d', np, c) => let! q := to_usize np in Ok ((d', record m c), Some q)
       end.
Definition s_edit (t : N) (s : session) (e : edit) : res (session * option nat) :=
  match e with
  | EInsert p a text => s_insert (fun p a d => do_insert t p a text d) t s p a
  | EInsertFmt p a text x => s_insert (fun p a d => do_insert_fmt p a text x d) t s p a
  | EBreak p a => s_break t s p a
  | ERemove p a => s_remove t s p a
  end.
(** Calls on a cursor or on the document. Formatting: cursor.rs:1909-1973;
    set_plain_text: document.rs:163-191; clear_undo_redo: document.rs:848-852. *)
Inductive call :=
| Edit (e : edit) (t : N) | Format (set : bool) (q : fmt_req) (p a : nat) | BlockFormat (q : bfmt_req) (p a : nat)
| UndoCall | RedoCall | BeginBlock | EndBlock | ClearHistory | SetText (text : str).
Definition s_step (s : session) (c : call) : res session :=
  let (d, m) := s in
  match c with
  | Edit e t => let! (s', _) := s_edit t s e in Ok s'
  | Format set q p a =>
      match do_format set q (Z.of_nat p) (Z.of_nat a) d with
      | Ok (d', c) => Ok (d', record m c) | Err => Ok s | Panic => Panic end
  | BlockFormat q p a =>
      match do_block_format q (Z.of_nat p) (Z.of_nat a) d with
      | Ok (d', c) => Ok (d', record m c) | Err => Ok s | Panic => Panic end
  | UndoCall => let! (d', m', _) := m_undo undo_cmd d m here in Ok (d', m')
  | RedoCall => let! (d', m', _) := m_redo redo_cmd d m here in Ok (d', m')
  | BeginBlock => Ok (d, fst (m_begin m here))
  | EndBlock => let! m' := m_end m in Ok (d, m')
  | ClearHistory => Ok (d, m_clear m 1)
  | SetText text => Ok (import_plain_text d text, m_clear m 1)
  end.
Fixpoint s_run (s : session) (cs : list call) : res session :=
  match cs with [] => Ok s | c :: rest => let! s' := s_step s c in s_run s' rest end.
Definition new_session : session := (new_document, new_history).
