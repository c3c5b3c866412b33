(** What an undo history is to its user: the contents the document had, in
    order, with a marker at the present one. Written without the commands, the
    stacks and the functions that undo. *)
From Verif Require Import Base FormatRunsModel RopeModel DocModel DocSpec HistModel HistSpec PropSpec UndoModel SessionModel.

(** What a user sees of a document: characters with formats and breaks, the
    attributes of the paragraphs, the two stored counters. *)
Record content := mk_content {
  k_items : list item; k_attrs : list (option (option id * bfmt)); k_chars : Z; k_paras : Z
}.
Definition shows (d : doc) (k : content) : Prop :=
  doc_items d = Ok (k_items k) /\ para_attrs d = k_attrs k /\ d_chars d = k_chars k /\ d_nblocks d = k_paras k.

(** Paragraph attributes after an edit: a deletion joins the first paragraph
    with the rest of the last one and keeps the attributes of the first; a break
    gives its own attributes to both halves. *)
Definition edit_attrs {A} (e : edit) (its : list item) (attrs : list A) : list A :=
  let '(p, a) := edit_range e in
  let joined := firstn (S (breaks (lo its p a) its)) attrs ++ skipn (S (breaks (hi its p a) its)) attrs in
  match e with
  | EBreak _ _ => let k := breaks (lo its p a) its in firstn (S k) joined ++ skipn k joined
  | _ => joined
  end.
Definition after (e : edit) (k : content) : content :=
  let its := k_items k in
  let its' := spec_edit e its in
  mk_content its' (edit_attrs e its (k_attrs k))
    (k_chars k + (Z.of_nat (count_chars its') - Z.of_nat (count_chars its)))
    (k_paras k + (Z.of_nat (count_paras its') - Z.of_nat (count_paras its))).
(** The content set_plain_text gives. *)
Definition plain_content (text : str) : content :=
  let its := text_items (unify false text) in
  mk_content its (repeat (Some (None, bfmt_default)) (count_paras its)) (Z.of_nat (count_chars its)) (Z.of_nat (count_paras its)).
(** The content of a new document. Its paragraph counter is zero. *)
Definition first_content : content := mk_content [] [Some (None, bfmt_default)] 0 0.

(** What is remembered about the newest step, to decide whether the next edit
    may become part of it: characters typed up to a position at some time,
    a selection replaced by typing, one character erased (backwards or not). *)
Inductive mark := Typed (upto : nat) (t : N) | Replaced (upto : nat) (t : N) | Erased (at_ : nat) (back : bool) (t : N) | Other.
Definition mark_of (e : edit) (t : N) (its : list item) : mark :=
  match e with
  | EInsert p a text =>
      if p =? a then Typed (lo its p a + length text) t
      else if breaks (lo its p a) its =? breaks (hi its p a) its then Replaced (lo its p a + length text) t
      else Other
  | ERemove p a => if Nat.max p a - Nat.min p a =? 1 then Erased (Nat.min p a) (a <? p) t else Other
  | _ => Other
  end.
(** Typing that goes on where the last typing stopped, or erasing one more
    character in the same direction from where the last erasing stopped, within
    two seconds. *)
Definition joins (m : mark) (e : edit) (t : N) : Prop :=
  match m, e with
  | Typed q t0, EInsert p a _ => p = a /\ p = q /\ (t - t0 <= 2000)%N
  | Erased q back t0, ERemove p a =>
      Nat.max p a - Nat.min p a = 1 /\ (a <? p) = back
      /\ (if back then Nat.max p a else Nat.min p a) = q /\ (t - t0 <= 2000)%N
  | _, _ => False
  end.

(** Contents before the present one, newest first, and after it; [block]: an
    open edit block, with its depth, the content it started from and whether
    something has been edited in it. *)
Record history := mk_history {
  past : list (content * mark); now : content; future : list (mark * content);
  block : option (nat * content * bool)
}.
Definition first_history : history := mk_history [] first_content [] None.
Definition no_change (e : edit) : bool := match e with ERemove p a => p =? a | _ => false end.

Definition hstep (h : history) (c : call) (h' : history) : Prop :=
  match c with
  | Edit e t =>
      let next := after e (now h) in
      let m := mark_of e t (k_items (now h)) in
      if no_change e then h' = h
      else match block h with
           | Some (n, k0, _) => h' = mk_history (past h) next (future h) (Some (n, k0, true))
           | None =>
               h' = mk_history ((now h, m) :: past h) next [] None
               \/ exists k0 m0 before, past h = (k0, m0) :: before /\ joins m0 e t
                    /\ h' = mk_history ((k0, m) :: before) next [] None
           end
  | UndoCall =>
      match past h with
      | [] => h' = h
      | (k, m) :: before => h' = mk_history before k ((m, now h) :: future h) (block h)
      end
  | RedoCall =>
      match future h with
      | [] => h' = h
      | (m, k) :: later => h' = mk_history ((now h, m) :: past h) k later (block h)
      end
  | BeginBlock =>
      h' = mk_history (past h) (now h) (future h)
             (Some (match block h with Some (n, k0, b) => (S n, k0, b) | None => (1, now h, false) end))
  | EndBlock =>
      match block h with
      | None => h' = h
      | Some (S (S n), k0, b) => h' = mk_history (past h) (now h) (future h) (Some (S n, k0, b))
      | Some (_, k0, true) => h' = mk_history ((k0, Other) :: past h) (now h) [] None
      | Some (_, _, false) => h' = mk_history (past h) (now h) (future h) None
      end
  | ClearHistory => h' = mk_history [] (now h) [] (block h)
  | SetText text => h' = mk_history [] (plain_content text) [] (block h)
  | Format _ _ _ _ | BlockFormat _ _ _ => False
  end.
Fixpoint hrun (h : history) (cs : list call) (h' : history) : Prop :=
  match cs with [] => h' = h | c :: rest => exists h1, hstep h c h1 /\ hrun h1 rest h' end.

(** The calls the theorems are about: text edits at positions inside the
    document, undo, redo, clearing and set_plain_text outside edit blocks; and no
    typing that continues, within two seconds, where a replaced selection
    ended. *)
Definition call_fits (h : history) (c : call) : Prop :=
  match c with
  | Edit e t =>
      edit_ok e /\ snd (edit_range e) <= length (k_items (now h))
      /\ match block h, past h, e with
         | None, (_, Replaced q t0) :: _, EInsert p a _ => p = a -> p = q -> (2000 < t - t0)%N
         | _, _, _ => True
         end
  | UndoCall | RedoCall | ClearHistory | SetText _ => block h = None
  | BeginBlock | EndBlock => True
  | Format _ _ _ _ | BlockFormat _ _ _ => False
  end.
(** Whatever the history has become by then. *)
Fixpoint calls_fit (h : history) (cs : list call) : Prop :=
  match cs with
  | [] => True
  | c :: rest => call_fits h c /\ forall h', hstep h c h' -> calls_fit h' rest
  end.

(** The session is at the present of the history; the two queries tell whether
    there is a past and a future. *)
Definition nonempty {A} (l : list A) : bool := match l with [] => false | _ => true end.
Definition at_history (s : session) (h : history) : Prop :=
  shows (fst s) (now h)
  /\ can_undo (snd s) here = nonempty (past h) /\ can_redo (snd s) here = nonempty (future h).

(** Strings typed one after the other, each with its time. *)
Fixpoint typing (p : nat) (ts : list (str * N)) : list call :=
  match ts with [] => [] | (w, t) :: rest => Edit (EInsert p p w) t :: typing (p + length w) rest end.
(** Each within two seconds of the one before. *)
Fixpoint quick (t : N) (ts : list (str * N)) : Prop :=
  match ts with [] => True | (_, t') :: rest => (t' - t <= 2000)%N /\ quick t' rest end.
(** Letters and the like: not a character at which words end (insert_text_uc's
    rule: white space and ASCII punctuation). *)
Definition word_char (c : char) : Prop := is_boundary c = false.
(** The text of a session. *)
Definition text_of (r : res session) : res str := let! (d, _) := r in export_plain_text d.
