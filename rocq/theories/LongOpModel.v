(** Long operations (Markdown and HTML import, DOCX export): worker threads,
    cancelling, results, and what the rest of the document sees meanwhile.

    Sources: crates/common/src/long_operation.rs, crates/public_api/src/operation.rs,
    crates/public_api/src/document.rs:185-300, inner.rs:216-218, 310-317,
    crates/document_io/src/use_cases/{import_markdown,import_html,export_docx}_uc.rs,
    crates/common/src/database/transactions.rs.

    One label is one atomic access: a lock taken and released, an atomic load or
    store. Calls on operations hold the manager's mutex (operation.rs:76-80), so
    they do not interleave with each other; [cancel] is two accesses, which worker
    steps, edits and reads may separate. Progress values and panicking workers are left out. *)
From Coq Require Import List NArith Bool. Import ListNotations.
From Verif Require Import Base.

Section LongOp.
(** [D]: the store. [T]: the exported text, by [text]. [R]: results, [X]: errors.
    [cancelled] is the error "Operation was cancelled". *)
Context {D T R X : Type} (text : D -> T) (cancelled : X).

(** long_operation.rs:119-125. *)
Inductive status := Running | Completed | Cancelled | Failed (e : X).

(** Where a worker is. [save]: the transaction's savepoint, none for an export
    (a read transaction). *)
Inductive pc :=
| PStart (import : bool)                 (* thread spawned, before begin_transaction *)
| PWork (save : option D)                (* inside execute *)
| PPassed (save : option D)              (* import_*_uc: the last check of the flag has passed *)
| PReturned (r : R + X)                  (* execute returned *)
| PStoring (r : R)                       (* long_operation.rs:302-309: flag read false, result not stored yet *)
| PDecided (s : status)                  (* final status known, event not sent *)
| PAnnounced (s : status)                (* event sent, status not written *)
| PGone.

(** long_operation.rs:179-184: the cells a worker shares with its handle. *)
Record cell := mk_cell { c_flag : bool; c_status : status }.
(** [s_listed]: the handle is in [operations]; [s_undo]: how many calls can be
    undone; [s_events]: final events sent ([true] for Completed). *)
Record state := mk_state {
  s_doc : D; s_cache : option T; s_undo : nat;
  s_next : N; s_cells : N -> option cell; s_listed : N -> bool; s_results : N -> option R;
  s_pcs : N -> pc; s_cancelling : option N; s_events : list (N * status)
}.
Definition start (d : D) : state :=
  mk_state d None 0 0%N (fun _ => None) (fun _ => false) (fun _ => None) (fun _ => PGone) None [].

Definition upd {A} (f : N -> A) (i : N) (x : A) : N -> A := fun j => if N.eqb j i then x else f j.
Definition set_pc (s : state) (i : N) (p : pc) : state :=
  mk_state (s_doc s) (s_cache s) (s_undo s) (s_next s) (s_cells s) (s_listed s) (s_results s) (upd (s_pcs s) i p)
    (s_cancelling s) (s_events s).
Definition set_doc (s : state) (d : D) : state :=
  mk_state d (s_cache s) (s_undo s) (s_next s) (s_cells s) (s_listed s) (s_results s) (s_pcs s) (s_cancelling s) (s_events s).
Definition set_cell (s : state) (i : N) (c : cell) : state :=
  mk_state (s_doc s) (s_cache s) (s_undo s) (s_next s) (upd (s_cells s) i (Some c)) (s_listed s) (s_results s) (s_pcs s)
    (s_cancelling s) (s_events s).
Definition set_cache (s : state) (c : option T) : state :=
  mk_state (s_doc s) c (s_undo s) (s_next s) (s_cells s) (s_listed s) (s_results s) (s_pcs s) (s_cancelling s) (s_events s).
Definition set_cancelling (s : state) (o : option N) : state :=
  mk_state (s_doc s) (s_cache s) (s_undo s) (s_next s) (s_cells s) (s_listed s) (s_results s) (s_pcs s) o (s_events s).
Definition send (s : state) (i : N) (x : status) : state :=
  mk_state (s_doc s) (s_cache s) (s_undo s) (s_next s) (s_cells s) (s_listed s) (s_results s) (s_pcs s) (s_cancelling s)
    (s_events s ++ [(i, x)]).

(** Steps inside a worker. *)
Inductive act :=
| ABegin            (* begin_transaction *)
| AChange (f : D -> D)   (* any change an import makes to the store *)
| AAbort            (* a check that finds the flag set: roll back, return the error *)
| APass             (* the last check finds it clear *)
| ACommit (r : R)   (* commit, return a result *)
| AReturn (r : R)   (* an export returns *)
| AFail (e : X)     (* an error: the transaction is rolled back or dropped *)
| ALoad             (* long_operation.rs:298: the flag read once more *)
| AStore            (* 302-309 *)
| AAnnounce         (* 314-337 *)
| ASet.             (* 340 *)
Definition flag_of (s : state) (i : N) : bool := match s_cells s i with Some c => c_flag c | None => false end.
Definition undone (s : state) (save : option D) : state := match save with Some d => set_doc s d | None => s end.
(** [None]: the step is not possible in this state. *)
Definition work (s : state) (i : N) (a : act) : option state :=
  match s_pcs s i, a with
  | PStart import, ABegin => Some (set_pc s i (PWork (if import then Some (s_doc s) else None)))
  | PStart _, AFail e => Some (set_pc s i (PReturned (inr e)))
  | PWork (Some d), AChange f => Some (set_doc s (f (s_doc s)))
  | PWork save, AAbort => if flag_of s i then Some (set_pc (undone s save) i (PReturned (inr cancelled))) else None
  | PWork (Some d), APass => if flag_of s i then None else Some (set_pc s i (PPassed (Some d)))
  | PPassed (Some d), ACommit r => Some (set_pc s i (PReturned (inl r)))
  | PWork None, AReturn r => Some (set_pc s i (PReturned (inl r)))
  | PWork save, AFail e => Some (set_pc (undone s save) i (PReturned (inr e)))
  | PReturned r, ALoad =>
      Some (set_pc s i (if flag_of s i then PDecided Cancelled
                        else match r with inl v => PStoring v | inr e => PDecided (Failed e) end))
  | PStoring r, AStore =>
      Some (set_pc (mk_state (s_doc s) (s_cache s) (s_undo s) (s_next s) (s_cells s) (s_listed s)
                      (upd (s_results s) i (Some r)) (s_pcs s) (s_cancelling s) (s_events s)) i (PDecided Completed))
  | PDecided x, AAnnounce => Some (set_pc (send s i x) i (PAnnounced x))
  | PAnnounced x, ASet => Some (set_pc (set_cell s i (mk_cell (flag_of s i) x)) i PGone)
  | _, _ => None
  end.

(** long_operation.rs:200-206 [is_finished]. *)
Definition finished (x : status) : bool := match x with Running => false | _ => true end.

Inductive label :=
| Begin (import : bool)        (* set_markdown, set_html (document.rs:196, 229) or to_docx (268) *)
| CancelFlag (i : N)           (* long_operation.rs:194: the flag is stored *)
| CancelStatus                 (* 195-198, 376-386: the status is written, the event sent *)
| Cleanup                      (* 397-400 *)
| Edit (f : D -> D)            (* a call that edits the document and can be undone *)
| ReadText                     (* to_plain_text *)
| Worker (i : N) (a : act).
Definition step (s : state) (l : label) : option state :=
  match l with
  | Worker i a => work s i a
  | CancelStatus =>
      match s_cancelling s with
      | Some i =>
          match s_cells s i with
          | Some c => Some (send (set_cancelling (set_cell s i (mk_cell (c_flag c) (match c_status c with Running => Cancelled | x => x end))) None) i Cancelled)
          | None => None
          end
      | None => None
      end
  | Edit f =>              (* cursor.rs:122 and the others: the cached text is dropped *)
      Some (mk_state (f (s_doc s)) None (S (s_undo s)) (s_next s) (s_cells s) (s_listed s) (s_results s) (s_pcs s) (s_cancelling s) (s_events s))
  | ReadText =>            (* inner.rs:311-317 *)
      Some (set_cache s (match s_cache s with Some t => Some t | None => Some (text (s_doc s)) end))
  | _ =>
    match s_cancelling s with
    | Some _ => None           (* the manager is locked *)
    | None =>
      match l with
      | Begin import =>        (* long_operation.rs:249-354; the import calls drop the cached text first *)
          let i := N.succ (s_next s) in
          Some (mk_state (s_doc s) (if import then None else s_cache s) (s_undo s) i
                 (upd (s_cells s) i (Some (mk_cell false Running))) (upd (s_listed s) i true) (s_results s)
                 (upd (s_pcs s) i (PStart import)) None (s_events s))
      | CancelFlag i =>
          if s_listed s i then
            match s_cells s i with
            | Some c => Some (set_cancelling (set_cell s i (mk_cell true (c_status c))) (Some i))
            | None => None
            end
          else Some s
      | Cleanup =>
          Some (mk_state (s_doc s) (s_cache s) (s_undo s) (s_next s) (s_cells s)
                 (fun i => s_listed s i && negb (match s_cells s i with Some c => finished (c_status c) | None => true end))
                 (s_results s) (s_pcs s) None (s_events s))
      | _ => None
      end
    end
  end.
Fixpoint exec (s : state) (ls : list label) : option state :=
  match ls with [] => Some s | l :: rest => match step s l with Some s' => exec s' rest | None => None end end.

(** ** What a client sees *)
(** long_operation.rs:357-360 [get_operation_status]. *)
Definition operation_status (s : state) (i : N) : option status :=
  if s_listed s i then option_map c_status (s_cells s i) else None.
(** operation.rs:71-73, 83-114: [is_done], [try_result]; [wait] returns once this
    is not [None]. *)
Definition operation_result (s : state) (i : N) : option R := s_results s i.
(** document.rs:188-191 [to_plain_text]. *)
Definition plain_text (s : state) : T := match s_cache s with Some t => t | None => text (s_doc s) end.
End LongOp.
Arguments status : clear implicits.
Arguments pc : clear implicits.
Arguments cell : clear implicits.
Arguments state : clear implicits.
Arguments act : clear implicits.
Arguments label : clear implicits.
