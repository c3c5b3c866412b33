(** Transactions, savepoints, id counters and the event buffer of a unit of work.

    Sources: crates/common/src/database/transactions.rs, rope_store.rs:57-152,
    crates/common/src/event.rs:172-225, and the units of work, all alike:
    crates/document_editing/src/units_of_work/insert_text_uow.rs:38-80. *)
From Coq Require Import List NArith Bool. Import ListNotations.
From Verif Require Import Base.

Section Txn.
(** [D]: the contents of all tables, the rope and the offset index
    (rope_store.rs:26-46). [Ev]: entity events. [refresh] is
    [recompute_all_frame_byte_ranges], run by every commit. *)
Context {D Ev : Type} (refresh : D -> D).

(** rope_store.rs:48-53: [counters] by entity name; [savepoints]. *)
Definition counters := list (N * N).
Definition counter (c : counters) (name : N) : option N :=
  match find (fun x => (fst x =? name)%N) c with Some (_, v) => Some v | None => None end.
Record store := mk_store {
  tables : D; cnts : counters; saves : list (N * (D * counters)); next_save : N
}.
(** rope_store.rs:116-123. *)
Definition create_savepoint (s : store) : store * N :=
  (mk_store (tables s) (cnts s) ((next_save s, (tables s, cnts s)) :: saves s) (next_save s + 1)%N, next_save s).
(** rope_store.rs:125-134 with [restore]: counters too. The savepoint is kept. *)
Definition restore_savepoint (s : store) (sp : N) : res store :=
  match find (fun x => (fst x =? sp)%N) (saves s) with
  | Some (_, (t, c)) => Ok (mk_store t c (saves s) (next_save s))
  | None => Panic
  end.
(** rope_store.rs:136-138. *)
Definition discard_savepoint (s : store) (sp : N) : store :=
  mk_store (tables s) (cnts s) (filter (fun x => negb (fst x =? sp)%N) (saves s)) (next_save s).
(** rope_store.rs:141-147: a counter starts at 1. *)
Definition next_id (s : store) (name : N) : store * N :=
  let v := match counter (cnts s) name with Some v => v | None => 1%N end in
  (mk_store (tables s) ((name, (v + 1)%N) :: cnts s) (saves s) (next_save s), v).

(** A unit of work over the store: the open transaction with its own savepoint,
    the event buffer, what was sent to the hub ([None] is the reset event), and
    two records for stating properties: the ids obtained in the open transaction
    and in the committed ones. *)
Record uow := mk_uow {
  st : store; txn : option N; buffering : bool; buffer : list Ev;
  hub : list (option Ev); fresh_ids : list (N * N); kept_ids : list (N * N)
}.
Definition uow_start (d : D) : uow := mk_uow (mk_store d [] [] 0%N) None false [] [] [] [].
Inductive uow_op :=
| Begin | Change (f : D -> D) | NewId (name : N) | Emit (e : Ev)
| MakeSavepoint | RestoreTo (sp : N) | RestoreTables (d : D)
| Commit | Rollback | Abandon.

(** transactions.rs:85-93 [drop]: an open transaction is undone. *)
Definition drop_txn (s : store) (t : option N) : res store :=
  match t with Some sp => restore_savepoint s sp | None => Ok s end.
(** Every action inside a unit of work unwraps its transaction. *)
Definition in_txn (u : uow) (k : N -> res uow) : res uow := match txn u with Some sp => k sp | None => Panic end.
Definition uow_step (u : uow) (o : uow_op) : res uow :=
  match o with
  | Begin =>                              (* uow:38-42; an open one is dropped after *)
      let (s, sp) := create_savepoint (st u) in
      let! s' := drop_txn s (txn u) in
      Ok (mk_uow s' (Some sp) true [] (hub u) [] (kept_ids u))
  | Change f =>
      in_txn u (fun _ => Ok (mk_uow (mk_store (f (tables (st u))) (cnts (st u)) (saves (st u)) (next_save (st u)))
        (txn u) (buffering u) (buffer u) (hub u) (fresh_ids u) (kept_ids u)))
  | NewId name =>
      in_txn u (fun _ => let (s, v) := next_id (st u) name in
        Ok (mk_uow s (txn u) (buffering u) (buffer u) (hub u) (fresh_ids u ++ [(name, v)]) (kept_ids u)))
  | Emit e =>                             (* event.rs:192-196 *)
      in_txn u (fun _ => Ok (mk_uow (st u) (txn u) (buffering u) (if buffering u then buffer u ++ [e] else buffer u)
        (hub u) (fresh_ids u) (kept_ids u)))
  | MakeSavepoint =>
      in_txn u (fun _ => let (s, _) := create_savepoint (st u) in
        Ok (mk_uow s (txn u) (buffering u) (buffer u) (hub u) (fresh_ids u) (kept_ids u)))
  | RestoreTo sp =>                       (* uow:62-80 *)
      in_txn u (fun _ => let! s := restore_savepoint (st u) sp in
        Ok (mk_uow s (txn u) false [] (hub u ++ [None]) (fresh_ids u) (kept_ids u)))
  | RestoreTables d =>                    (* rope_store.rs:100-114, 157-162: undo *)
      in_txn u (fun _ => Ok (mk_uow (mk_store d (cnts (st u)) (saves (st u)) (next_save (st u)))
        (txn u) (buffering u) (buffer u) (hub u) (fresh_ids u) (kept_ids u)))
  | Commit =>                             (* uow:44-50, transactions.rs:37-49 *)
      in_txn u (fun sp =>
        let s := discard_savepoint (mk_store (refresh (tables (st u))) (cnts (st u)) (saves (st u)) (next_save (st u))) sp in
        Ok (mk_uow s None false [] (hub u ++ map Some (buffer u)) [] (kept_ids u ++ fresh_ids u)))
  | Rollback =>                           (* uow:52-56, transactions.rs:51-60 *)
      in_txn u (fun sp => let! s := restore_savepoint (st u) sp in
        Ok (mk_uow s None false [] (hub u) [] (kept_ids u)))
  | Abandon =>                            (* the unit of work is dropped; a new one replaces it *)
      let! s := drop_txn (st u) (txn u) in Ok (mk_uow s None false [] (hub u) [] (kept_ids u))
  end.
Fixpoint uow_run (u : uow) (os : list uow_op) : res uow :=
  match os with [] => Ok u | o :: rest => let! u' := uow_step u o in uow_run u' rest end.
End Txn.
Arguments uow : clear implicits.
Arguments uow_op : clear implicits.
