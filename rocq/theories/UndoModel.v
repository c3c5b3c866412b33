(** The undo/redo manager. Source: crates/common/src/undo_redo.rs.

    Left out: the events it sends, and asynchronous commands (lines 146-171),
    which no code uses. *)
From Coq Require Import List NArith Bool. Import ListNotations.
From Verif Require Import Base.

Section Undo.
(** [W]: everything a command can act on. [C]: commands other than groups, with
    the trait methods [undo], [redo] (which may change the command) and
    [can_merge] followed by [merge] (undo_redo.rs:16-74). [Err] leaves the world
    as it was, because use cases run in a transaction (TxnModel). *)
Context {W C : Type} (undo_c : W -> C -> res W) (redo_c : W -> C -> res (W * C)) (merge_c : C -> C -> option C).

(** A stack entry: a command or a [CompositeCommand] (89-92). The commands of a
    group are in order of execution. *)
Inductive entry := One (c : C) | Group (cs : list C).

(** 127-133: undo a group, newest first; [false] is an error, which leaves the
    commands undone so far undone. The list is given newest first. *)
Fixpoint undo_each (w : W) (cs : list C) : res (W * bool) :=
  match cs with
  | [] => Ok (w, true)
  | c :: rest =>
      match undo_c w c with
      | Ok w' => undo_each w' rest
      | Err => Ok (w, false)
      | Panic => Panic
      end
  end.
(** 135-141. *)
Fixpoint redo_each (w : W) (cs : list C) : res (W * list C * bool) :=
  match cs with
  | [] => Ok (w, [], true)
  | c :: rest =>
      match redo_c w c with
      | Ok (w', c') => let! (w'', cs', ok) := redo_each w' rest in Ok (w'', c' :: cs', ok)
      | Err => Ok (w, cs, false)
      | Panic => Panic
      end
  end.
Definition undo_entry (w : W) (e : entry) : res (W * bool) :=
  match e with One c => undo_each w [c] | Group cs => undo_each w (rev cs) end.
Definition redo_entry (w : W) (e : entry) : res (W * entry * bool) :=
  match e with
  | One c => let! (w', cs, ok) := redo_each w [c] in
             match cs with [c'] => Ok (w', One c', ok) | _ => Panic end
  | Group cs => let! (w', cs', ok) := redo_each w cs in Ok (w', Group cs', ok)
  end.
(** Only single commands merge: [CompositeCommand] keeps the default
    [can_merge]. *)
Definition merge_entry (top : entry) (c : C) : option entry :=
  match top with One x => option_map One (merge_c x c) | Group _ => None end.

(** 174-177, 198-205. Stacks list their newest entry first. *)
Definition stack := (list entry * list entry)%type.
Record manager := mk_manager {
  stacks : list (N * stack); next_stack : N;
  open : option (list C * N); level : nat; owner : option N
}.
(** 215-226 [new]. *)
Definition new_manager : manager := mk_manager [(0%N, ([], []))] 1%N None 0 None.

Fixpoint lookup (l : list (N * stack)) (k : N) : option stack :=
  match l with [] => None | (k', s) :: rest => if (k' =? k)%N then Some s else lookup rest k end.
Fixpoint update (l : list (N * stack)) (k : N) (s : stack) : list (N * stack) :=
  match l with
  | [] => [(k, s)]
  | (k', s') :: rest => if (k' =? k)%N then (k, s) :: rest else (k', s') :: update rest k s
  end.
Definition set_stack (m : manager) (k : N) (s : stack) : manager :=
  mk_manager (update (stacks m) k s) (next_stack m) (open m) (level m) (owner m).
Definition get_stack (m : manager) (k : N) : option stack := lookup (stacks m) k.
Definition sid (o : option N) : N := match o with Some k => k | None => 0%N end.

(** 238-263 [undo]. The boolean is [false] for an error. *)
Definition m_undo (w : W) (m : manager) (o : option N) : res (W * manager * bool) :=
  match get_stack m (sid o) with
  | None => Ok (w, m, false)
  | Some ([], _) => Ok (w, m, true)
  | Some (e :: us, rs) =>
      let! (w', ok) := undo_entry w e in
      Ok (w', (if ok then set_stack m (sid o) (us, e :: rs) else m), ok)
  end.
(** 270-295 [redo]. *)
Definition m_redo (w : W) (m : manager) (o : option N) : res (W * manager * bool) :=
  match get_stack m (sid o) with
  | None => Ok (w, m, false)
  | Some (_, []) => Ok (w, m, true)
  | Some (us, e :: rs) =>
      let! (w', e', ok) := redo_entry w e in
      Ok (w', set_stack m (sid o) (if ok then (e' :: us, rs) else (us, e' :: rs)), ok)
  end.
(** 311-338 [begin_composite]. *)
Definition m_begin (m : manager) (o : option N) : manager * bool :=
  let clash := match owner m, o with
               | None, _ => false | Some a, Some b => negb (a =? b)%N | Some _, None => true end in
  if clash then (m, false)
  else (mk_manager (stacks m) (next_stack m)
          (match open m with Some x => Some x | None => Some ([], sid o) end) (S (level m)) o, true).
(** 344-371 [end_composite]. *)
Definition m_end (m : manager) : res manager :=
  let l := pred (level m) in
  match l with
  | S _ => Ok (mk_manager (stacks m) (next_stack m) (open m) l (owner m))
  | O =>
      let m' := mk_manager (stacks m) (next_stack m) None 0 (owner m) in
      match open m with
      | Some ((_ :: _) as cs, _) =>
          match get_stack m (sid (owner m)) with
          | Some (us, _) => Ok (set_stack m' (sid (owner m)) (Group cs :: us, []))
          | None => Panic
          end
      | _ => Ok m'
      end
  end.
(** 373-395 [cancel_composite]; an error of the undo is ignored. *)
Definition m_cancel (w : W) (m : manager) : res (W * manager) :=
  let m' := mk_manager (stacks m) (next_stack m) None (pred (level m)) None in
  match open m with
  | Some (cs, _) => let! (w', _) := undo_each w (rev cs) in Ok (w', m')
  | None => Ok (w, m')
  end.
(** 412-449 [add_command_to_stack]. *)
Definition m_add (m : manager) (c : C) (o : option N) : manager * bool :=
  match open m with
  | Some (cs, k) =>
      if (k =? sid o)%N
      then (mk_manager (stacks m) (next_stack m) (Some (cs ++ [c], k)) (level m) (owner m), true)
      else (m, false)
  | None =>
      match get_stack m (sid o) with
      | None => (m, false)
      | Some (us, _) =>
          match us with
          | top :: below =>
              match merge_entry top c with
              | Some e => (set_stack m (sid o) (e :: below, []), true)
              | None => (set_stack m (sid o) (One c :: us, []), true)
              end
          | [] => (set_stack m (sid o) ([One c], []), true)
          end
      end
  end.
(** 453-469. *)
Definition can_undo (m : manager) (o : option N) : bool :=
  match get_stack m (sid o) with Some (_ :: _, _) => true | _ => false end.
Definition can_redo (m : manager) (o : option N) : bool :=
  match get_stack m (sid o) with Some (_, _ :: _) => true | _ => false end.
(** 474-479 [clear_stack], 482-489 [clear_all_stacks]. *)
Definition m_clear (m : manager) (k : N) : manager :=
  match get_stack m k with Some _ => set_stack m k ([], []) | None => m end.
Definition m_clear_all (m : manager) : manager :=
  mk_manager (map (fun x => (fst x, ([], []))) (stacks m)) (next_stack m) None 0 (owner m).
(** 492-497 [create_new_stack], 502-511 [delete_stack]. *)
Definition m_create (m : manager) : manager * N :=
  (mk_manager (update (stacks m) (next_stack m) ([], [])) (next_stack m + 1)%N (open m) (level m) (owner m), next_stack m).
Definition m_delete (m : manager) (k : N) : manager * bool :=
  if (k =? 0)%N then (m, false)
  else match get_stack m k with
       | Some _ => (mk_manager (filter (fun x => negb (fst x =? k)%N) (stacks m)) (next_stack m) (open m) (level m) (owner m), true)
       | None => (m, false)
       end.

(** Everything a program can do with the manager; [Act] executes a command
    (changing the world) and hands it to the manager. *)
Inductive mop :=
| Undo (o : option N) | Redo (o : option N) | BeginGroup (o : option N) | EndGroup | CancelGroup
| Act (f : W -> res (W * C)) (o : option N)
| Clear (k : N) | ClearAll | CreateStack | DeleteStack (k : N).
Definition mstep (s : W * manager) (o : mop) : res (W * manager) :=
  let (w, m) := s in
  match o with
  | Undo k => let! (w', m', _) := m_undo w m k in Ok (w', m')
  | Redo k => let! (w', m', _) := m_redo w m k in Ok (w', m')
  | BeginGroup k => Ok (w, fst (m_begin m k))
  | EndGroup => let! m' := m_end m in Ok (w, m')
  | CancelGroup => m_cancel w m
  | Act f k => match f w with Ok (w', c) => Ok (w', fst (m_add m c k)) | Err => Ok (w, m) | Panic => Panic end
  | Clear k => Ok (w, m_clear m k)
  | ClearAll => Ok (w, m_clear_all m)
  | CreateStack => Ok (w, fst (m_create m))
  | DeleteStack k => Ok (w, fst (m_delete m k))
  end.
Fixpoint mrun (s : W * manager) (os : list mop) : res (W * manager) :=
  match os with [] => Ok s | o :: rest => let! s' := mstep s o in mrun s' rest end.
End Undo.
Arguments entry : clear implicits.
Arguments stack : clear implicits.
Arguments manager : clear implicits.
Arguments mop : clear implicits.
