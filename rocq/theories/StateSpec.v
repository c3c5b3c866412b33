(** What a user expects of the modified flag, the properties and the resources.
    Written without the stacks, the entity and the cache. *)
From Verif Require Import Base FormatRunsModel RopeModel DocModel HistModel UndoModel SessionModel SessionSpec StateModel.
From Coq Require Import Permutation.

(** ** The modified flag *)
(** The calls that are not about the flag. *)
Fixpoint calls_of (cs : list mcall) : list call :=
  match cs with [] => [] | Do c :: rest => c :: calls_of rest | SetModified _ :: rest => calls_of rest end.
(** Editing and formatting through a cursor, edit blocks, clearing the history; or
    setting the flag to true. *)
Definition kept (c : mcall) : Prop :=
  match c with
  | Do (UndoCall | RedoCall | SetText _) => False
  | SetModified false => False
  | _ => True
  end.
(** Calls that ask for a change of the document. *)
Definition asks (c : mcall) : Prop :=
  match c with
  | Do (Edit e _) => no_change e = false
  | Do (Format _ _ _ _ | BlockFormat _ _ _) => True
  | SetModified b => b = true
  | _ => False
  end.
(** The flag as a listener of the events knows it. *)
Definition heard (l : list bool) : bool := last l false.

(** ** Histories of anything *)
Record hist (A : Type) := mk_hist { h_past : list A; h_now : A; h_future : list A }.
Arguments mk_hist {A}. Arguments h_past {A}. Arguments h_now {A}. Arguments h_future {A}.
Definition h_do {A} (f : A -> A) (h : hist A) : hist A := mk_hist (h_now h :: h_past h) (f (h_now h)) [].
Definition h_reset {A} (f : A -> A) (h : hist A) : hist A := mk_hist [] (f (h_now h)) [].
Definition h_undo {A} (h : hist A) : hist A :=
  match h_past h with [] => h | b :: past => mk_hist past b (h_now h :: h_future h) end.
Definition h_redo {A} (h : hist A) : hist A :=
  match h_future h with [] => h | f :: future => mk_hist (h_now h :: h_past h) f future end.

(** ** Properties *)
(** What a user sees: title, direction, wrap mode, characters and paragraphs. *)
Record sight := mk_sight { s_title : str; s_direction : N; s_wrap : N; s_real : Z * Z }.
Definition p_hist (h : hist sight) (c : pcall) : hist sight :=
  match c with
  | SetTitle t => h_do (fun s => mk_sight t (s_direction s) (s_wrap s) (s_real s)) h
  | SetDirection n => h_do (fun s => mk_sight (s_title s) n (s_wrap s) (s_real s)) h
  | SetWrap n => h_do (fun s => mk_sight (s_title s) (s_direction s) n (s_real s)) h
  | EditText real => h_do (fun s => mk_sight (s_title s) (s_direction s) (s_wrap s) real) h
  | SetPlain real | ImportText real => h_reset (fun s => mk_sight (s_title s) (s_direction s) (s_wrap s) real) h
  | PUndo => h_undo h
  | PRedo => h_redo h
  | PClear => h_reset (fun s => s) h
  end.
Definition p_first (real : Z * Z) : hist sight := mk_hist [] (mk_sight [] 0%N 0%N real) [].
Definition is_import (c : pcall) : bool := match c with ImportText _ => true | _ => false end.
(** title(), text_direction(), default_wrap_mode(); the text; stats(). *)
Definition p_sees (d : pdoc) : sight := mk_sight (e_title (p_entity d)) (e_direction (p_entity d)) (e_wrap (p_entity d)) (p_real d).
Definition p_stats (d : pdoc) : Z * Z := (e_chars (p_entity d), e_blocks (p_entity d)).

(** ** Resources *)
Definition r_hist (h : hist (list (str * list N))) (c : rcall) : hist (list (str * list N)) :=
  match c with
  | Add n x => h_do (fun l => l ++ [(n, x)]) h
  | EditOther _ => h_do (fun l => l) h
  | Get _ _ => h
  | RUndo => h_undo h
  | RRedo => h_redo h
  | RClear => h_reset (fun l => l) h
  end.
Definition r_first : hist (list (str * list N)) := mk_hist [] [] [].
(** The data added last under the name. *)
Definition latest (name : str) (l : list (str * list N)) : option (list N) :=
  fold_left (fun found x => if list_eq_dec N.eq_dec (fst x) name then Some (snd x) else found) l None.
(** A list of all resources is given in some order. *)
Fixpoint orders_fit (d : rdoc) (cs : list rcall) : Prop :=
  match cs with
  | [] => True
  | c :: rest => (match c with Get all _ => Permutation all (r_store d) | _ => True end) /\ orders_fit (r_step d c) rest
  end.
Definition added (cs : list rcall) : list str := flat_map (fun c => match c with Add n _ => [n] | _ => [] end) cs.
Definition back_or_forth (c : rcall) : bool := match c with RUndo | RRedo => true | _ => false end.
