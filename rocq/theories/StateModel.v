(** The state of a document next to its text: the modified flag, the title and the
    other properties, the resources.

    Sources: crates/public_api/src/{document,cursor}.rs,
    crates/common/src/direct_access/use_cases/{create,update}.rs. *)
From Verif Require Import Base FormatRunsModel RopeModel DocModel HistModel UndoModel SessionModel.

(** ** The modified flag *)
(** [n_told]: the [ModificationChanged] events sent so far, oldest first. *)
Record noted := mk_noted { n_session : session; n_modified : bool; n_told : list bool }.
Inductive mcall := Do (c : call) | SetModified (b : bool).
(** Whether the call gets to [inner.modified = true]: cursor.rs:121 for an edit that
    succeeds (remove_selected_text, 1602-1641, returns early without a selection);
    1917, 1942, 1963 for a format that is set. undo and redo (document.rs:795-834),
    set_plain_text and clear (164-184, 297-320) and edit blocks never do. *)
Definition marks (s : session) (c : call) : res bool :=
  match c with
  | Edit (ERemove p a) t => if p =? a then Ok false else let! (_, o) := s_edit t s (ERemove p a) in Ok (match o with Some _ => true | None => false end)
  | Edit e t => let! (_, o) := s_edit t s e in Ok (match o with Some _ => true | None => false end)
  | Format set q p a => match do_format set q (Z.of_nat p) (Z.of_nat a) (fst s) with Ok _ => Ok true | Err => Ok false | Panic => Panic end
  | BlockFormat q p a => match do_block_format q (Z.of_nat p) (Z.of_nat a) (fst s) with Ok _ => Ok true | Err => Ok false | Panic => Panic end
  | _ => Ok false
  end.
(** document.rs:862-871 [set_modified]. *)
Definition n_step (n : noted) (c : mcall) : res noted :=
  match c with
  | Do c =>
      let! b := marks (n_session n) c in
      let! s := s_step (n_session n) c in
      Ok (mk_noted s (n_modified n || b) (n_told n))
  | SetModified b =>
      if Bool.eqb (n_modified n) b then Ok n else Ok (mk_noted (n_session n) b (n_told n ++ [b]))
  end.
Fixpoint n_run (n : noted) (cs : list mcall) : res noted :=
  match cs with [] => Ok n | c :: rest => let! n' := n_step n c in n_run n' rest end.
(** inner.rs:383. *)
Definition new_noted : noted := mk_noted new_session false [].

(** ** Title, text direction, wrap mode *)
(** entities.rs [Document]: the fields the calls read; the two counts are stored in
    the same entity. [p_real]: how many characters and paragraphs the text has. *)
Record entity := mk_entity { e_title : str; e_direction : N; e_wrap : N; e_chars : Z; e_blocks : Z }.
(** A command of the undo stack. An edit of the text keeps the whole document (the
    edits that keep less are exact all the same: C09) and the counts it leads to; an
    update of the entity keeps the other version of it (update.rs:106-133: undo and
    redo write the kept version and keep the one they replace). *)
Inductive pcmd := PText (snap : entity * (Z * Z)) (real : Z * Z) | PEntity (other : entity).
Record pdoc := mk_pdoc { p_entity : entity; p_real : Z * Z; p_undo : list pcmd; p_redo : list pcmd }.
Inductive pcall :=
| SetTitle (t : str) | SetDirection (n : N) | SetWrap (n : N)
| EditText (real : Z * Z) | ImportText (real : Z * Z) | SetPlain (real : Z * Z)
| PUndo | PRedo | PClear.
(** The counts follow the text by the difference (insert_text_uc.rs:412 and the like). *)
Definition counted_to (e : entity) (old new : Z * Z) : entity :=
  mk_entity (e_title e) (e_direction e) (e_wrap e) (e_chars e + (fst new - fst old)) (e_blocks e + (snd new - snd old)).
(** An import sets them (import_plain_text_uc.rs:107-112, import_markdown_uc.rs:427-432). *)
Definition counted_as (e : entity) (real : Z * Z) : entity :=
  mk_entity (e_title e) (e_direction e) (e_wrap e) (fst real) (snd real).
(** document.rs:888-938 with update.rs:76-99 and document_table.rs:111-126: the entity
    is read, one field changed, every field but the relationships written. *)
Definition update (d : pdoc) (e : entity) : pdoc := mk_pdoc e (p_real d) (PEntity (p_entity d) :: p_undo d) [].
Definition p_step (d : pdoc) (c : pcall) : pdoc :=
  let e := p_entity d in
  match c with
  | SetTitle t => update d (mk_entity t (e_direction e) (e_wrap e) (e_chars e) (e_blocks e))
  | SetDirection n => update d (mk_entity (e_title e) n (e_wrap e) (e_chars e) (e_blocks e))
  | SetWrap n => update d (mk_entity (e_title e) (e_direction e) n (e_chars e) (e_blocks e))
  | EditText real => mk_pdoc (counted_to e (p_real d) real) real (PText (e, p_real d) real :: p_undo d) []
  | ImportText real => mk_pdoc (counted_as e real) real (p_undo d) (p_redo d)
  | SetPlain real => mk_pdoc (counted_as e real) real [] []
  | PUndo =>
      match p_undo d with
      | [] => d
      | PText (e0, r0) real :: us => mk_pdoc e0 r0 us (PText (e0, r0) real :: p_redo d)
      | PEntity e0 :: us => mk_pdoc e0 (p_real d) us (PEntity e :: p_redo d)
      end
  | PRedo =>
      match p_redo d with
      | [] => d
      | PText _ real :: rs => mk_pdoc (counted_to e (p_real d) real) real (PText (e, p_real d) real :: p_undo d) rs
      | PEntity e1 :: rs => mk_pdoc e1 (p_real d) (PEntity e :: p_undo d) rs
      end
  | PClear => mk_pdoc e (p_real d) [] []
  end.
(** A document just loaded. *)
Definition p_new (real : Z * Z) : pdoc := mk_pdoc (mk_entity [] 0%N 0%N (fst real) (snd real)) real [] [].

(** ** Resources *)
(** entities.rs [Resource]: id, name, data (base64 in the store; encoding and
    decoding are those of the library). *)
Record resource := mk_resource { r_id : id; r_name : str; r_data : list N }.
(** create.rs [UndoableCreateUseCase] keeps the entity it made and, once undone, the
    store as it was; other commands may keep the store (a snapshot). The list of
    resources of the document (an owner relationship) is never read. *)
Inductive rcmd := RAdd (r : resource) (snap : option (list resource)) | ROther (snap : option (list resource)).
Record rdoc := mk_rdoc {
  r_store : list resource; r_next : id; r_cache : list (str * id); r_undo : list rcmd; r_redo : list rcmd
}.
Definition str_eqb (a b : str) : bool := if list_eq_dec N.eq_dec a b then true else false.
Definition cache_get (l : list (str * id)) (n : str) : option id := option_map snd (find (fun x => str_eqb (fst x) n) l).
Definition cache_remove (l : list (str * id)) (n : str) : list (str * id) := filter (fun x => negb (str_eqb (fst x) n)) l.
Definition cache_put (l : list (str * id)) (n : str) (i : id) : list (str * id) := (n, i) :: cache_remove l n.
Definition res_get (l : list resource) (i : id) : option resource := find (fun r => N.eqb (r_id r) i) l.
(** document.rs:736-762 [add_resource]. *)
Definition add_resource (d : rdoc) (name : str) (data : list N) : rdoc :=
  let r := mk_resource (r_next d) name data in
  mk_rdoc (r_store d ++ [r]) (N.succ (r_next d)) (cache_put (r_cache d) name (r_id r)) (RAdd r None :: r_undo d) [].
(** document.rs:767-790 [resource]. [all]: the resources in the order the hash map
    gives them, which can be any. *)
Definition get_resource (d : rdoc) (all : list resource) (name : str) : rdoc * option (list N) :=
  let scan (d : rdoc) :=
    match find (fun r => str_eqb (r_name r) name) all with
    | Some r => (mk_rdoc (r_store d) (r_next d) (cache_put (r_cache d) name (r_id r)) (r_undo d) (r_redo d), Some (r_data r))
    | None => (d, None)
    end in
  match cache_get (r_cache d) name with
  | Some i =>
      match res_get (r_store d) i with
      | Some r => (d, Some (r_data r))
      | None => scan (mk_rdoc (r_store d) (r_next d) (cache_remove (r_cache d) name) (r_undo d) (r_redo d))
      end
  | None => scan d
  end.
(** An edit of something else, undone by a snapshot of the store or not. *)
Definition other_edit (d : rdoc) (snapshot : bool) : rdoc :=
  mk_rdoc (r_store d) (r_next d) (r_cache d) (ROther (if snapshot then Some (r_store d) else None) :: r_undo d) [].
(** create.rs:144-173 and 175-213; resource_repository.rs:335-351: the snapshot is the
    whole store. *)
Definition r_undo_call (d : rdoc) : rdoc :=
  match r_undo d with
  | [] => d
  | RAdd r _ :: us =>
      mk_rdoc (filter (fun x => negb (N.eqb (r_id x) (r_id r))) (r_store d)) (r_next d) (r_cache d) us (RAdd r (Some (r_store d)) :: r_redo d)
  | ROther snap :: us =>
      mk_rdoc (match snap with Some s => s | None => r_store d end) (r_next d) (r_cache d) us (ROther snap :: r_redo d)
  end.
Definition r_redo_call (d : rdoc) : rdoc :=
  match r_redo d with
  | [] => d
  | RAdd r snap :: rs => mk_rdoc (match snap with Some s => s | None => r_store d end) (r_next d) (r_cache d) (RAdd r snap :: r_undo d) rs
  | ROther snap :: rs =>
      mk_rdoc (r_store d) (r_next d) (r_cache d) (ROther (match snap with Some _ => Some (r_store d) | None => None end) :: r_undo d) rs
  end.
Inductive rcall :=
| Add (name : str) (data : list N) | Get (all : list resource) (name : str) | EditOther (snapshot : bool) | RUndo | RRedo | RClear.
Definition r_step (d : rdoc) (c : rcall) : rdoc :=
  match c with
  | Add n x => add_resource d n x
  | Get all n => fst (get_resource d all n)
  | EditOther b => other_edit d b
  | RUndo => r_undo_call d
  | RRedo => r_redo_call d
  | RClear => mk_rdoc (r_store d) (r_next d) (r_cache d) [] []
  end.
Definition r_new (next : id) : rdoc := mk_rdoc [] next [] [] [].
