(** Calls on lists, fragments, images and replacements as undo/redo commands,
    and a session made of them. Typing and character formats are in
    SessionModel.

    Sources: crates/document_editing/src/use_cases/{create_list,insert_list,
    add_block_to_list,remove_block_from_list,insert_fragment,insert_image,
    insert_block,delete_text,insert_markdown_at_position,
    insert_html_at_position}_uc.rs,
    crates/document_formatting/src/use_cases/{set_list_format,set_block_format}_uc.rs,
    crates/document_search/src/use_cases/replace_text_uc.rs, their controllers,
    and crates/public_api/src/{cursor,document}.rs. *)
From Verif Require Import Base FormatRunsModel RopeModel DocModel HistModel UndoModel SessionModel SearchModel ListModel ListDocModel
  FragmentModel ImageModel ImportModel MdInsertModel HtmlInsertModel.

(** What these use cases are asked to do ([last_dto]). *)
Inductive request :=
| QBreak (p : Z) | QDelete (p a : Z) | QBlockFormat (q : bfmt_req) (p a : Z)
| QCreate (p a : Z) (st : list_style) | QInsertList (p : Z) (st : list_style)
| QJoin (i l : id) | QLeave (i : id) | QListFormat (l : id) (q : list_req)
| QPaste (p : Z) (data : option (list fblock)) | QImage (p : Z) (name : str) (w h : Z)
| QReplace (g : engines) (query text : str) (o : find_options) (all : bool)
| QMarkdown (p a : Z) (es : list pelement) | QHtml (p a : Z) (es : list pelement).

Definition with_doc (L : ldoc) (d : doc) : ldoc := mk_ldoc d (l_lists L) (l_next L).
(** The [execute] functions: the document and the new position, where there is
    one. *)
Definition execute (L : ldoc) (r : request) : res (ldoc * Z) :=
  match r with
  | QBreak p => let! (d, np, _) := insert_block (l_doc L) p in Ok (with_doc L d, np)
  | QDelete p a => let! (d, np, _) := delete_text (l_doc L) p a in Ok (with_doc L d, np)
  | QBlockFormat q p a => let! d := set_block_format q (l_doc L) p a in Ok (with_doc L d, 0%Z)
  | QCreate p a st => let! (L', _) := create_list L p a st in Ok (L', 0%Z)
  | QInsertList p st => let! (L', _, np) := insert_list L p st in Ok (L', np)
  | QJoin i l => let! L' := add_block_to_list L i l in Ok (L', 0%Z)
  | QLeave i => let! L' := remove_block_from_list L i in Ok (L', 0%Z)
  | QListFormat l q => let! L' := set_list_format L l q in Ok (L', 0%Z)
  | QPaste p data => let! (L', np, _) := insert_fragment L p p data in Ok (L', np)
  | QImage p name w h => let! (d, np, _) := insert_image (l_doc L) p p name w h in Ok (with_doc L d, np)
  | QReplace g query text o all => let! (d, _, _) := replace_text g (l_doc L) query text o all in Ok (with_doc L d, 0%Z)
  | QMarkdown p a es => let! (L', np, _) := insert_markdown_at L p a es in Ok (L', np)
  | QHtml p a es => let! (L', np, _) := insert_html_at L p a es in Ok (L', np)
  end.

(** rope_store.rs:101-115 [restore_without_counters], lists included. *)
Definition restore (L snap : ldoc) : ldoc :=
  mk_ldoc (restore_snapshot (l_doc L) (l_doc snap)) (l_lists snap) (l_next L).
(** A use case with its request and the snapshot taken before the first change
    (for example create_list_uc.rs:77, insert_fragment_uc.rs:1538-1540). *)
Record rcmd := mk_rcmd { rc_req : request; rc_snap : ldoc }.
(** The [undo] methods, for example create_list_uc.rs:153-165. *)
Definition undo_r (L : ldoc) (c : rcmd) : res ldoc := Ok (restore L (rc_snap c)).
(** The [redo] methods, for example create_list_uc.rs:167-182. *)
Definition redo_r (L : ldoc) (c : rcmd) : res (ldoc * rcmd) :=
  let! (L', _) := execute L (rc_req c) in Ok (L', mk_rcmd (rc_req c) L).
(** [can_merge] is the default (undo_redo.rs:38-40), except for [delete_text],
    which is only called inside a group here and does not merge there. *)
Definition merge_r (_ _ : rcmd) : option rcmd := None.

Definition rsession := (ldoc * manager rcmd)%type.
Definition rich_history : manager rcmd := fst (m_create new_manager).
(** The controllers: execute, then [add_command_to_stack]. *)
Definition perform (s : rsession) (r : request) : res (rsession * option Z) :=
  let (L, m) := s in
  match execute L r with
  | Ok (L', np) => Ok ((L', fst (m_add merge_r m (mk_rcmd r L) here)), Some np)
  | Err => Ok (s, None)
  | Panic => Panic
  end.
(** cursor.rs:520-569 [insert_block], 586-634 [insert_fragment], 687-735
    [insert_image]: in place of a selection, as a group. The early return on an
    error leaves the group open. *)
Definition perform_over (s : rsession) (p a : nat) (f : Z -> request) : res (rsession * bool) :=
  if p =? a then let! (s', np) := perform s (f (Z.of_nat p)) in Ok (s', match np with Some _ => true | None => false end)
  else
    let s1 := (fst s, fst (m_begin (snd s) here)) in
    let! (s2, np) := perform s1 (QDelete (Z.of_nat p) (Z.of_nat a)) in
    match np with
    | None => Ok (s2, false)
    | Some np =>
        let! q := to_usize np in
        let! (s3, np') := perform s2 (f (Z.of_nat q)) in
        match np' with
        | None => Ok (s3, false)
        | Some _ => let! m := m_end (snd s3) in Ok ((fst s3, m), true)
        end
    end.

(** Calls on a cursor or on the document: cursor.rs:520-735, 1663-1850,
    1955-1973, document.rs:694-722 [replace_text], 795-840 [undo], [redo]; and
    document_editing_controller.rs:293-331 [insert_html_at_position],
    [insert_markdown_at_position]. *)
Inductive rcall :=
| RBreak (p a : nat) | RBlockFormat (q : bfmt_req) (p a : nat)
| RCreateList (p a : nat) (st : list_style) | RInsertList (p : nat) (st : list_style)
| RJoinList (i l : id) | RLeaveList (i : id) | RListFormat (l : id) (q : list_req)
| RPaste (p a : nat) (f : dfrag) | RImage (p a : nat) (name : str) (w h : nat)
| RReplace (g : engines) (query text : str) (o : find_options) (all : bool)
| RMarkdown (p a : nat) (es : list pelement) | RHtml (p a : nat) (es : list pelement)
| RUndo | RRedo.
Definition simply (s : rsession) (r : request) : res (rsession * bool) :=
  let! (s', np) := perform s r in Ok (s', match np with Some _ => true | None => false end).
(** The boolean is [false] when the caller gets an error. *)
Definition r_step (s : rsession) (c : rcall) : res (rsession * bool) :=
  match c with
  | RBreak p a => perform_over s p a QBreak
  | RBlockFormat q p a => simply s (QBlockFormat q (Z.of_nat p) (Z.of_nat a))
  | RCreateList p a st => simply s (QCreate (Z.of_nat p) (Z.of_nat a) st)
  | RInsertList p st => simply s (QInsertList (Z.of_nat p) st)
  | RJoinList i l => simply s (QJoin i l)
  | RLeaveList i => simply s (QLeave i)
  | RListFormat l q => simply s (QListFormat l q)
  | RPaste p a f => perform_over s p a (fun q => QPaste q (df_data f))
  | RImage p a name w h => perform_over s p a (fun q => QImage q name (Z.of_nat w) (Z.of_nat h))
  | RReplace g query text o all => simply s (QReplace g query text o all)
  | RMarkdown p a es => simply s (QMarkdown (Z.of_nat p) (Z.of_nat a) es)
  | RHtml p a es => simply s (QHtml (Z.of_nat p) (Z.of_nat a) es)
  | RUndo => let! (L, m, ok) := m_undo undo_r (fst s) (snd s) here in Ok ((L, m), ok)
  | RRedo => let! (L, m, ok) := m_redo redo_r (fst s) (snd s) here in Ok ((L, m), ok)
  end.
(** Calls one after another; the booleans tell which succeeded. *)
Fixpoint r_run (s : rsession) (cs : list rcall) : res (rsession * list bool) :=
  match cs with
  | [] => Ok (s, [])
  | c :: rest => let! (s1, ok) := r_step s c in let! (s2, oks) := r_run s1 rest in Ok (s2, ok :: oks)
  end.
