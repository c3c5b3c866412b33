(** Specification of undo and redo of rich edits. *)
From Verif Require Import Base FormatRunsModel RopeModel DocModel DocSpec PropSpec UndoModel SessionModel ListDocModel RichModel.

(** Everything stored: paragraphs, texts, formats, images and lists; all but the
    counters that number new paragraphs and lists. *)
Definition same_rich (A B : ldoc) : Prop := same_document (l_doc A) (l_doc B) /\ l_lists A = l_lists B.

(** Every call but undo and redo. *)
Definition changes (c : rcall) : Prop := match c with RUndo | RRedo => False | _ => True end.
(** Calls that make no paragraph and no list. *)
Definition makes_nothing (c : rcall) : Prop :=
  match c with
  | RBlockFormat _ _ _ | RJoinList _ _ | RLeaveList _ | RListFormat _ _ | RReplace _ _ _ _ _ | RImage _ _ _ _ _ => True
  | _ => False
  end.

(** Calls that replace no selection. *)
Definition at_caret (c : rcall) : Prop :=
  match c with RBreak p a => p = a | RPaste p a _ => p = a | RImage p a _ _ _ => p = a | _ => True end.

(** No group is open, and the document's stack is there: so it is in a new
    document, and after every call that does not fail. *)
Record idle (m : manager rcmd) : Prop := {
  idle_open : open m = None; idle_level : level m = 0;
  idle_owner : owner m = None \/ owner m = here; idle_stack : get_stack m 1 <> None
}.

(** The same document up to the numbers of its lists: [f] tells the number in
    [B] of a list of [A]. *)
Definition renamed (f : id -> id) (A B : ldoc) : Prop :=
  para_attrs (l_doc B) = map (fun x => option_map (fun y => (option_map f (fst y), snd y)) x) (para_attrs (l_doc A))
  /\ (forall l e, get_list A l = Some e -> get_list B (f l) = Some e)
  /\ (forall l l', get_list A l <> None -> get_list A l' <> None -> f l = f l' -> l = l').
(** Every paragraph that is in a list is in one that exists. *)
Definition lists_exist (L : ldoc) : Prop :=
  forall i l f, attr (l_doc L) i = Some (Some l, f) -> get_list L l <> None.
