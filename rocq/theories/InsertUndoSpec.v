(** Specification of undo and redo of paragraph breaks, paragraph formats, new
    lists, pastes and inserted Markdown and HTML. *)
From Verif Require Import Base FormatRunsModel RopeModel DocModel DocSpec UndoModel ListModel ListDocModel FragmentModel FragmentSpec FragmentText ImportModel
  MdInsertModel MdInsertSpec HtmlInsertModel HtmlInsertSpec RichModel.

(** A call that makes a list of the paragraphs of a selection or sets their
    format, breaks a paragraph at a place of the text [its], or pastes a fragment
    of text or inserts Markdown or HTML there. Left out: pastes after which the
    stored positions or the count of characters are wrong (C51), and Markdown and
    HTML in the paragraph before an empty last one, unless it is one bare
    paragraph. *)
Definition inserts (c : rcall) (its : list item) : Prop :=
  match c with
  | RMarkdown n a es | RHtml n a es =>
      n = a /\ n <= length its /\ (one_bare (flatten_to_blocks es) \/ ~ before_empty_end n its)
  | RBreak n a => n = a /\ n <= length its
  | RCreateList _ _ _ | RBlockFormat _ _ _ => True
  | RPaste n a f =>
      n = a /\ n <= length its
      /\ exists fbs, df_data f = Some fbs /\ fbs <> [] /\ Forall text_only fbs
          /\ keeps_positions fbs its n = true /\ keeps_counts fbs its n = true
  | _ => False
  end.
(** The text after the call. *)
Definition after_insertion (its : list item) (c : rcall) : list item :=
  match c with
  | RMarkdown n _ es => with_markdown n (flatten_to_blocks es) its
  | RHtml n _ es => with_html n (flatten_to_blocks es) its
  | RBreak n _ => spec_break n its
  | RPaste n _ f => match df_data f with Some fbs => spec_paste n fbs its | None => its end
  | _ => its
  end.
(** Calls one after another, each in the text the ones before it leave. *)
Fixpoint all_insert (cs : list rcall) (its : list item) : Prop :=
  match cs with [] => True | c :: rest => inserts c its /\ all_insert rest (after_insertion its c) end.
Definition after_insertions (cs : list rcall) (its : list item) : list item := fold_left after_insertion cs its.

(** The style and indent of the list of each paragraph, whatever the number of
    the list, and the format of the paragraph. *)
Definition list_look (L : ldoc) (l : id) : option (list_style * nat) :=
  option_map (fun e => (l_style e, Z.to_nat (l_indent e))) (get_list L l).
Definition look (L : ldoc) (a : option id * bfmt) : option (option (list_style * nat)) * bfmt :=
  (option_map (list_look L) (fst a), snd a).
Definition looks (L : ldoc) : list (option (option (option (list_style * nat)) * bfmt)) :=
  map (option_map (look L)) (para_attrs (l_doc L)).

(** Where a walk of undos and redos ends that starts after [j] of [n] calls and
    never leaves them. *)
Fixpoint walks (n j : nat) (w : list rcall) : option nat :=
  match w with
  | [] => Some j
  | RUndo :: rest => match j with 0 => None | S i => walks n i rest end
  | RRedo :: rest => if j <? n then walks n (S j) rest else None
  | _ => None
  end.
