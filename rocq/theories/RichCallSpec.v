(** What the calls of RichModel do to a document that has no history: the
    functions that other properties are about (C14, C42, C51, C53, C78, C79). *)
From Verif Require Import Base FormatRunsModel RopeModel DocModel HistModel UndoModel SearchModel ListModel ListDocModel FragmentModel ImageModel ImportModel
  MdInsertModel HtmlInsertModel RichModel.

Definition is_some {A} (o : option A) : bool := match o with Some _ => true | None => false end.
(** An error returned to the caller leaves the document as it is. *)
Definition or_same (L : ldoc) {A} (f : A -> ldoc) (r : res A) : res (ldoc * bool) :=
  match r with Ok x => Ok (f x, true) | Err => Ok (L, false) | Panic => Panic end.
(** The document after the call, and whether the call succeeds. *)
Definition alone (L : ldoc) (c : rcall) : res (ldoc * bool) :=
  let d := l_doc L in
  match c with
  | RBreak p a => let! (d', _) := cursor_insert_block d p a in Ok (mk_ldoc d' (l_lists L) (l_next L), true)
  | RImage p a name w h => let! (d', r) := cursor_insert_image d p a name w h in Ok (mk_ldoc d' (l_lists L) (l_next L), is_some r)
  | RPaste p a f => let! (L', r) := cursor_insert_fragment L p a f in Ok (L', is_some r)
  | RBlockFormat q p a => or_same L (fun d' => mk_ldoc d' (l_lists L) (l_next L)) (set_block_format q d (Z.of_nat p) (Z.of_nat a))
  | RCreateList p a st => or_same L fst (create_list L (Z.of_nat p) (Z.of_nat a) st)
  | RInsertList p st => or_same L (fun x => fst (fst x)) (insert_list L (Z.of_nat p) st)
  | RJoinList i l => or_same L (fun x => x) (add_block_to_list L i l)
  | RLeaveList i => or_same L (fun x => x) (remove_block_from_list L i)
  | RListFormat l q => or_same L (fun x => x) (set_list_format L l q)
  | RReplace g query text o all => or_same L (fun x => mk_ldoc (fst (fst x)) (l_lists L) (l_next L)) (replace_text g d query text o all)
  | RMarkdown p a es => or_same L (fun x => fst (fst x)) (insert_markdown_at L (Z.of_nat p) (Z.of_nat a) es)
  | RHtml p a es => or_same L (fun x => fst (fst x)) (insert_html_at L (Z.of_nat p) (Z.of_nat a) es)
  | RUndo | RRedo => Err
  end.
(** Calls that all succeed, one after another. *)
Fixpoint all_alone (L : ldoc) (cs : list rcall) : res ldoc :=
  match cs with
  | [] => Ok L
  | c :: rest => let! (L', ok) := alone L c in if ok then all_alone L' rest else Err
  end.
