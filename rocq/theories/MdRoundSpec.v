(** Writing a document as Markdown and reading it back: what is kept. *)
From Coq Require Import Ascii String.
From Verif Require Import Base FormatRunsModel RopeModel DocModel DocSpec ListModel ListDocModel PropSpec ExportSpec MdSpec MdReadModel DocShows MdReadSpec HtmlRoundSpec.

(** The paragraph a block of a source (MdSpec) is on the page (MdReadSpec). Used
    where no item is indented, so that no list is inside another one. *)
Definition shown_char (code : bool) (s : shown) : list (char * look) :=
  match s with SChar c k => [(c, if code then with_code k else k)] | SImage _ _ _ _ => [] end.
Definition page_para (r : kind * list shown) : mpara :=
  match fst r with
  | Para _ => (KPara, flat_map (shown_char false) (snd r))
  | Head n _ => (KHead (Z.of_N n), flat_map (shown_char false) (snd r))
  | Item ordered => (KItem ordered 0, flat_map (shown_char false) (snd r))
  | Code language => (KCode language, flat_map (shown_char true) (snd r))
  end.
(** [p] is a page for the source [s]: it has the paragraphs the source shows. How
    the reader divides the text into nodes, and whether it sees tight or loose
    lists, is left open. *)
Definition md_page (s : str) (p : list mblock) : Prop :=
  gentle_page p /\ exists r, md_shows s r /\ page_paras p = map page_para r.

(** ** What is kept of a paragraph: characters with their looks except underline,
    the kind of the paragraph, the language of code *)
Definition md_kept_char (x : item) : item := match x with Chr c f => Chr c (look_fmt (md_look f)) | Brk => Brk end.
Definition md_kept_para (L : ldoc) (a : option id * bfmt) (p : list item) : dpara :=
  let f := snd a in
  if on (f_is_code_block f) then
    mk_dpara (map kept_code_char p)
      (mk_bfmt None None None None None None None None None [] None None None None (Some true)
         (match f_code_language f with Some [] => None | x => x end)) Other
  else
    mk_dpara (map md_kept_char p)
      (mk_bfmt None None None None None (f_heading_level f) None None None [] None None None None None None)
      (match f_heading_level f, listed L a with
       | None, Some e => ListModel.Item (if numbered (l_style e) then Decimal else Disc) 0
       | _, _ => Other
       end).
Fixpoint md_kept (L : ldoc) (atts : list (option id * bfmt)) (ps : list (list item)) : list dpara :=
  match atts, ps with a :: atts, p :: ps => md_kept_para L a p :: md_kept L atts ps | _, _ => [] end.

(** No list is indented. *)
Definition flush (L : ldoc) (atts : list (option id * bfmt)) : Prop := forall a e, In a atts -> listed L a = Some e -> l_indent e = 0%Z.
