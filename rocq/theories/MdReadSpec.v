(** A Markdown page as a tree, the events a CommonMark reader reports for it, and
    the paragraphs a document made from it should have. *)
From Coq Require Import Ascii String.
From Verif Require Import Base FormatRunsModel RopeModel DocModel DocSpec ListModel ListSpec ListDocModel ImportSpec PropSpec ExportSpec MdReadModel DocShows.

(** ** Pages *)
Inductive inl :=
| IText (t : str) | ICode (t : str) | IEmph (l : list inl) | IStrong (l : list inl) | IStrike (l : list inl)
| ILink (href : str) (l : list inl) | IImage (alt : list inl) | ISoft | IBreak.
(** A list has items, an item has blocks. In a tight list there is no blank line
    between the items. *)
Inductive mblock :=
| MPara (l : list inl) | MHead (level : Z) (l : list inl) | MCode (language : option str) (lines : list str)
| MList (ordered tight : bool) (items : list (list mblock)).

(** ** Events: those of pulldown-cmark; a paragraph of a tight list has no
    paragraph events *)
Fixpoint inl_events (x : inl) : list event :=
  match x with
  | IText t => [EText t]
  | ICode t => [ECode t]
  | IEmph l => EStartEmphasis :: flat_map inl_events l ++ [EEndEmphasis]
  | IStrong l => EStartStrong :: flat_map inl_events l ++ [EEndStrong]
  | IStrike l => EStartStrike :: flat_map inl_events l ++ [EEndStrike]
  | ILink href l => EStartLink href :: flat_map inl_events l ++ [EEndLink]
  | IImage l => EOther :: flat_map inl_events l ++ [EOther]
  | ISoft => [ESoftBreak]
  | IBreak => [EHardBreak]
  end.
Definition is_para (b : mblock) : bool := match b with MPara _ => true | _ => false end.
Fixpoint block_events (tight : bool) (b : mblock) : list event :=
  match b with
  | MPara l => if tight then flat_map inl_events l else EStartParagraph :: flat_map inl_events l ++ [EEndParagraph]
  | MHead n l => EStartHeading n :: flat_map inl_events l ++ [EEndHeading]
  | MCode lang lines => EStartCode lang :: map (fun t => EText (t ++ [NL])) lines ++ [EEndCode]
  | MList ordered tight' items =>
      EStartList ordered
      :: flat_map (fun it => EStartItem :: flat_map (block_events tight') it ++ [EEndItem]) items
      ++ [EEndList]
  end.
Definition page_events (p : list mblock) : list event := flat_map (block_events false) p.

(** ** Paragraphs *)
Inductive mkind := KPara | KHead (level : Z) | KCode (language : option str) | KItem (ordered : bool) (depth : nat).
Definition mpara : Type := mkind * list (char * look).

Definition with_bold k := mk_look (k_code k) true (k_italic k) (k_underline k) (k_strike k) (k_link k).
Definition with_italic k := mk_look (k_code k) (k_bold k) true (k_underline k) (k_strike k) (k_link k).
Definition with_strike k := mk_look (k_code k) (k_bold k) (k_italic k) (k_underline k) true (k_link k).
Definition with_link k href := mk_look (k_code k) (k_bold k) (k_italic k) (k_underline k) (k_strike k) (Some href).
Definition with_code k := mk_look true (k_bold k) (k_italic k) (k_underline k) (k_strike k) (k_link k).
(** The characters of inline content with their looks; [None] is a hard break, a
    soft break is a space. *)
Fixpoint inl_chars (k : look) (x : inl) : list (option (char * look)) :=
  match x with
  | IText t => map (fun c => Some (c, k)) t
  | ICode t => map (fun c => Some (c, with_code k)) t
  | IEmph l => flat_map (inl_chars (with_italic k)) l
  | IStrong l => flat_map (inl_chars (with_bold k)) l
  | IStrike l => flat_map (inl_chars (with_strike k)) l
  | ILink href l => flat_map (inl_chars (with_link k href)) l
  | IImage _ => []
  | ISoft => [Some (32%N, k)]
  | IBreak => [None]
  end.
(** The lines between the hard breaks. *)
Fixpoint lines_at {A} (l : list (option A)) : list (list A) :=
  match l with
  | [] => [[]]
  | None :: rest => [] :: lines_at rest
  | Some x :: rest => match lines_at rest with y :: ys => (x :: y) :: ys | [] => [[x]] end
  end.
Definition shown_lines (l : list inl) : list (list (char * look)) := lines_at (flat_map (inl_chars bare) l).
(** All on one line. *)
Definition one_shown (l : list inl) : list (char * look) := concat (shown_lines l).
(** The lines of a code block, with a newline between two of them. *)
Fixpoint joined (lines : list str) : str :=
  match lines with [] => [] | [t] => t | t :: rest => t ++ NL :: joined rest end.
Definition code_text (lines : list str) : list (char * look) := map (fun c => (c, with_code bare)) (joined lines).
Definition no_empty (x : option str) : option str := match x with Some [] => None | _ => x end.

(** A paragraph starts a new one at each hard break; an item starts with its
    first block. [depth] is the number of lists around. *)
Fixpoint block_paras (depth : nat) (b : mblock) : list mpara :=
  match b with
  | MPara l => map (fun x => (KPara, x)) (shown_lines l)
  | MHead n l => [(KHead n, one_shown l)]
  | MCode lang lines => [(KCode (no_empty lang), code_text lines)]
  | MList ordered _ items =>
      flat_map (fun it =>
        match it with
        | MPara l :: rest => (KItem ordered depth, one_shown l) :: flat_map (block_paras (S depth)) rest
        | _ => (KItem ordered depth, []) :: flat_map (block_paras (S depth)) it
        end) items
  end.
Definition page_paras (p : list mblock) : list mpara :=
  match flat_map (block_paras 0) p with [] => [(KPara, [])] | l => l end.

(** ** The document that shows these paragraphs *)
Definition flag (b : bool) : option bool := if b then Some true else None.
Definition look_fmt (k : look) : cfmt :=
  mk_cfmt (if k_code k then Some (txt "monospace") else None) None None (flag (k_bold k)) (flag (k_italic k))
    (flag (k_underline k)) None (flag (k_strike k)) None None (k_link k) []
    (match k_link k with Some _ => Some true | None => None end) None None None.
Definition shown_items (l : list (char * look)) : list item := map (fun x => Chr (fst x) (look_fmt (snd x))) l.
Definition kind_fmt (k : mkind) : bfmt :=
  mk_bfmt None None None None None (match k with KHead n => Some n | _ => None end) None None None [] None None None None
    (match k with KCode _ => Some true | _ => None end) (match k with KCode lang => lang | _ => None end).
Definition kind_piece (k : mkind) : piece :=
  match k with KItem ordered depth => ListModel.Item (if ordered then Decimal else Disc) depth | _ => Other end.

Definition expected (x : mpara) : dpara := mk_dpara (shown_items (snd x)) (kind_fmt (fst x)) (kind_piece (fst x)).

(** ** Gentle pages *)
(** No image, no mark inside the same mark, no link inside a link. *)
Fixpoint clean (bold italic strike link : bool) (x : inl) : bool :=
  match x with
  | IText _ | ICode _ | ISoft | IBreak => true
  | IEmph l => negb italic && forallb (clean bold true strike link) l
  | IStrong l => negb bold && forallb (clean true italic strike link) l
  | IStrike l => negb strike && forallb (clean bold italic true link) l
  | ILink _ l => negb link && forallb (clean bold italic strike true) l
  | IImage _ => false
  end.
Definition clean_all (l : list inl) : bool := forallb (clean false false false false) l.
Definition one_line (l : list inl) : bool := match shown_lines l with [_] => true | _ => false end.
Definition some_text (l : list inl) : bool := match one_shown l with [] => false | _ => true end.
Definition is_list (b : mblock) : bool := match b with MList _ _ _ => true | _ => false end.
(** Hard breaks are in paragraphs outside lists; an item is a paragraph, then
    lists, and in a tight list the paragraph is not empty. *)
Fixpoint gentle_block (b : mblock) : bool :=
  match b with
  | MPara l => clean_all l
  | MHead _ l => clean_all l && one_line l
  | MCode _ _ => true
  | MList _ tight items =>
      forallb (fun it =>
        match it with
        | MPara l :: rest =>
            clean_all l && one_line l && (negb tight || some_text l)
            && forallb (fun b => is_list b && gentle_block b) rest
        | _ => false
        end) items
  end.
Definition gentle_page (p : list mblock) : Prop := forallb gentle_block p = true.
