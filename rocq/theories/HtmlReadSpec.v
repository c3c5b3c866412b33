(** The paragraphs an HTML page shows, for the import of HTML. White space is kept
    as it is. *)
From Coq Require Import Ascii String.
From Verif Require Import Base FormatRunsModel RopeModel DocModel DocSpec ListModel ListSpec ListDocModel ImportModel PropSpec ExportSpec MdReadModel DocShows MdReadSpec
  HtmlReadModel.

Definition among (n : str) (l : list string) : bool := existsb (named n) l.
Arguments among _ _%list_scope.
Definition value_of (name : string) (attrs : list (str * str)) : option str := option_map snd (find (fun x => named (fst x) name) attrs).
Arguments value_of _%string_scope _.

(** ** Inline content *)
Definition with_underline k := mk_look (k_code k) (k_bold k) (k_italic k) true (k_strike k) (k_link k).
(** The look inside an element. *)
Definition mark (n : str) (attrs : list (str * str)) (k : look) : look :=
  if among n ["b"; "strong"]%string then with_bold k
  else if among n ["i"; "em"]%string then with_italic k
  else if among n ["u"; "ins"]%string then with_underline k
  else if among n ["s"; "del"; "strike"]%string then with_strike k
  else if named n "code" then with_code k
  else if named n "a" then match value_of "href" attrs with Some h => with_link k h | None => k end
  else k.
Fixpoint dom_chars (k : look) (d : dom) : list (char * look) :=
  match d with
  | DText t => map (fun c => (c, k)) t
  | DElem n attrs kids => flat_map (dom_chars (mark n attrs k)) kids
  | DOther _ => []
  end.
(** Elements that are not part of a line of text. *)
Definition headings : list string := ["h1"; "h2"; "h3"; "h4"; "h5"; "h6"]%string.
Definition special (n : str) : bool :=
  among n headings || among n ["p"; "div"; "li"; "pre"; "ul"; "ol"; "blockquote"; "table"; "br"; "body"; "html"]%string.
Fixpoint inline_only (d : dom) : bool :=
  match d with DElem n _ kids => negb (special n) && forallb inline_only kids | _ => true end.
Definition is_block (d : dom) : bool := match d with DElem n _ _ => special n | _ => false end.

(** ** Style *)
(** The declarations of a style attribute: name in lower case and value. *)
Definition declarations (style : str) : list (str * str) :=
  flat_map (fun part => match split_once 58%N (trim part) with Some (p, v) => [(ascii_lower (trim p), trim v)] | None => [] end)
    (split_at (fun c => N.eqb c 59) style).
(** The last declaration that says something. *)
Fixpoint last_of {A} (f : str * str -> option A) (l : list (str * str)) : option A :=
  match l with [] => None | x :: r => match last_of f r with Some y => Some y | None => f x end end.
Definition said {A} (attrs : list (str * str)) (f : str -> str -> option A) : option A :=
  match value_of "style" attrs with Some s => last_of (fun x => f (fst x) (snd x)) (declarations s) | None => None end.
Definition line_height_said lh attrs : option Z := said attrs (fun p v => if named p "line-height" then lh v else None).
Definition nowrap_said attrs : option bool :=
  said attrs (fun p v => if named p "white-space" && among v ["pre"; "nowrap"; "pre-wrap"]%string then Some true else None).
Definition direction_said attrs : option N :=
  said attrs (fun p v => if named p "direction" then
    if named (ascii_lower v) "rtl" then Some 1%N else if named (ascii_lower v) "ltr" then Some 0%N else None else None).
Definition background_said attrs : option str :=
  said attrs (fun p v => if among p ["background-color"; "background"]%string then Some v else None).

(** ** Paragraphs *)
Definition level_of (n : str) : option Z :=
  if named n "h1" then Some 1%Z else if named n "h2" then Some 2%Z else if named n "h3" then Some 3%Z
  else if named n "h4" then Some 4%Z else if named n "h5" then Some 5%Z else if named n "h6" then Some 6%Z else None.
Definition elem_fmt (lh : str -> option Z) (n : str) (attrs : list (str * str)) (kids : list dom) : bfmt :=
  let pre := named n "pre" in
  mk_bfmt None None None None None (level_of n) None None None []
    (line_height_said lh attrs) (nowrap_said attrs) (direction_said attrs) (background_said attrs)
    (if pre then Some true else None) (if pre then code_language kids else None).
Definition own_chars (k : look) (kids : list dom) : list (char * look) := flat_map (fun d => if is_block d then [] else dom_chars k d) kids.
Definition style_of (n : str) : option list_style := if named n "ul" then Some Disc else if named n "ol" then Some Decimal else None.
(** [lists] is the list around and the number of lists around. *)
Fixpoint elem_paras (lh : str -> option Z) (around : option list_style) (depth : nat) (d : dom) : list dpara :=
  match d with
  | DElem n attrs kids =>
      if negb (special n) then []
      else match style_of n with
      | Some st => flat_map (elem_paras lh (Some st) (S depth)) kids
      | None =>
          let own := own_chars (if named n "pre" then with_code bare else bare) kids in
          let piece := if named n "li" then match around with Some st => ListModel.Item st (depth - 1) | None => Other end else Other in
          (if match own with [] => named n "div" | _ => false end then []
           else [mk_dpara (shown_items own) (elem_fmt lh n attrs kids) piece])
          ++ flat_map (elem_paras lh around depth) kids
      end
  | _ => []
  end.
Definition page_shown (lh : str -> option Z) (page : list dom) : list dpara :=
  let own := match own_chars bare page with [] => [] | own => [mk_dpara (shown_items own) bfmt_default Other] end in
  match own ++ flat_map (elem_paras lh None 0) page with
  | [] => [mk_dpara [] bfmt_default Other]
  | l => l
  end.

(** ** Gentle pages *)
Definition some_chars (kids : list dom) : bool := match own_chars bare kids with [] => false | _ => true end.
Fixpoint inline_first (kids : list dom) : bool :=
  match kids with [] => true | d :: rest => if is_block d then forallb is_block rest else inline_first rest end.
Definition blank (t : str) : bool := forallb is_white t.
Definition is_item (d : dom) : bool := match d with DElem n _ _ => named n "li" | _ => false end.
Definition is_list_elem (d : dom) : bool := match d with DElem n _ _ => among n ["ul"; "ol"]%string | _ => false end.
(** A paragraph or a code block is a line of text that is not empty, a heading a
    line of text; a list has items and white space; an item is a line of text that
    is not empty, then lists; a division is a line of text or blocks. *)
Fixpoint gentle_elem (in_list : bool) (d : dom) : bool :=
  match d with
  | DElem n _ kids =>
      if among n ["ul"; "ol"]%string then
        forallb (fun k => match k with DElem _ _ _ => is_item k && gentle_elem true k | DText t => blank t | DOther ks => match ks with [] => true | _ => false end end) kids
      else if named n "li" then
        in_list && inline_first kids && some_chars kids && forallb (fun k => inline_only k || is_list_elem k && gentle_elem false k) kids
      else if named n "div" then
        (forallb inline_only kids && some_chars kids) || forallb (gentle_elem false) kids
      else if among n ["p"; "pre"]%string then forallb inline_only kids && some_chars kids
      else among n headings && forallb inline_only kids
  | _ => false
  end.
Fixpoint height (d : dom) : nat := match d with DElem _ _ kids => S (fold_right (fun k n => Nat.max (height k) n) 0 kids) | _ => 0 end.
(** A line of text, or blocks with nothing but elements without text and comments between them. *)
Definition gentle_html (page : list dom) : Prop :=
  (forallb inline_only page = true \/ forallb (fun d => inline_only d || gentle_elem false d) page = true /\ some_chars page = false)
  /\ Forall (fun d => height d <= 128) page.
