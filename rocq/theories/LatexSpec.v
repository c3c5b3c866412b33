(** How a reader of LaTeX sees a source, and what the source of a document should
    show. White space inside a paragraph is kept as it is, and so are characters
    that TeX joins, like two dashes. *)
From Coq Require Import Ascii String.
From Verif Require Import Base FormatRunsModel FormatRunsSpec RopeModel DocModel DocSpec QueryModel ListModel ListSpec ListDocModel HistModel PropSpec EscapeSpec ExportSpec.

Definition NL : char := 10%N.

(** ** Sources

    Inside a paragraph: characters, commands with their arguments, and groups. *)
Inductive tex := TChar (c : char) | TCmd (name : str) (args : list (list tex)) | TGroup (l : list tex).

(** The commands, by number of arguments. *)
Definition commands0 : list str := [txt "linewidth"].
Definition commands1 : list str :=
  [txt "texttt"; txt "textbf"; txt "textit"; txt "underline"; txt "sout"; txt "includegraphics";
   txt "section"; txt "subsection"; txt "subsubsection"; txt "paragraph"; txt "setstretch"; txt "RL"; txt "mbox"].
Definition commands2 : list str := [txt "href"; txt "colorbox"; txt "parbox"].
Definition letter (c : char) : bool := ((97 <=? c) && (c <=? 122) || (65 <=? c) && (c <=? 90))%N.

(** [latex e l]: the source [e], without line breaks, shows [l]. *)
Inductive latex : str -> list tex -> Prop :=
| x_nil : latex [] []
| x_char c rest l : ~ In c latex_active -> c <> NL -> latex rest l -> latex (c :: rest) (TChar c :: l)
| x_code k c rest l : In (k, c) latex_codes -> latex rest l -> latex (k ++ rest) (TChar c :: l)
| x_group e g rest l : latex e g -> latex rest l -> latex (txt "{" ++ e ++ txt "}" ++ rest) (TGroup g :: l)
| x_word n rest l : In n commands0 -> (forall c r, rest = c :: r -> letter c = false) -> latex rest l ->
    latex (txt "\" ++ n ++ rest) (TCmd n [] :: l)
| x_one n e g rest l : In n commands1 -> latex e g -> latex rest l ->
    latex (txt "\" ++ n ++ txt "{" ++ e ++ txt "}" ++ rest) (TCmd n [g] :: l)
| x_two n e g e' g' rest l : In n commands2 -> latex e g -> latex e' g' -> latex rest l ->
    latex (txt "\" ++ n ++ txt "{" ++ e ++ txt "}{" ++ e' ++ txt "}" ++ rest) (TCmd n [g; g'] :: l).

(** An item of a list: a bracket right after the command holds the label to
    show in place of the bullet or number. *)
Definition tex_item : Type := option (list tex) * list tex.
Inductive item_source : str -> tex_item -> Prop :=
| i_plain e l : latex e l -> (forall r, e <> 91%N :: r) -> item_source (txt "\item " ++ e) (None, l)
| i_label a la e l : latex a la -> ~ In 93%N a -> latex e l -> item_source (txt "\item [" ++ a ++ txt "]" ++ e) (Some la, l).
Inductive items_source : str -> list tex_item -> Prop :=
| is_one e i : item_source e i -> items_source e [i]
| is_more e i rest l : item_source e i -> items_source rest l -> items_source (e ++ [NL] ++ rest) (i :: l).

(** Paragraphs, verbatim texts and lists. A verbatim text goes up to the first
    end mark. *)
Inductive part := PText (l : list tex) | PVerb (t : str) | PList (ordered : bool) (items : list tex_item).
Definition env (ordered : bool) : str := if ordered then txt "enumerate" else txt "itemize".
Definition end_verbatim : str := txt "\end{verbatim}".
Definition contains (t x : str) : Prop := exists a b, t = a ++ x ++ b.
Inductive part_source : str -> part -> Prop :=
| p_text e l : latex e l -> e <> [] -> part_source e (PText l)
| p_verb t : ~ contains t end_verbatim -> part_source (txt "\begin{verbatim}" ++ [NL] ++ t ++ [NL] ++ end_verbatim) (PVerb t)
| p_list o e l : items_source e l ->
    part_source (txt "\begin{" ++ env o ++ txt "}" ++ [NL] ++ e ++ [NL] ++ txt "\end{" ++ env o ++ txt "}") (PList o l).
(** Parts are separated by one or more empty lines. *)
Inductive body_source : str -> list part -> Prop :=
| b_nil : body_source [] []
| b_skip rest l : body_source rest l -> body_source (NL :: rest) l
| b_part e p rest l : part_source e p -> (rest = [] \/ exists r, rest = NL :: NL :: r) -> body_source rest l ->
    body_source (e ++ rest) (p :: l).
(** A whole file: the class, the packages and the body. *)
Definition braceless (x : str) : Prop := ~ In 125%N x.
Inductive packages_source : str -> list str -> Prop :=
| k_nil : packages_source [] []
| k_cons n rest l : braceless n -> packages_source rest l -> packages_source (txt "\usepackage{" ++ n ++ txt "}" ++ [NL] ++ rest) (n :: l).
Inductive file_source : str -> str -> list str -> list part -> Prop :=
| f_all class e pkgs body l : braceless class -> packages_source e pkgs -> body_source body l ->
    file_source (txt "\documentclass{" ++ class ++ txt "}" ++ [NL] ++ e ++ txt "\begin{document}" ++ body ++ txt "\end{document}") class pkgs l.

(** ** What a source shows *)
Fixpoint chars_of (l : list tex) : option str :=
  match l with [] => Some [] | TChar c :: rest => option_map (cons c) (chars_of rest) | _ => None end.
Definition within (n : str) (k : look) : option look :=
  let 'mk_look c b i u s a := k in
  if named n "texttt" then Some (mk_look true b i u s a)
  else if named n "textbf" then Some (mk_look c true i u s a)
  else if named n "textit" then Some (mk_look c b true u s a)
  else if named n "underline" then Some (mk_look c b i true s a)
  else if named n "sout" then Some (mk_look c b i u true a)
  else None.
(** The characters and images of a paragraph, with their looks. An image has no
    size. *)
Fixpoint tex_inline1 (k : look) (x : tex) : option (list shown) :=
  let all := fix all (k : look) (l : list tex) : option (list shown) :=
    match l with [] => Some [] | m :: rest => also (tex_inline1 k m) (all k rest) end in
  match x with
  | TChar c => Some [SChar c k]
  | TGroup _ => None
  | TCmd n [g] =>
      if named n "includegraphics" then option_map (fun name => [SImage name [] [] k]) (chars_of g)
      else match within n k with Some k' => all k' g | None => None end
  | TCmd n [u; g] =>
      if named n "href" then
        match chars_of u with
        | Some href => all (mk_look (k_code k) (k_bold k) (k_italic k) (k_underline k) (k_strike k) (Some href)) g
        | None => None
        end
      else None
  | TCmd _ _ => None
  end.
Fixpoint tex_inline (k : look) (l : list tex) : option (list shown) :=
  match l with [] => Some [] | m :: rest => also (tex_inline1 k m) (tex_inline k rest) end.

(** How a paragraph is set: line stretch, right to left, background, unbroken. *)
Record setting := mk_setting { g_stretch : option (list tex); g_rtl : bool; g_color : option (list tex); g_whole : bool }.
Inductive lkind := LText (s : setting) | LHead (depth : N) (s : setting) | LCode | LItem (ordered : bool).
(** Headings: sections, subsections, subsubsections, and run-in headings below. *)
Definition heading_depth (n : str) : option N :=
  if named n "section" then Some 1%N else if named n "subsection" then Some 2%N
  else if named n "subsubsection" then Some 3%N else if named n "paragraph" then Some 4%N else None.
Definition open_mbox (l : list tex) : bool * list tex :=
  match l with [TCmd n [g]] => if named n "mbox" then (true, g) else (false, l) | _ => (false, l) end.
Definition open_box (l : list tex) : option (list tex) * list tex :=
  match l with
  | [TCmd n [c; [TCmd m [[TCmd w []]; g]]]] =>
      if named n "colorbox" && named m "parbox" && named w "linewidth" then (Some c, g) else (None, l)
  | _ => (None, l)
  end.
Definition open_rl (l : list tex) : bool * list tex :=
  match l with [TCmd n [g]] => if named n "RL" then (true, g) else (false, l) | _ => (false, l) end.
Definition open_stretch (l : list tex) : option (list tex) * list tex :=
  match l with
  | [TGroup (TCmd n [h] :: g)] => if named n "setstretch" then (Some h, g) else (None, l)
  | _ => (None, l)
  end.
Definition open_heading (l : list tex) : option N * list tex :=
  match l with
  | [TCmd n [g]] => match heading_depth n with Some d => (Some d, g) | None => (None, l) end
  | _ => (None, l)
  end.
Definition text_shown (l : list tex) : option (list (lkind * list shown)) :=
  let (whole, l) := open_mbox l in
  let (color, l) := open_box l in
  let (rtl, l) := open_rl l in
  let (stretch, l) := open_stretch l in
  let (head, l) := open_heading l in
  let s := mk_setting stretch rtl color whole in
  option_map (fun x => [(match head with Some d => LHead d s | None => LText s end, x)]) (tex_inline bare l).
Fixpoint items_shown (o : bool) (l : list tex_item) : option (list (lkind * list shown)) :=
  match l with
  | [] => Some []
  | (None, g) :: rest => also (option_map (fun x => [(LItem o, x)]) (tex_inline bare g)) (items_shown o rest)
  | (Some _, _) :: _ => None
  end.
Definition part_shown (p : part) : option (list (lkind * list shown)) :=
  match p with
  | PText l => text_shown l
  | PVerb t => Some [(LCode, map (fun c => SChar c bare) t)]
  | PList o items => items_shown o items
  end.
Fixpoint parts_shown (l : list part) : option (list (lkind * list shown)) :=
  match l with [] => Some [] | p :: rest => also (part_shown p) (parts_shown rest) end.

(** The commands that a source uses. *)
Fixpoint used1 (x : tex) : list str :=
  match x with
  | TChar _ => []
  | TGroup l => flat_map used1 l
  | TCmd n args => n :: flat_map (flat_map used1) args
  end.
Definition used (l : list tex) : list str := flat_map used1 l.
Definition part_used (p : part) : list str :=
  match p with
  | PText l => used l
  | PVerb _ => []
  | PList _ items => flat_map (fun i => match fst i with Some a => used a | None => [] end ++ used (snd i)) items
  end.
(** Which package defines a command; [None] for LaTeX itself. [\RL] is defined by
    bidi, which none of the others loads. *)
Definition defined_by (n : str) : option str :=
  if named n "href" then Some (txt "hyperref") else if named n "sout" then Some (txt "ulem")
  else if named n "includegraphics" then Some (txt "graphicx") else if named n "setstretch" then Some (txt "setspace")
  else if named n "colorbox" then Some (txt "xcolor") else if named n "RL" then Some (txt "bidi") else None.
Definition all_defined (pkgs : list str) (l : list part) : Prop :=
  forall n p, In n (flat_map part_used l) -> defined_by n = Some p -> In p pkgs.

(** ** What the source of a document should show. [stretch] prints a line height. *)
Definition set_of (stretch : Z -> str) (f : bfmt) : setting :=
  mk_setting (option_map (fun h => map TChar (stretch h)) (f_line_height f))
    (match f_direction f with Some 1%N => true | _ => false end)
    (option_map (map TChar) (f_background_color f)) (on (f_non_breakable_lines f)).
Definition depth_of (h : Z) : N := match h with 1%Z => 1 | 2%Z => 2 | 3%Z => 3 | _ => 4 end%N.
Definition latex_para_shown (stretch : Z -> str) (L : ldoc) (a : option id * bfmt) (p : list item) : lkind * list shown :=
  let f := snd a in
  if on (f_is_code_block f) then (LCode, flat_map shown_raw p)
  else
    (match listed L a with
     | Some e => LItem (numbered (l_style e))
     | None => match f_heading_level f with Some h => LHead (depth_of h) (set_of stretch f) | None => LText (set_of stretch f) end
     end, flat_map shown_item p).
Fixpoint latex_shown (stretch : Z -> str) (L : ldoc) (atts : list (option id * bfmt)) (ps : list (list item)) : list (lkind * list shown) :=
  match atts, ps with a :: atts, p :: ps => latex_para_shown stretch L a p :: latex_shown stretch L atts ps | _, _ => [] end.

(** Text without special characters and line breaks. *)
Definition plain_tex (x : str) : Prop := forall c, In c x -> ~ In c latex_active /\ c <> NL.
Definition one_line (p : list item) : Prop :=
  forall c f, In (Chr c f) p -> c <> NL /\ forall h, anchor_href f = Some h -> ~ In NL h.
(** A paragraph that the export keeps: in a list, not code and no bracket first;
    code without an end mark; otherwise not empty, with a plain colour. *)
Definition keeps (L : ldoc) (a : option id * bfmt) (p : list item) : Prop :=
  match listed L a with
  | Some _ => on (f_is_code_block (snd a)) = false /\ one_line p /\ forall f r, p <> Chr 91%N f :: r
  | None =>
      if on (f_is_code_block (snd a)) then ~ contains (flat_map (fun x => match x with Chr c _ => [c] | Brk => [] end) p) end_verbatim
      else one_line p /\ (p <> [] \/ f_heading_level (snd a) <> None)
           /\ forall c, f_background_color (snd a) = Some c -> plain_tex c
  end.
(** Neighbouring list items are all numbered or all not. *)
Fixpoint same_kinds (L : ldoc) (atts : list (option id * bfmt)) : Prop :=
  match atts with
  | a :: (b :: _) as rest =>
      (match listed L a, listed L b with
       | Some e, Some e' => numbered (l_style e) = numbered (l_style e')
       | _, _ => True
       end) /\ same_kinds L rest
  | _ => True
  end.
Definition left_to_right (atts : list (option id * bfmt)) : Prop := forall a, In a atts -> f_direction (snd a) <> Some 1%N.

(** ** Images: by name, without size and look. *)
Definition latex_shown_segment (s : segment) : list shown :=
  match s with
  | SegText t f => map (fun c => SChar c (look_of f)) t
  | SegImage i => [SImage (iname i) [] [] bare]
  end.
Definition one_line_segment (s : segment) : Prop :=
  match s with
  | SegText t f => ~ In NL t /\ forall h, anchor_href f = Some h -> ~ In NL h
  | SegImage i => ~ In NL (iname i)
  end.
(** The text of code; an image in it is its name. *)
Definition verbatim_segment (s : segment) : str := match s with SegText t _ => t | SegImage i => iname i end.
