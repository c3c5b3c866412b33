(** Writing a document as HTML and reading it back: what is kept. *)
From Coq Require Import Ascii String SpecFloat.
From Verif Require Import Base FormatRunsModel RopeModel DocModel DocSpec ListModel ListDocModel PropSpec ExportModel ExportSpec MdReadModel DocShows MdReadSpec HtmlReadModel.

(** ** From the source to the tree of nodes

    [html] (ExportSpec) says what a source shows; the reader of HTML fragments
    leaves out the tags html, head and body, and puts neighbouring characters in
    one text node. *)
Fixpoint texts_joined (l : list dom) : list dom :=
  match l with
  | DText a :: rest => match texts_joined rest with DText b :: r => DText (a ++ b) :: r | r => DText a :: r end
  | d :: rest => d :: texts_joined rest
  | [] => []
  end.
Fixpoint tree (n : node) : dom :=
  match n with Ch c => DText [c] | Elem n attrs kids => DElem n attrs (texts_joined (map tree kids)) end.
Fixpoint without_frame (n : node) : list node :=
  match n with
  | Elem name _ kids => if named name "html" || named name "head" || named name "body" then flat_map without_frame kids else [n]
  | Ch _ => [n]
  end.
Definition fragment_tree (l : list node) : list dom := texts_joined (map tree (flat_map without_frame l)).

(** [L'] is what comes back into [L0] when [L] is exported: [height] prints line
    heights, [lh] reads them. *)
Definition html_round (lh : str -> option Z) (height : Z -> str) (L0 L L' : ldoc) : Prop :=
  exists s t, export_html height L = Ok s /\ (forall l, html s l <-> l = t) /\ import_html lh L0 (fragment_tree t) = Some L'.

(** ** What is kept of a paragraph *)
Definition kept_char (x : item) : item := match x with Chr c f => Chr c (look_fmt (look_of f)) | Brk => Brk end.
Definition kept_code_char (x : item) : item := match x with Chr c _ => Chr c (look_fmt (with_code bare)) | Brk => Brk end.
Definition yes (x : option bool) : option bool := if on x then Some true else None.
Definition kept_para (L : ldoc) (a : option id * bfmt) (p : list item) : dpara :=
  let f := snd a in
  if on (f_is_code_block f) then
    mk_dpara (map kept_code_char p)
      (mk_bfmt None None None None None None None None None [] None None None None (Some true)
         (match f_code_language f with Some [] => None | x => x end)) Other
  else match listed L a with
  | Some e => mk_dpara (map kept_char p) bfmt_default (ListModel.Item (if numbered (l_style e) then Decimal else Disc) 0)
  | None =>
      mk_dpara (map kept_char p)
        (mk_bfmt None None None None None (option_map (fun h => Z.max 1 (Z.min 6 h)) (f_heading_level f)) None None None []
           (f_line_height f) (yes (f_non_breakable_lines f)) (match f_direction f with Some 1%N => Some 1%N | _ => None end)
           (f_background_color f) None None) Other
  end.
Fixpoint kept (L : ldoc) (atts : list (option id * bfmt)) (ps : list (list item)) : list dpara :=
  match atts, ps with a :: atts, p :: ps => kept_para L a p :: kept L atts ps | _, _ => [] end.

(** Text for a style: no semicolon and no white space at its ends. *)
Definition neat (v : str) : Prop :=
  ~ In 59%N v /\ (forall c r, v = c :: r -> is_white c = false) /\ (forall c r, v = r ++ [c] -> is_white c = false).
Definition neat_colors (atts : list (option id * bfmt)) : Prop :=
  forall a c, In a atts -> f_background_color (snd a) = Some c -> neat c.
(** The line heights of the document are read back as they are printed. *)
Definition heights_read (lh : str -> option Z) (height : Z -> str) (atts : list (option id * bfmt)) : Prop :=
  forall a z, In a atts -> f_line_height (snd a) = Some z -> neat (height z) /\ lh (height z) = Some z.
(** Languages of code blocks are single words. *)
Definition neat_languages (atts : list (option id * bfmt)) : Prop :=
  forall a c, In a atts -> f_code_language (snd a) = Some c -> Forall (fun x => is_white x = false) c.

(** ** Line heights

    export_html_uc.rs:324 prints [h as f64 / 1000.0]; content_parser.rs:516-517
    reads the number and takes [(v * 1000.0) as i64]. Printing and reading a
    double give the double back. Doubles of the standard library. *)
Definition double (z : Z) : spec_float := binary_normalize 53 1024 z 0 false.
Definition truncated (x : spec_float) : Z :=
  match x with
  | S754_finite s m e =>
      let n := match e with Z0 => Z.pos m | Zpos p => (Z.pos m * 2 ^ Z.pos p)%Z | Zneg p => (Z.pos m / 2 ^ Z.pos p)%Z end in
      if s then (- n)%Z else n
  | _ => 0%Z
  end.
Definition line_height_back (h : Z) : Z := truncated (SFmul 53 1024 (SFdiv 53 1024 (double h) (double 1000)) (double 1000)).
