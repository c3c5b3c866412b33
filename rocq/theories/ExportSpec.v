(** How an HTML reader sees a page, and what the page of a document should show.
    White space is kept as it is. *)
From Coq Require Import Ascii String.
From Verif Require Import Base FormatRunsModel FormatRunsSpec RopeModel DocModel DocSpec ListModel ListSpec ListDocModel HistModel PropSpec EscapeSpec
  QueryModel FragmentModel.

Definition txt (x : string) : str := map N_of_ascii (list_ascii_of_string x).
Arguments txt _%string_scope.

(** ** Pages

    A page is a tree of characters and elements. *)
Inductive node := Ch (c : char) | Elem (name : str) (attrs : list (str * str)) (kids : list node).

Definition name_char (c : char) : bool := ((97 <=? c) && (c <=? 122) || (48 <=? c) && (c <=? 57))%N.
Definition is_name (n : str) : Prop := n <> [] /\ Forall (fun c => name_char c = true) n.
(** Elements without content and end tag. *)
Definition void_names : list str := [txt "img"; txt "meta"; txt "br"].

(** [attrs_source e l]: the source [e] of the attributes [l]. *)
Inductive attrs_source : str -> list (str * str) -> Prop :=
| attrs_nil : attrs_source [] []
| attrs_cons n e v rest l : is_name n -> reads html_codes html_active e v -> attrs_source rest l ->
    attrs_source (txt " " ++ n ++ txt "=""" ++ e ++ txt """" ++ rest) ((n, v) :: l).
(** [html e l]: the source [e] shows the nodes [l]. *)
Inductive html : str -> list node -> Prop :=
| h_nil : html [] []
| h_char c rest l : ~ In c html_active -> html rest l -> html (c :: rest) (Ch c :: l)
| h_ref k c rest l : In (k, c) html_codes -> html rest l -> html (k ++ rest) (Ch c :: l)
| h_elem n a attrs inner kids rest l :
    is_name n -> ~ In n void_names -> attrs_source a attrs -> html inner kids -> html rest l ->
    html (txt "<" ++ n ++ a ++ txt ">" ++ inner ++ txt "</" ++ n ++ txt ">" ++ rest) (Elem n attrs kids :: l)
| h_void n a attrs e rest l :
    In n void_names -> attrs_source a attrs -> e = txt ">" \/ e = txt " />" -> html rest l ->
    html (txt "<" ++ n ++ a ++ e ++ rest) (Elem n attrs [] :: l).

(** ** What a page shows *)

(** How a character looks. *)
Record look := mk_look { k_code : bool; k_bold : bool; k_italic : bool; k_underline : bool; k_strike : bool; k_link : option str }.
Definition bare : look := mk_look false false false false false None.
Inductive shown := SChar (c : char) (k : look) | SImage (name width height : str) (k : look).

Definition named (n : str) (x : string) : bool := if list_eq_dec N.eq_dec n (txt x) then true else false.
Arguments named _ _%string_scope.
(** The look inside an inline element. *)
Definition inside (n : str) (attrs : list (str * str)) (k : look) : option look :=
  let 'mk_look c b i u s a := k in
  if named n "code" then Some (mk_look true b i u s a)
  else if named n "strong" then Some (mk_look c true i u s a)
  else if named n "em" then Some (mk_look c b true u s a)
  else if named n "u" then Some (mk_look c b i true s a)
  else if named n "s" then Some (mk_look c b i u true a)
  else if named n "a" then
    match attrs with
    | [(x, href)] => if named x "href" then Some (mk_look c b i u s (Some href)) else None
    | _ => None
    end
  else None.
Definition also {A} (x y : option (list A)) : option (list A) :=
  match x, y with Some a, Some b => Some (a ++ b) | _, _ => None end.
(** The characters and images of inline content, with their looks. *)
Fixpoint inline1 (k : look) (n : node) : option (list shown) :=
  match n with
  | Ch c => Some [SChar c k]
  | Elem n attrs kids =>
      if named n "img" then
        match attrs with
        | [(a, x); (b, y); (c, z)] =>
            if named a "src" && named b "width" && named c "height" then Some [SImage x y z k] else None
        | _ => None
        end
      else
        match inside n attrs k with
        | None => None
        | Some k' =>
            (fix all (l : list node) : option (list shown) :=
               match l with [] => Some [] | m :: rest => also (inline1 k' m) (all rest) end) kids
        end
  end.
Fixpoint inline (k : look) (l : list node) : option (list shown) :=
  match l with [] => Some [] | m :: rest => also (inline1 k m) (inline k rest) end.

(** Paragraphs: their kind and content. Attributes of paragraphs and headings
    are kept as they are. *)
Inductive kind :=
| Para (attrs : list (str * str)) | Head (level : N) (attrs : list (str * str))
| Code (language : option str) | Item (ordered : bool).
Definition heading_level (n : str) : option N :=
  match n with [h; c] => if ((h =? 104) && (49 <=? c) && (c <=? 54))%N then Some (c - 48)%N else None | _ => None end.
Definition with_kind (k : kind) (x : option (list shown)) : option (list (kind * list shown)) :=
  match x with Some l => Some [(k, l)] | None => None end.
Fixpoint items_in (ordered : bool) (l : list node) : option (list (kind * list shown)) :=
  match l with
  | [] => Some []
  | Elem n [] kids :: rest =>
      if named n "li" then also (with_kind (Item ordered) (inline bare kids)) (items_in ordered rest) else None
  | _ => None
  end.
Definition block1 (n : node) : option (list (kind * list shown)) :=
  match n with
  | Ch _ => None
  | Elem n attrs kids =>
      if named n "p" then with_kind (Para attrs) (inline bare kids)
      else match heading_level n with
      | Some h => with_kind (Head h attrs) (inline bare kids)
      | None =>
          match attrs with
          | _ :: _ => None
          | [] =>
              if named n "ul" then items_in false kids
              else if named n "ol" then items_in true kids
              else if named n "pre" then
                match kids with
                | [Elem c a inner] =>
                    if named c "code" then
                      match a with
                      | [] => with_kind (Code None) (inline bare inner)
                      | [(x, v)] => if named x "class" then with_kind (Code (Some v)) (inline bare inner) else None
                      | _ => None
                      end
                    else None
                | _ => None
                end
              else None
          end
      end
  end.
Fixpoint blocks (l : list node) : option (list (kind * list shown)) :=
  match l with [] => Some [] | m :: rest => also (block1 m) (blocks rest) end.
(** A page with the given body. *)
Definition page (body : list node) : list node :=
  [Elem (txt "html") [] [Elem (txt "head") [] [Elem (txt "meta") [(txt "charset", txt "utf-8")] []];
                         Elem (txt "body") [] body]].

(** ** What the page of a document should show *)
Definition on (x : option bool) : bool := match x with Some b => b | None => false end.
Definition look_of (f : cfmt) : look :=
  mk_look (match font_family f with Some n => named n "monospace" | None => false end)
    (on (font_bold f)) (on (font_italic f)) (on (font_underline f)) (on (font_strikeout f)) (anchor_href f).
Definition shown_item (x : item) : list shown := match x with Chr c f => [SChar c (look_of f)] | Brk => [] end.
Definition shown_raw (x : item) : list shown := match x with Chr c f => [SChar c bare] | Brk => [] end.

(** The style of a paragraph. [height] is how a line height is printed. *)
Definition css (height : Z -> str) (f : bfmt) : list str :=
  match f_alignment f with
  | None => []
  | Some 0%N => [txt "text-align: left"] | Some 1%N => [txt "text-align: right"]
  | Some 2%N => [txt "text-align: center"] | Some _ => [txt "text-align: justify"]
  end
  ++ match f_line_height f with Some h => [txt "line-height: " ++ height h] | None => [] end
  ++ (if on (f_non_breakable_lines f) then [txt "white-space: pre"] else [])
  ++ match f_direction f with Some 1%N => [txt "direction: rtl"] | _ => [] end
  ++ match f_background_color f with Some c => [txt "background-color: " ++ c] | None => [] end.
Fixpoint semicolons (l : list str) : str :=
  match l with [] => [] | [x] => x | x :: rest => x ++ txt "; " ++ semicolons rest end.
Definition style_attrs (l : list str) : list (str * str) := match l with [] => [] | _ => [(txt "style", semicolons l)] end.

Definition numbered (st : list_style) : bool := match st with Disc | Circle | Square => false | _ => true end.
Definition listed (L : ldoc) (a : option id * bfmt) : option list_entity :=
  match fst a with Some l => get_list L l | None => None end.
(** Kind and content of a paragraph with attributes [a]. *)
Definition para_shown (height : Z -> str) (L : ldoc) (a : option id * bfmt) (p : list item) : kind * list shown :=
  let f := snd a in
  if on (f_is_code_block f) then
    (Code (match f_code_language f with Some (c :: l) => Some (txt "language-" ++ c :: l) | _ => None end), flat_map shown_raw p)
  else
    (match listed L a with
     | Some e => Item (numbered (l_style e))
     | None =>
         match f_heading_level f with
         | Some h => Head (Z.to_N (Z.max 1 (Z.min 6 h))) (style_attrs (css height f))
         | None => Para (style_attrs (css height f))
         end
     end, flat_map shown_item p).
Fixpoint doc_shown (height : Z -> str) (L : ldoc) (atts : list (option id * bfmt)) (ps : list (list item)) : list (kind * list shown) :=
  match atts, ps with a :: atts, p :: ps => para_shown height L a p :: doc_shown height L atts ps | _, _ => [] end.

(** A paragraph in a list that follows another one is not a code block and has
    the same kind of list. *)
Fixpoint steady (L : ldoc) (atts : list (option id * bfmt)) : Prop :=
  match atts with
  | a :: (b :: _) as rest =>
      (match listed L a, listed L b with
       | Some e, Some e' => on (f_is_code_block (snd a)) = false ->
                            on (f_is_code_block (snd b)) = false /\ numbered (l_style e) = numbered (l_style e')
       | _, _ => True
       end) /\ steady L rest
  | _ => True
  end.
(** Background colours and printed line heights without HTML special characters. *)
Definition calm (x : str) : Prop := forall c, In c x -> ~ In c html_active.
Definition calm_colors (atts : list (option id * bfmt)) : Prop :=
  forall a c, In a atts -> f_background_color (snd a) = Some c -> calm c.

(** ** Images and fragments *)

(** [x] is the decimal notation of [z]. *)
Definition int_text (z : Z) (x : str) : Prop :=
  if (z <? 0)%Z then exists y, x = txt "-" ++ y /\ plain_decimal y /\ Z.of_N (decimal_value y) = (- z)%Z
  else plain_decimal x /\ Z.of_N (decimal_value x) = z.
(** The characters of a piece of text, or an image; [number] prints numbers. *)
Definition shown_segment (number : Z -> str) (s : segment) : list shown :=
  match s with
  | SegText t f => map (fun c => SChar c (look_of f)) t
  | SegImage i => [SImage (iname i) (number (iwidth i)) (number (iheight i)) (look_of (ifmt i))]
  end.
Definition raw_shown (s : segment) : list shown :=
  match s with SegText t f => map (fun c => SChar c bare) t | SegImage _ => [] end.
(** The style of a paragraph of a fragment. *)
Definition frag_css (number : Z -> str) (f : bfmt) : list str :=
  match f_alignment f with
  | None => []
  | Some 0%N => [txt "text-align: left"] | Some 1%N => [txt "text-align: right"]
  | Some 2%N => [txt "text-align: center"] | Some _ => [txt "text-align: justify"]
  end
  ++ match f_indent f with Some n => if (0 <? n)%Z then [txt "margin-left: " ++ number n ++ txt "em"] else [] | None => [] end
  ++ match f_text_indent f with Some 0%Z | None => [] | Some n => [txt "text-indent: " ++ number n ++ txt "px"] end
  ++ match f_top_margin f with Some n => [txt "margin-top: " ++ number n ++ txt "px"] | None => [] end
  ++ match f_bottom_margin f with Some n => [txt "margin-bottom: " ++ number n ++ txt "px"] | None => [] end
  ++ match f_left_margin f with Some n => [txt "margin-left: " ++ number n ++ txt "px"] | None => [] end
  ++ match f_right_margin f with Some n => [txt "margin-right: " ++ number n ++ txt "px"] | None => [] end.
(** Kind and content of a paragraph of a fragment. *)
Definition frag_shown (number : Z -> str) (fb : fblock) : kind * list shown :=
  let f := fb_fmt fb in
  if on (f_is_code_block f) then
    (Code (match f_code_language f with Some (c :: l) => Some (txt "language-" ++ c :: l) | _ => None end), flat_map raw_shown (fb_elems fb))
  else
    (match fb_list fb with
     | Some e => Item (numbered (l_style e))
     | None =>
         match f_heading_level f with
         | Some h => Head (Z.to_N (Z.max 1 (Z.min 6 h))) (style_attrs (frag_css number f))
         | None => Para (style_attrs (frag_css number f))
         end
     end, flat_map (shown_segment number) (fb_elems fb)).
Definition segment_format (s : segment) : cfmt := match s with SegText _ f => f | SegImage i => ifmt i end.
(** The links are marked as links. *)
Definition links_marked (fb : fblock) : Prop :=
  forall s h, In s (fb_elems fb) -> anchor_href (segment_format s) = Some h -> is_anchor (segment_format s) = Some true.
(** Neither a code block nor a heading with a style. *)
Definition no_code_no_styled_heading (fb : fblock) : Prop :=
  on (f_is_code_block (fb_fmt fb)) = false
  /\ (f_heading_level (fb_fmt fb) <> None -> frag_css (fun _ => []) (fb_fmt fb) = []).
