(** Reading HTML: crates/common/src/parser_tools/content_parser.rs:495-1090. The
    tree of nodes comes from the scraper and html5ever libraries, which are not
    modelled. *)
From Coq Require Import Ascii String.
From Verif Require Import Base FormatRunsModel RopeModel DocModel ListModel ListDocModel ImportModel MdReadModel.

(** A node of the tree: [Node::Text], [Node::Element] with its name in lower case
    and its attributes, and every other node (comments). *)
Inductive dom := DText (t : str) | DElem (name : str) (attrs : list (str * str)) (kids : list dom) | DOther (kids : list dom).

Definition s_ (x : string) : str := map N_of_ascii (list_ascii_of_string x).
Arguments s_ _%string_scope.
Definition is_ (n : str) (x : string) : bool := if list_eq_dec N.eq_dec n (s_ x) then true else false.
Arguments is_ _ _%string_scope.
(** [matches!(tag, a | b | ...)] *)
Definition is_any (n : str) (l : list string) : bool := existsb (is_ n) l.
Arguments is_any _ _%list_scope.
(** [ElementRef::attr] *)
Definition attr_of (name : string) (attrs : list (str * str)) : option str :=
  option_map snd (find (fun x => is_ (fst x) name) attrs).
Arguments attr_of _%string_scope _.

(** [char::is_whitespace]: the Unicode property White_Space. *)
Definition is_white (c : char) : bool :=
  ((9 <=? c) && (c <=? 13) || (c =? 32) || (c =? 133) || (c =? 160) || (c =? 5760) || (8192 <=? c) && (c <=? 8202)
   || (c =? 8232) || (c =? 8233) || (c =? 8239) || (c =? 8287) || (c =? 12288))%N.
Fixpoint trim_start (s : str) : str := match s with c :: r => if is_white c then trim_start r else s | [] => [] end.
Definition trim (s : str) : str := rev (trim_start (rev (trim_start s))).
(** [split(c)]: the parts between the separators. *)
Fixpoint split_at (sep : char -> bool) (s : str) : list str :=
  match s with
  | [] => [[]]
  | c :: r => if sep c then [] :: split_at sep r else match split_at sep r with p :: ps => (c :: p) :: ps | [] => [[c]] end
  end.
(** [split_once(':')] *)
Fixpoint split_once (c : char) (s : str) : option (str * str) :=
  match s with
  | [] => None
  | x :: r => if N.eqb x c then Some ([], r) else option_map (fun p => (x :: fst p, snd p)) (split_once c r)
  end.
(** [to_ascii_lowercase] *)
Definition ascii_lower (s : str) : str := map (fun c => if ((65 <=? c) && (c <=? 90))%N then (c + 32)%N else c) s.
(** [strip_prefix] *)
Fixpoint strip_prefix (p s : str) : option str :=
  match p, s with
  | [], _ => Some s
  | a :: p', b :: s' => if N.eqb a b then strip_prefix p' s' else None
  | _ :: _, [] => None
  end.

(** content_parser.rs:495-502 [BlockStyles]; direction 1 is right to left, 0 left to right. *)
Record styles := mk_styles { y_line_height : option Z; y_non_breakable : option bool; y_direction : option N; y_background : option str }.
Definition no_styles : styles := mk_styles None None None None.
(** content_parser.rs:506-538 [parse_block_styles]. [lh v] is the number
    [(v * 1000.0) as i64] when [v] parses as a floating-point number; the theorems
    hold for every [lh]. *)
Definition one_style (lh : str -> option Z) (y : styles) (part : str) : styles :=
  match split_once 58%N (trim part) with
  | None => y
  | Some (prop, val) =>
      let prop := ascii_lower (trim prop) in
      let val := trim val in
      if is_ prop "line-height" then
        match lh val with Some n => mk_styles (Some n) (y_non_breakable y) (y_direction y) (y_background y) | None => y end
      else if is_ prop "white-space" && is_any val ["pre"; "nowrap"; "pre-wrap"]%string then
        mk_styles (y_line_height y) (Some true) (y_direction y) (y_background y)
      else if is_ prop "direction" then
        if is_ (ascii_lower val) "rtl" then mk_styles (y_line_height y) (y_non_breakable y) (Some 1%N) (y_background y)
        else if is_ (ascii_lower val) "ltr" then mk_styles (y_line_height y) (y_non_breakable y) (Some 0%N) (y_background y)
        else y
      else if is_any prop ["background-color"; "background"]%string then
        mk_styles (y_line_height y) (y_non_breakable y) (y_direction y) (Some val)
      else y
  end.
Definition parse_block_styles (lh : str -> option Z) (style : str) : styles :=
  fold_left (one_style lh) (split_at (fun c => N.eqb c 59) style) no_styles.

(** content_parser.rs:553-561 [FmtState]. *)
Record fstate := mk_fstate { f_bold : bool; f_italic : bool; f_underline : bool; f_strike : bool; f_code : bool; f_href : option str }.
Definition fstate0 : fstate := mk_fstate false false false false false None.
(** content_parser.rs:703-715, 966-978, 593-605: the state inside an element. *)
Definition enter (tag : str) (attrs : list (str * str)) (s : fstate) : fstate :=
  let 'mk_fstate b i u k c h := s in
  if is_any tag ["b"; "strong"]%string then mk_fstate true i u k c h
  else if is_any tag ["i"; "em"]%string then mk_fstate b true u k c h
  else if is_any tag ["u"; "ins"]%string then mk_fstate b i true k c h
  else if is_any tag ["s"; "del"; "strike"]%string then mk_fstate b i u true c h
  else if is_ tag "code" then mk_fstate b i u k true h
  else if is_ tag "a" then match attr_of "href" attrs with Some x => mk_fstate b i u k c (Some x) | None => s end
  else s.
Definition fspan (s : fstate) (t : str) : span := mk_span t (f_bold s) (f_italic s) (f_underline s) (f_strike s) (f_code s) (f_href s).
(** content_parser.rs:735-743. *)
Definition heading_of (tag : str) : option Z :=
  if is_ tag "h1" then Some 1%Z else if is_ tag "h2" then Some 2%Z else if is_ tag "h3" then Some 3%Z
  else if is_ tag "h4" then Some 4%Z else if is_ tag "h5" then Some 5%Z else if is_ tag "h6" then Some 6%Z else None.
(** content_parser.rs:748-764: the language of a code block. *)
Fixpoint find_map {A B} (f : A -> option B) (l : list A) : option B :=
  match l with [] => None | x :: r => match f x with Some y => Some y | None => find_map f r end end.
Definition class_language (cls : str) : option str :=
  find_map (fun w => match w with [] => None | _ => strip_prefix (s_ "language-") w end) (split_at is_white cls).
Definition code_language (kids : list dom) : option str :=
  find_map (fun d => match d with
    | DElem n attrs _ => if is_ n "code" then match attr_of "class" attrs with Some cls => class_language cls | None => None end else None
    | _ => None end) kids.

(** content_parser.rs:563-611 [collect_cell_spans]; [fuel] is what is left of
    MAX_RECURSION_DEPTH. *)
Fixpoint cell_spans (fuel : nat) (s : fstate) (kids : list dom) : list span :=
  match fuel with
  | 0 => []
  | S fuel =>
      flat_map (fun d => match d with
        | DText [] => []
        | DText t => [fspan s t]
        | DElem n attrs ks => cell_spans fuel (enter n attrs s) ks
        | DOther _ => [] end) kids
  end.
Definition max_depth : nat := 256.
(** content_parser.rs:613-665 [parse_table_element]: the rows, with the mark of
    those in [thead]. *)
Definition row_cells (kids : list dom) : list (list span) :=
  flat_map (fun d => match d with
    | DElem n _ ks =>
        if is_any n ["td"; "th"]%string
        then [match cell_spans (S max_depth) fstate0 ks with [] => [empty_span] | l => l end] else []
    | _ => [] end) kids.
Fixpoint table_rows (in_thead : bool) (d : dom) : list (bool * list (list span)) :=
  match d with
  | DElem n _ ks =>
      if is_ n "thead" then flat_map (table_rows true) ks
      else if is_any n ["tbody"; "tfoot"]%string then flat_map (table_rows false) ks
      else if is_ n "tr" then match row_cells ks with [] => [] | l => [(in_thead, l)] end
      else []
  | _ => []
  end.
Definition parse_table (kids : list dom) : ptable :=
  let rows := flat_map (table_rows false) kids in
  let header := length (filter fst rows) in
  mk_ptable (if (header =? 0) && negb (length rows =? 0) then 1 else header) (map snd rows).

(** content_parser.rs:690-703, 983-996. *)
Definition block_tags : list string := ["p"; "div"; "h1"; "h2"; "h3"; "h4"; "h5"; "h6"; "li"; "pre"; "br"; "blockquote"; "body"; "html"]%string.
Definition nested_tags : list string := ["p"; "div"; "h1"; "h2"; "h3"; "h4"; "h5"; "h6"; "li"; "pre"; "blockquote"; "ul"; "ol"]%string.
Definition bare_block (spans : list span) (quotes : nat) : pblock := mk_pblock spans None None 0 false None quotes None None None None.

(** content_parser.rs:668-931 [walk_node] and 937-1030 [collect_inline_spans];
    [fuel] is 257 minus the depth. *)
Fixpoint walk (lh : str -> option Z) (fuel : nat) (s : fstate) (list_style : option list_style) (quotes depth : nat) (d : dom) : list pelement :=
  match fuel with
  | 0 => []
  | S fuel =>
      match d with
      | DElem tag attrs kids =>
          let s' := enter tag attrs s in
          let style' := if is_ tag "ul" then Some Disc else if is_ tag "ol" then Some Decimal else list_style in
          let depth' := if is_any tag ["ul"; "ol"]%string then depth + 1 else depth in
          let quotes' := if is_ tag "blockquote" then quotes + 1 else quotes in
          let pre := is_ tag "pre" in
          let css := if is_any tag block_tags then match attr_of "style" attrs with Some y => parse_block_styles lh y | None => no_styles end else no_styles in
          if is_ tag "table" then
            match pt_rows (parse_table kids) with [] => [] | _ => [PTable (parse_table kids)] end
          else if is_ tag "br" then [PBlock (bare_block [empty_span] quotes')]
          else if is_ tag "blockquote" then flat_map (walk lh fuel s' style' quotes' depth') kids
          else if is_any tag block_tags then
            let '(spans, nested) := collect lh fuel s' style' quotes' depth' kids in
            let item := is_ tag "li" in
            (if negb (length spans =? 0) || match heading_of tag with Some _ => true | None => false end
             then [PBlock (mk_pblock spans (heading_of tag) (if item then style' else None) (if item then depth' - 1 else 0) pre
                     (if pre then code_language kids else None) quotes'
                     (y_line_height css) (y_non_breakable css) (y_direction css) (y_background css))]
             else []) ++ nested
          else if is_any tag ["ul"; "ol"; "thead"; "tbody"; "tr"]%string then flat_map (walk lh fuel s' style' quotes' depth') kids
          else flat_map (walk lh fuel s' list_style quotes' depth) kids
      | DText t => match trim t with [] => [] | t' => [PBlock (bare_block [fspan s t'] quotes)] end
      | DOther kids => flat_map (walk lh fuel s list_style quotes depth) kids
      end
  end
with collect (lh : str -> option Z) (fuel : nat) (s : fstate) (list_style : option list_style) (quotes depth : nat) (kids : list dom)
  : list span * list pelement :=
  match fuel with
  | 0 => ([], [])
  | S fuel =>
      let parts := map (fun d =>
        match d with
        | DText [] => ([], [])
        | DText t => ([fspan s t], [])
        | DElem tag attrs ks =>
            let s' := enter tag attrs s in
            if is_ tag "br" then ([empty_span], [])
            else if is_any tag nested_tags || is_ tag "table" then ([], walk lh fuel s' list_style quotes depth d)
            else collect lh fuel s' list_style quotes depth ks
        | DOther _ => ([], [])
        end) kids in
      (flat_map fst parts, flat_map snd parts)
  end.
(** content_parser.rs:544-551, 1032-1090 [parse_html_elements], on the children of
    the root. *)
Definition parse_html (lh : str -> option Z) (page : list dom) : list pelement :=
  let '(spans, elements) := collect lh (S max_depth) fstate0 None 0 0 page in
  let all := elements ++ (match spans with [] => [] | _ => [PBlock (bare_block spans 0)] end) in
  match all with [] => [PBlock empty_block] | l => l end.
(** content_parser.rs and import_html_uc.rs together; [None] outside the model. *)
Definition import_html (lh : str -> option Z) (L : ldoc) (page : list dom) : option ldoc :=
  option_map (import_parsed true L) (flat_blocks (parse_html lh page)).
