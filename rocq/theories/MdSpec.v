(** How a Markdown reader sees a source, for a part of CommonMark in which every
    source has one reading. What is outside this part has no reading here. *)
From Coq Require Import Ascii String.
From Verif Require Import Base FormatRunsModel RopeModel DocModel DocSpec ListModel ListSpec ListDocModel HistModel QueryModel PropSpec FragmentModel EscapeSpec ExportSpec.

(** ** Text inside a paragraph *)
Definition space (c : char) : bool := ((c =? 32) || (c =? 9))%N.
(** Neither white space nor punctuation. *)
Definition word_char (c : char) : Prop := ~ In c ([32; 9; 10; 13] ++ ascii_punctuation)%N.
(** Non-empty, first and last character satisfy [P]. *)
Definition ends (P : char -> Prop) (t : str) : Prop :=
  (exists c r, t = c :: r /\ P c) /\ (exists c r, t = r ++ [c] /\ P c).
Definition not_space (c : char) : Prop := space c = false.

(** The marks of emphasis and what they mean. *)
Inductive mark : str -> look -> Prop :=
| m_strike : mark (txt "~~") (mk_look false false false false true None)
| m_italic : mark (txt "*") (mk_look false false true false false None)
| m_bold : mark (txt "**") (mk_look false true false false false None)
| m_both : mark (txt "***") (mk_look false true true false false None).
(** [simple e k t]: the source [e] shows [t] with look [k], in one piece. Text
    between marks begins and ends with a word character, so that the marks count
    wherever they stand. *)
Inductive simple : str -> look -> str -> Prop :=
| s_code t : ends not_space t -> ~ In 96%N t -> ~ In 10%N t ->
    simple (txt "`" ++ t ++ txt "`") (mk_look true false false false false None) t
| s_mark m k e t : mark m k -> reads md_codes md_active e t -> ends word_char t -> simple (m ++ e ++ m) k t.
Definition link_to (href : str) (k : look) : look :=
  mk_look (k_code k) (k_bold k) (k_italic k) (k_underline k) (k_strike k) (Some href).
(** Link targets are written as they are: no spaces, brackets, backslashes. *)
Definition target_char (c : char) : Prop := ~ In c [32; 9; 10; 13; 38; 40; 41; 60; 62; 92]%N.
(** The end of a simple piece is not followed by a mark of the same kind. *)
Definition apart (e rest : str) : Prop := forall c r s, rest = c :: r -> e <> s ++ [c].

Inductive md_inline : str -> list shown -> Prop :=
| md_nil : md_inline [] []
| md_char c e l : ~ In c md_active -> c <> 10%N -> md_inline e l -> md_inline (c :: e) (SChar c bare :: l)
| md_escape c e l : In c ascii_punctuation -> md_inline e l -> md_inline (92%N :: c :: e) (SChar c bare :: l)
| md_simple x k t e l : simple x k t -> apart x e -> md_inline e l -> md_inline (x ++ e) (map (fun c => SChar c k) t ++ l)
| md_link_text x t href e l : reads md_codes md_active x t -> t <> [] -> ~ In 10%N t -> Forall target_char href -> md_inline e l ->
    md_inline (txt "[" ++ x ++ txt "](" ++ href ++ txt ")" ++ e) (map (fun c => SChar c (link_to href bare)) t ++ l)
| md_link_simple x k t href e l : simple x k t -> Forall target_char href -> md_inline e l ->
    md_inline (txt "[" ++ x ++ txt "](" ++ href ++ txt ")" ++ e) (map (fun c => SChar c (link_to href k)) t ++ l).

(** ** Blocks *)
Fixpoint lines_of (s : str) : list str :=
  match s with
  | [] => [[]]
  | c :: r =>
      match lines_of r with
      | l :: ls => if (c =? 10)%N then [] :: l :: ls else (c :: l) :: ls
      | [] => [[c]]
      end
  end.
Fixpoint drop_spaces (l : str) : str := match l with c :: r => if space c then drop_spaces r else l | [] => [] end.
Definition trim (l : str) : str := rev (drop_spaces (rev (drop_spaces l))).
Definition blank (l : str) : bool := forallb space l.
Definition leading_spaces (l : str) : nat := length l - length (drop_spaces l).
Fixpoint drop_digits (l : str) : str := match l with c :: r => if ((48 <=? c) && (c <=? 57))%N then drop_digits r else l | [] => [] end.
Fixpoint hashes (l : str) : nat := match l with c :: r => if (c =? 35)%N then S (hashes r) else 0 | [] => 0 end.

(** A line that is a block of its own: four spaces make code; then headings,
    items and paragraphs. Block quotes, code fences and tags are not read here. *)
Definition line_block (l : str) : option (kind * str) :=
  if 4 <=? leading_spaces l then Some (Code None, skipn 4 l)
  else
    let x := trim l in
    let h := hashes x in
    if (1 <=? h) && (h <=? 6) && match skipn h x with c :: _ => space c | [] => true end then Some (Head (N.of_nat h) [], trim (skipn h x))
    else
      match drop_digits x with
      | c :: d :: r =>
          if (length (c :: d :: r) <? length x) && ((c =? 46) || (c =? 41))%N && space d then Some (Item true, trim r)
          else
            match x with
            | c :: d :: r => if ((c =? 45) || (c =? 43) || (c =? 42))%N && space d then Some (Item false, trim r)
                             else if ((c =? 62) || (c =? 60))%N || ((c =? 126) && (d =? 126) && (hd 0 r =? 126))%N then None
                             else Some (Para [], x)
            | _ => Some (Para [], x)
            end
      | _ => Some (Para [], x)
      end.
Fixpoint join_lines (ls : list str) : str := match ls with [] => [] | [l] => l | l :: ls => l ++ 10%N :: join_lines ls end.
(** Three backquotes at the start. *)
Definition fence (l : str) : bool := if list_eq_dec N.eq_dec (firstn 3 l) (txt "```") then true else false.
Definition add_block {A} (x : option A) (l : option (list A)) : option (list A) :=
  match x, l with Some a, Some b => Some (a :: b) | _, _ => None end.
Definition language (info : str) : option str := match trim info with [] => None | x => Some x end.
(** Where a line stands: at the start or after a blank line; just below a line of
    text; just below an item; after a blank line in a list. *)
Inductive place := Start | Below | BelowItem | InList.
Definition after_blank (p : place) : place := match p with Start | Below => Start | BelowItem | InList => InList end.
Definition is_item (b : kind) : bool := match b with Item _ => true | _ => false end.
(** Two lines of text that follow each other are not read here, nor lines in a
    list that are indented and may continue an item. *)
Definition fits (p : place) (l : str) (b : kind) : bool :=
  match p with
  | Start => true
  | Below => false
  | BelowItem => is_item b
  | InList => is_item b || (leading_spaces l <=? 1)
  end.
(** The blocks of a source: kind and source of the text. [open]: the language
    and lines of an open code block. *)
Fixpoint md_lines (open : option (str * list str)) (p : place) (ls : list str) : option (list (kind * str)) :=
  match ls with
  | [] => match open with Some (info, code) => Some [(Code (language info), join_lines code)] | None => Some [] end
  | l :: rest =>
      match open with
      | Some (info, code) =>
          if fence l && forallb (fun c => space c || (c =? 96)%N) l then add_block (Some (Code (language info), join_lines code)) (md_lines None Start rest)
          else md_lines (Some (info, code ++ [l])) p rest
      | None =>
          if blank l then md_lines None (after_blank p) rest
          else if fence l then if existsb (N.eqb 96%N) (skipn 3 l) then None else md_lines (Some (skipn 3 l, [])) Start rest
          else
            match line_block l with
            | Some (b, x) =>
                if fits p l b then add_block (Some (b, x)) (md_lines None (if is_item b then BelowItem else Below) rest)
                else None
            | None => None
            end
      end
  end.
Definition md_read (s : str) : option (list (kind * str)) := md_lines None Start (lines_of s).

(** [md_shows s r]: the source [s] shows the blocks [r]. *)
Definition block_reads (b : kind * str) (r : kind * list shown) : Prop :=
  fst b = fst r /\ match fst b with
                   | Code _ => snd r = map (fun c => SChar c bare) (snd b)
                   | _ => md_inline (snd b) (snd r)
                   end.
Definition md_shows (s : str) (r : list (kind * list shown)) : Prop :=
  exists bs, md_read s = Some bs /\ Forall2 block_reads bs r.

(** ** What a document should show; Markdown has no underline *)
Definition md_look (f : cfmt) : look :=
  let k := look_of f in mk_look (k_code k) (k_bold k) (k_italic k) false (k_strike k) (k_link k).
Definition md_item (x : item) : list shown := match x with Chr c f => [SChar c (md_look f)] | Brk => [] end.
Definition md_para (L : ldoc) (a : option id * bfmt) (p : list item) : kind * list shown :=
  let f := snd a in
  if on (f_is_code_block f) then
    (Code (match f_code_language f with Some (c :: l) => Some (c :: l) | _ => None end), flat_map shown_raw p)
  else
    (match f_heading_level f, listed L a with
     | Some h, _ => Head (Z.to_N h) []
     | None, Some e => Item (numbered (l_style e))
     | None, None => Para []
     end, flat_map md_item p).
Fixpoint md_doc (L : ldoc) (atts : list (option id * bfmt)) (ps : list (list item)) : list (kind * list shown) :=
  match atts, ps with a :: atts, p :: ps => md_para L a p :: md_doc L atts ps | _, _ => [] end.

(** ** The documents whose export is read back *)
Definition marked (f : cfmt) : bool :=
  let k := look_of f in k_code k || k_bold k || k_italic k || k_strike k.
(** A piece of text of one format: plain text without the characters [bad]; or
    code; or emphasised or struck out, but not both, text between two word
    characters. Link targets without special characters. *)
Definition gentle_segment (bad : list char) (s : segment) : Prop :=
  match s with
  | SegImage _ => False
  | SegText t f =>
      let k := look_of f in
      t <> [] /\ ~ In 10%N t
      /\ (if k_code k then k_bold k || k_italic k || k_strike k = false /\ ends not_space t /\ ~ In 96%N t
          else (forall c, In c bad -> ~ In c t)
               /\ (k_strike k = true -> k_bold k || k_italic k = false)
               /\ (marked f = true -> ends word_char t))
      /\ forall h, k_link k = Some h -> Forall target_char h
  end.
(** Two marked pieces do not touch. *)
Fixpoint gentle (bad : list char) (ss : list segment) : Prop :=
  match ss with
  | [] => True
  | s :: rest =>
      gentle_segment bad s
      /\ match s, rest with
         | SegText _ f, SegText _ g :: _ => marked f = true -> marked g = true -> False
         | _, _ => True
         end
      /\ gentle bad rest
  end.
Definition chars (p : list item) : str := flat_map (fun x => match x with Chr c _ => [c] | Brk => [] end) p.
(** A paragraph that is read back: no backquotes, less-than signs, ampersands. *)
Definition gentle_para (L : ldoc) (a : option id * bfmt) (ss : list segment) (p : list item) : Prop :=
  let f := snd a in
  if on (f_is_code_block f) then
    ~ In 96%N (chars p)
    /\ match f_code_language f with Some l => trim l = l /\ ~ In 10%N l /\ ~ In 96%N l | None => True end
  else
    gentle [96; 60; 38]%N ss /\ ends not_space (chars p)
    /\ (forall h, f_heading_level f = Some h -> (1 <= h <= 6)%Z)
    /\ (forall e, listed L a = Some e -> (0 <= l_indent e <= 1)%Z).

(** ** Fragments *)
Definition segment_chars (s : segment) : str := match s with SegText t _ => t | SegImage _ => [] end.
Definition md_piece (s : segment) : list shown := match s with SegText t f => map (fun c => SChar c (md_look f)) t | SegImage _ => [] end.
Definition frag_md_para (fb : fblock) : kind * list shown :=
  (match f_heading_level (fb_fmt fb), fb_list fb with
   | Some h, _ => Head (Z.to_N (Z.max 1 (Z.min 6 h))) []
   | None, Some e => Item (numbered (l_style e))
   | None, None => Para []
   end, flat_map md_piece (fb_elems fb)).
(** Links are marked as links, and no code is linked. *)
Definition link_marked (s : segment) : Prop :=
  match s with
  | SegText _ f => (is_anchor f = Some true <-> k_link (look_of f) <> None) /\ (k_code (look_of f) = true -> k_link (look_of f) = None)
  | SegImage _ => True
  end.
(** A paragraph of a fragment that is read back: no ampersands, no code block,
    indentation 0, or 1 for items. *)
Definition gentle_fblock (fb : fblock) : Prop :=
  gentle [38%N] (fb_elems fb) /\ Forall link_marked (fb_elems fb) /\ ends not_space (flat_map segment_chars (fb_elems fb))
  /\ on (f_is_code_block (fb_fmt fb)) = false
  /\ (forall n, f_heading_level (fb_fmt fb) = None -> f_indent (fb_fmt fb) = Some n -> (n <= match fb_list fb with Some _ => 1 | None => 0 end)%Z).
