(** What highlighting should show. *)
From Verif Require Import Base FormatRunsModel RopeModel DocModel DocSpec HistModel HistSpec QueryModel HighlightModel.

(** ** The overlay *)

(** A span covers a character. *)
Definition span_on (k : nat) (s : hspan) : Prop := s_start s <= k < s_start s + s_len s.
(** The value of a field at character [k]: the last span over [k] that sets it
    decides; otherwise the stored value stays. *)
Definition decided {A} (get : hfmt -> option A) (spans : list hspan) (k : nat) (stored seen : option A) : Prop :=
  (exists pre s post v, spans = pre ++ s :: post /\ span_on k s /\ get (s_fmt s) = Some v /\ seen = Some v
     /\ forall s', In s' post -> span_on k s' -> get (s_fmt s') = None)
  \/ (seen = stored /\ forall s, In s spans -> span_on k s -> get (s_fmt s) = None).
Record overlay (spans : list hspan) (k : nat) (stored seen : tfmt) : Prop := {
  o_foreground : decided h_foreground spans k (x_foreground stored) (x_foreground seen);
  o_background : decided h_background spans k (x_background stored) (x_background seen);
  o_underline_color : decided h_underline_color spans k (x_underline_color stored) (x_underline_color seen);
  o_family : decided h_family spans k (x_family stored) (x_family seen);
  o_point_size : decided h_point_size spans k (x_point_size stored) (x_point_size seen);
  o_weight : decided h_weight spans k (x_weight stored) (x_weight seen);
  o_bold : decided h_bold spans k (x_bold stored) (x_bold seen);
  o_italic : decided h_italic spans k (x_italic stored) (x_italic seen);
  o_underline : decided h_underline spans k (x_underline stored) (x_underline seen);
  o_overline : decided h_overline spans k (x_overline stored) (x_overline seen);
  o_strikeout : decided h_strikeout spans k (x_strikeout stored) (x_strikeout seen);
  o_letter_spacing : decided h_letter_spacing spans k (x_letter_spacing stored) (x_letter_spacing seen);
  o_word_spacing : decided h_word_spacing spans k (x_word_spacing stored) (x_word_spacing seen);
  o_underline_style : decided h_underline_style spans k (x_underline_style stored) (x_underline_style seen);
  o_vertical : decided h_vertical spans k (x_vertical stored) (x_vertical seen);
  o_tooltip : decided h_tooltip spans k (x_tooltip stored) (x_tooltip seen);
  o_href : x_href seen = x_href stored;
  o_names : x_names seen = x_names stored;
  o_anchor : x_anchor seen = x_anchor stored
}.

(** Fragments taken apart: one entry per character or image, with its offset,
    format and element id. *)
Inductive glyph := GChar (c : char) | GImage (name : str) (w h q : Z).
Record place := mk_place { p_off : nat; p_glyph : glyph; p_fmt : tfmt; p_eid : N }.
Fixpoint char_places (off : nat) (t : str) (f : tfmt) (e : N) : list place :=
  match t with [] => [] | c :: t' => mk_place off (GChar c) f e :: char_places (S off) t' f e end.
Definition places (x : shown) : list place :=
  match x with
  | SText t f off _ e => char_places off t f e
  | SImage n w h q f off e => [mk_place off (GImage n w h q) f e]
  end.
(** A text fragment says how long it is, and is not empty. *)
Definition measured (x : shown) : Prop :=
  match x with SText t _ _ n _ => n = length t /\ t <> [] | SImage _ _ _ _ _ _ _ => True end.
(** The same place with the overlay. *)
Definition overlaid (spans : list hspan) (a b : place) : Prop :=
  p_off b = p_off a /\ p_glyph b = p_glyph a /\ p_eid b = p_eid a /\ overlay spans (p_off a) (p_fmt a) (p_fmt b).

(** ** Which spans *)

(** What a highlighter asked for. *)
Definition asked_spans {U} (cs : list (hcall U)) : list hspan :=
  flat_map (fun c => match c with SetFormat s (S n) f => [mk_hspan s (S n) f] | _ => [] end) cs.
Definition asked_state {U} (cs : list (hcall U)) : Z :=
  match flat_map (fun c => match c with SetState z => [z] | _ => [] end) (rev cs) with z :: _ => z | [] => (-1)%Z end.
(** The paragraphs of a document with their texts, in display order. *)
Fixpoint texts_of (d : doc) (is_ : list id) : res (list (id * str)) :=
  match is_ with
  | [] => Ok []
  | i :: rest => let! t := block_content (d_rs d) i in let! more := texts_of d rest in Ok ((i, t) :: more)
  end.
Definition doc_texts (d : doc) : res (list (id * str)) := texts_of d (d_order d).
(** Every paragraph carries what the highlighter asks for when it reads the
    document from the top, each paragraph told the state of the one before. *)
Fixpoint from_the_top {U} (h : highlighter U) (m : hmap U) (prev : Z) (ps : list (id * str)) : Prop :=
  match ps with
  | [] => True
  | (b, t) :: rest =>
      let cs := h t b prev None in
      (exists u, m b = Some (mk_hdata (asked_spans cs) (asked_state cs) u))
      /\ from_the_top h m (asked_state cs) rest
  end.
Definition highlighted {U} (h : highlighter U) (d : doc) (m : hmap U) : Prop :=
  exists ps, doc_texts d = Ok ps /\ from_the_top h m (-1)%Z ps.

(** What is asked does not depend on the user data kept with a block. *)
Definition steady {U} (h : highlighter U) : Prop :=
  forall t b prev u, asked_spans (h t b prev u) = asked_spans (h t b prev None)
                     /\ asked_state (h t b prev u) = asked_state (h t b prev None).
(** Every paragraph is given a state other than the default -1. *)
Definition marks {U} (h : highlighter U) : Prop := forall t b prev u, asked_state (h t b prev u) <> (-1)%Z.

(** ** Histories *)

(** What happens to a document with a highlighter attached: a cursor edit; a call
    that changes formats, paragraph formats or list membership and highlights
    nothing; a call that ends with a full pass (attaching the highlighter, undo,
    redo, replacing the text, [rehighlight]); [rehighlight_block]. *)
Inductive hstep :=
| HEdit (e : edit) | HFormat (f : cfmt -> cfmt) (p a : Z) | HBlockFormat (q : bfmt_req) (p a : Z)
| HList (i : id) (l : option id) | HPass (d : doc) | HBlock (i : id).
Definition run_hstep {U} (h : highlighter U) (st : doc * hmap U) (s : hstep) : res (doc * hmap U) :=
  let (d, m) := st in
  match s with
  | HEdit e => hedit h d m e
  | HFormat f p a => let! (d', _) := format_text f d p a in Ok (d', m)
  | HBlockFormat q p a => let! d' := set_block_format q d p a in Ok (d', m)
  | HList i l => Ok (set_block_list d i l, m)
  | HPass d' => let! m' := rehighlight_all h d' in Ok (d', m')
  | HBlock i => let! m' := rehighlight_from_block h d m i in Ok (d, m')
  end.
Fixpoint run_hsteps {U} (h : highlighter U) (st : doc * hmap U) (ss : list hstep) : res (doc * hmap U) :=
  match ss with [] => Ok st | s :: rest => let! st' := run_hstep h st s in run_hsteps h st' rest end.
Definition hstep_ok (s : hstep) : Prop :=
  match s with HEdit e => edit_ok e | HPass d => reach d | _ => True end.
(** Steps that split no paragraph. *)
Definition no_split (s : hstep) : Prop := match s with HEdit (EBreak _ _) => False | _ => True end.

(** The spans kept for a paragraph. *)
Definition spans_on {U} (m : hmap U) (i : id) : list hspan := match m i with Some x => hd_spans x | None => [] end.
(** The positions taken by some paragraphs, each with the break after it. *)
Fixpoint chars_before (ps : list (id * str)) : nat :=
  match ps with [] => 0 | (_, t) :: rest => S (length t) + chars_before rest end.
(** A stored format read as the format shown, for sizes and weights a u32 holds
    and spacings an i32 holds. *)
Definition in_opt (lo hi : Z) (o : option Z) : Prop := match o with Some z => (lo <= z < hi)%Z | None => True end.
Record shown_as (f : cfmt) (g : tfmt) : Prop := {
  sa_family : x_family g = font_family f; sa_size : x_point_size g = font_point_size f;
  sa_weight : x_weight g = font_weight f; sa_bold : x_bold g = font_bold f; sa_italic : x_italic g = font_italic f;
  sa_underline : x_underline g = font_underline f; sa_overline : x_overline g = font_overline f;
  sa_strikeout : x_strikeout g = font_strikeout f; sa_letter : x_letter_spacing g = letter_spacing f;
  sa_word : x_word_spacing g = word_spacing f; sa_style : x_underline_style g = underline_style f;
  sa_vertical : x_vertical g = vertical_alignment f; sa_href : x_href g = anchor_href f;
  sa_names : x_names g = anchor_names f; sa_anchor : x_anchor g = is_anchor f; sa_tooltip : x_tooltip g = tooltip f;
  sa_colors : x_foreground g = None /\ x_background g = None /\ x_underline_color g = None
}.
