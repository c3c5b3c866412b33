(** What the formats of the public API promise. *)
From Verif Require Import Base FormatRunsModel DocModel DocSpec FormatApiModel.
From Coq Require Import SpecFloat.

(** A field given is the one read afterwards; a field not given is as before. *)
Definition takes {A} (new old now : option A) : Prop :=
  match new with Some v => now = Some v | None => now = old end.
(** A number of a Rust type. *)
Definition in_type (lo hi : Z) (v : option Z) : Prop := match v with Some n => (lo <= n < hi)%Z | None => True end.
Definition is_u8 := in_type 0 256.
Definition is_u32 := in_type 0 4294967296.
Definition is_i32 := in_type (-2147483648) 2147483648.

(** Characters. *)
Definition t_ok (f : tfmt) : Prop :=
  is_u32 (t_size f) /\ is_u32 (t_weight f) /\ is_i32 (t_letter_spacing f) /\ is_i32 (t_word_spacing f).
Definition t_links (f : tfmt) := (t_href f, t_names f, t_is_anchor f, t_tooltip f).
Definition t_colors (f : tfmt) := (t_foreground f, t_background f, t_underline_color f).
(** The common part of setting and merging. *)
Definition t_common (f old now : tfmt) : Prop :=
  takes (t_family f) (t_family old) (t_family now) /\ takes (t_bold f) (t_bold old) (t_bold now)
  /\ takes (t_italic f) (t_italic old) (t_italic now) /\ takes (t_underline f) (t_underline old) (t_underline now)
  /\ takes (t_strikeout f) (t_strikeout old) (t_strikeout now)
  /\ t_links now = t_links old /\ t_colors now = t_colors old.
Definition t_set (f old now : tfmt) : Prop :=
  t_common f old now
  /\ takes (t_size f) (t_size old) (t_size now) /\ takes (t_weight f) (t_weight old) (t_weight now)
  /\ takes (t_overline f) (t_overline old) (t_overline now)
  /\ takes (t_letter_spacing f) (t_letter_spacing old) (t_letter_spacing now)
  /\ takes (t_word_spacing f) (t_word_spacing old) (t_word_spacing now)
  /\ takes (t_underline_style f) (t_underline_style old) (t_underline_style now)
  /\ takes (t_vertical f) (t_vertical old) (t_vertical now).
Definition t_merged (f old now : tfmt) : Prop :=
  t_common f old now
  /\ t_size now = t_size old /\ t_weight now = t_weight old /\ t_overline now = t_overline old
  /\ t_letter_spacing now = t_letter_spacing old /\ t_word_spacing now = t_word_spacing old
  /\ t_underline_style now = t_underline_style old /\ t_vertical now = t_vertical old.

(** The format at a caret: the one of the character after it. At the end of a paragraph
    with text it is the one of the first character of the next paragraph. *)
Definition char_at (its : list item) (p : nat) : option cfmt :=
  match nth_error its p with Some (Chr _ f) => Some f | _ => None end.
Definition format_here (its : list item) (p : nat) : option cfmt :=
  match nth_error its p with
  | Some (Chr _ f) => Some f
  | Some Brk => match p with
                | S q => match char_at its q with Some _ => char_at its (S p) | None => None end
                | 0 => None end
  | None => None
  end.

(** Paragraphs. A heading level above 6 is 6. *)
Definition p_ok (f : pfmt) : Prop :=
  is_i32 (p_top f) /\ is_i32 (p_bottom f) /\ is_i32 (p_left f) /\ is_i32 (p_right f) /\ is_i32 (p_text_indent f)
  /\ is_u8 (p_indent f) /\ is_u8 (p_heading f).
(** The line height read after one is set. *)
Definition reread (v : f32) : f32 := height_of (height_to v).
Definition p_set (f old now : pfmt) : Prop :=
  takes (p_alignment f) (p_alignment old) (p_alignment now)
  /\ takes (p_top f) (p_top old) (p_top now) /\ takes (p_bottom f) (p_bottom old) (p_bottom now)
  /\ takes (p_left f) (p_left old) (p_left now) /\ takes (p_right f) (p_right old) (p_right now)
  /\ takes (option_map (Z.min 6) (p_heading f)) (p_heading old) (p_heading now)
  /\ takes (p_indent f) (p_indent old) (p_indent now) /\ takes (p_text_indent f) (p_text_indent old) (p_text_indent now)
  /\ takes (p_marker f) (p_marker old) (p_marker now) /\ p_tabs now = p_tabs old
  /\ takes (option_map reread (p_line_height f)) (p_line_height old) (p_line_height now)
  /\ takes (p_non_breakable f) (p_non_breakable old) (p_non_breakable now)
  /\ takes (p_direction f) (p_direction old) (p_direction now) /\ takes (p_background f) (p_background old) (p_background now)
  /\ takes (p_is_code f) (p_is_code old) (p_is_code now) /\ takes (p_code_language f) (p_code_language old) (p_code_language now).
(** The f32 nearest to n thousandths. *)
Definition thousandths (n : Z) : f32 := SFdiv 24 128 (binary_normalize 24 128 n 0 false) (binary_normalize 24 128 1000 0 false).
(** Stored formats and what should be read of them; line heights are stored in
    thousandths. *)
Definition c_ok (f : cfmt) : Prop :=
  is_u32 (font_point_size f) /\ is_u32 (font_weight f) /\ is_i32 (letter_spacing f) /\ is_i32 (word_spacing f).
Definition text_shown (f : cfmt) : tfmt :=
  {| t_family := font_family f; t_size := font_point_size f; t_weight := font_weight f; t_bold := font_bold f;
     t_italic := font_italic f; t_underline := font_underline f; t_overline := font_overline f; t_strikeout := font_strikeout f;
     t_letter_spacing := letter_spacing f; t_word_spacing := word_spacing f; t_underline_style := underline_style f;
     t_vertical := vertical_alignment f; t_href := anchor_href f; t_names := anchor_names f; t_is_anchor := is_anchor f;
     t_tooltip := tooltip f; t_foreground := None; t_background := None; t_underline_color := None |}.
Definition b_ok (f : bfmt) : Prop :=
  is_i32 (f_top_margin f) /\ is_i32 (f_bottom_margin f) /\ is_i32 (f_left_margin f) /\ is_i32 (f_right_margin f)
  /\ is_i32 (f_text_indent f) /\ is_u8 (f_indent f) /\ is_u8 (f_heading_level f) /\ Forall (fun v => is_i32 (Some v)) (f_tab_positions f).
Definition paragraph_shown (f : bfmt) : pfmt :=
  {| p_alignment := f_alignment f; p_top := f_top_margin f; p_bottom := f_bottom_margin f; p_left := f_left_margin f;
     p_right := f_right_margin f; p_heading := f_heading_level f; p_indent := f_indent f; p_text_indent := f_text_indent f;
     p_marker := f_marker f; p_tabs := f_tab_positions f; p_line_height := option_map thousandths (f_line_height f);
     p_non_breakable := f_non_breakable_lines f; p_direction := f_direction f; p_background := f_background_color f;
     p_is_code := f_is_code_block f; p_code_language := f_code_language f |}.


(** Frames, tables, cells, lists. *)
Definition ff_ok (f : ffmt) : Prop :=
  is_i32 (ff_height f) /\ is_i32 (ff_width f) /\ is_i32 (ff_top f) /\ is_i32 (ff_bottom f) /\ is_i32 (ff_left f)
  /\ is_i32 (ff_right f) /\ is_i32 (ff_padding f) /\ is_i32 (ff_border f).
Definition ff_set (f old now : ffmt) : Prop :=
  takes (ff_height f) (ff_height old) (ff_height now) /\ takes (ff_width f) (ff_width old) (ff_width now)
  /\ takes (ff_top f) (ff_top old) (ff_top now) /\ takes (ff_bottom f) (ff_bottom old) (ff_bottom now)
  /\ takes (ff_left f) (ff_left old) (ff_left now) /\ takes (ff_right f) (ff_right old) (ff_right now)
  /\ takes (ff_padding f) (ff_padding old) (ff_padding now) /\ takes (ff_border f) (ff_border old) (ff_border now)
  /\ ff_position now = ff_position old /\ takes (ff_quote f) (ff_quote old) (ff_quote now).
Definition g_ok (f : gfmt) : Prop := is_i32 (g_border f) /\ is_i32 (g_spacing f) /\ is_i32 (g_padding f) /\ is_i32 (g_width f).
Definition g_set (f old now : gfmt) : Prop :=
  takes (g_border f) (g_border old) (g_border now) /\ takes (g_spacing f) (g_spacing old) (g_spacing now)
  /\ takes (g_padding f) (g_padding old) (g_padding now) /\ takes (g_width f) (g_width old) (g_width now)
  /\ takes (g_alignment f) (g_alignment old) (g_alignment now).
Definition z_ok (f : zfmt) : Prop := is_i32 (z_padding f) /\ is_i32 (z_border f).
Definition z_set (f old now : zfmt) : Prop :=
  takes (z_padding f) (z_padding old) (z_padding now) /\ takes (z_border f) (z_border old) (z_border now)
  /\ takes (z_vertical f) (z_vertical old) (z_vertical now) /\ takes (z_background f) (z_background old) (z_background now).
Definition j_ok (f : jfmt) : Prop := is_u8 (j_indent f).
Definition j_set (f old now : jfmt) : Prop :=
  takes (j_style f) (j_style old) (j_style now) /\ takes (j_indent f) (j_indent old) (j_indent now)
  /\ takes (j_prefix f) (j_prefix old) (j_prefix now) /\ takes (j_suffix f) (j_suffix old) (j_suffix now).
(** Setting the format [f] of one of the things of a document, read with [read]. *)
Definition sets_one {A B} (store : A -> A) (read : A -> B) (promised : B -> B -> Prop) : Prop :=
  forall l i,
  (get_in l i = None -> set_in store l i = Err)
  /\ (forall old, get_in l i = Some old -> exists l' now, set_in store l i = Ok l' /\ get_in l' i = Some now
       /\ promised (read old) (read now) /\ forall j, j <> i -> get_in l' j = get_in l j).
