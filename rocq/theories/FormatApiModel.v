(** The formats of the public API: what setting one stores and what is read back.

    Sources: crates/public_api/src/{lib,convert,cursor,text_frame,text_list,flow}.rs,
    crates/document_formatting/src/use_cases/set_{table,table_cell,frame,list}_format_uc.rs. *)
From Verif Require Import Base FormatRunsModel RopeModel DocModel QueryModel.
From Coq Require Import SpecFloat.

(** ** Machine numbers *)
(** [as u8], [as u32], [as i32] of an i64: the low bits. Values of these types become
    i64 unchanged. *)
Definition as_u (bits : Z) (v : Z) : Z := (v mod 2 ^ bits)%Z.
Definition as_i (bits : Z) (v : Z) : Z := ((v + 2 ^ (bits - 1)) mod 2 ^ bits - 2 ^ (bits - 1))%Z.
Definition u8 := as_u 8. Definition u32 := as_u 32. Definition i32 := as_i 32.
(** f32: IEEE 754 binary32, round to nearest even. *)
Definition f32 := spec_float.
Definition f32_of (v : Z) : f32 := binary_normalize 24 128 v 0 false.
Definition f32_mul : f32 -> f32 -> f32 := SFmul 24 128.
Definition f32_div : f32 -> f32 -> f32 := SFdiv 24 128.
(** [as i64] of an f32: towards zero, saturating, NaN is zero. *)
Definition f32_to_i64 (x : f32) : Z :=
  let sign (s : bool) (v : Z) := if s then (- v)%Z else v in
  match x with
  | S754_zero _ | S754_nan => 0%Z
  | S754_infinity s => if s then (- 2 ^ 63)%Z else (2 ^ 63 - 1)%Z
  | S754_finite s m e => clamp (- 2 ^ 63) (2 ^ 63 - 1) (sign s (if (0 <=? e)%Z then Z.pos m * 2 ^ e else Z.pos m / 2 ^ (- e))%Z)
  end.

(** ** Characters *)
(** lib.rs:128-148 [TextFormat]. Colours are numbers. *)
Record tfmt := mk_tfmt {
  t_family : option str; t_size : option Z; t_weight : option Z;
  t_bold : option bool; t_italic : option bool; t_underline : option bool; t_overline : option bool; t_strikeout : option bool;
  t_letter_spacing : option Z; t_word_spacing : option Z; t_underline_style : option N; t_vertical : option N;
  t_href : option str; t_names : list str; t_is_anchor : option bool; t_tooltip : option str;
  t_foreground : option N; t_background : option N; t_underline_color : option N
}.
Definition tfmt_default : tfmt :=
  mk_tfmt None None None None None None None None None None None None None [] None None None None None.
(** convert.rs:173-200 [TextFormat::to_set_dto]. *)
Definition t_to_set (f : tfmt) : fmt_req :=
  mk_req (t_family f) (t_size f) (t_weight f) (t_bold f) (t_italic f) (t_underline f) (t_overline f) (t_strikeout f)
         (t_letter_spacing f) (t_word_spacing f) (t_underline_style f) (t_vertical f).
(** convert.rs:202-217 [TextFormat::to_merge_dto]. *)
Definition t_to_merge (f : tfmt) : fmt_req :=
  mk_req (t_family f) None None (t_bold f) (t_italic f) (t_underline f) None (t_strikeout f) None None None None.
(** convert.rs:222-246. *)
Definition t_of (f : cfmt) : tfmt :=
  mk_tfmt (font_family f) (option_map u32 (font_point_size f)) (option_map u32 (font_weight f))
          (font_bold f) (font_italic f) (font_underline f) (font_overline f) (font_strikeout f)
          (option_map i32 (letter_spacing f)) (option_map i32 (word_spacing f)) (underline_style f) (vertical_alignment f)
          (anchor_href f) (anchor_names f) (is_anchor f) (tooltip f) None None None.
(** cursor.rs:1909-1926 [set_char_format], 1929-1951 [merge_char_format], without the
    undo stack (C09) and the event. *)
Definition set_char_format (f : tfmt) (d : doc) (p a : nat) : res doc :=
  let! (d', _) := set_text_format (t_to_set f) d (Z.of_nat p) (Z.of_nat a) in Ok d'.
Definition merge_char_format (f : tfmt) (d : doc) (p a : nat) : res doc :=
  let! (d', _) := merge_text_format (t_to_merge f) d (Z.of_nat p) (Z.of_nat a) in Ok d'.
(** cursor.rs:1836-1890 [char_format]. *)
Definition cursor_char_format (d : doc) (pos : nat) : res tfmt :=
  let! (i, _, _, _) := block_at_position d (Z.of_nat pos) in
  match get_block d i with
  | None => Err
  | Some b =>
      let! b := refreshed d b in
      let! t := block_content (d_rs d) i in
      let local := (pos - Z.to_nat (b_pos b)) in
      let off := if local <? length t then boff t local else blen t in
      match find (fun x => ioff x =? off) (d_images d i) with
      | Some x => Ok (t_of (ifmt x))
      | None =>
          Ok (match find (fun r => (rstart r <=? off) && (off <? rend r)) (d_runs d i) with
              | Some r => t_of (rfmt r) | None => tfmt_default end)
      end
  end.

(** ** Paragraphs *)
(** lib.rs:152-169 [BlockFormat]. *)
Record pfmt := mk_pfmt {
  p_alignment : option N; p_top : option Z; p_bottom : option Z; p_left : option Z; p_right : option Z;
  p_heading : option Z; p_indent : option Z; p_text_indent : option Z; p_marker : option N; p_tabs : list Z;
  p_line_height : option f32; p_non_breakable : option bool; p_direction : option N; p_background : option str;
  p_is_code : option bool; p_code_language : option str
}.
(** convert.rs:257, 285: a line height in thousandths. *)
Definition height_to (v : f32) : Z := f32_to_i64 (f32_mul v (f32_of 1000)).
Definition height_of (n : Z) : f32 := f32_div (f32_of n) (f32_of 1000).
(** convert.rs:250-274 [BlockFormat::to_set_dto]. *)
Definition p_to_set (f : pfmt) : bfmt_req :=
  mk_breq (p_alignment f) (p_heading f) (p_indent f) (p_marker f) (option_map height_to (p_line_height f)) (p_non_breakable f)
          (p_direction f) (p_background f) (p_is_code f) (p_code_language f)
          (p_top f) (p_bottom f) (p_left f) (p_right f) (p_text_indent f).
(** convert.rs:276-297. *)
Definition p_of (f : bfmt) : pfmt :=
  mk_pfmt (f_alignment f) (option_map i32 (f_top_margin f)) (option_map i32 (f_bottom_margin f))
          (option_map i32 (f_left_margin f)) (option_map i32 (f_right_margin f))
          (option_map u8 (f_heading_level f)) (option_map u8 (f_indent f)) (option_map i32 (f_text_indent f))
          (f_marker f) (map i32 (f_tab_positions f)) (option_map height_of (f_line_height f)) (f_non_breakable_lines f)
          (f_direction f) (f_background_color f) (f_is_code_block f) (f_code_language f).
(** cursor.rs:1954-1973. *)
Definition set_paragraph_format (f : pfmt) (d : doc) (p a : nat) : res doc :=
  set_block_format (p_to_set f) d (Z.of_nat p) (Z.of_nat a).
(** The format of a paragraph by its handle: text_block.rs:241-251 [block_format]. *)
Definition paragraph_format (d : doc) (i : id) : option pfmt := option_map (fun b => p_of (b_fmt b)) (get_block d i).
(** cursor.rs:1893-1904 [block_format]. *)
Definition cursor_block_format (d : doc) (pos : nat) : res pfmt :=
  let! (i, _, _, _) := block_at_position d (Z.of_nat pos) in ok_or (paragraph_format d i).

(** ** Frames, tables, cells, lists *)
(** lib.rs:183-194 [FrameFormat]; the entity has the same fields as i64. *)
Record ffmt := mk_ffmt {
  ff_height : option Z; ff_width : option Z; ff_top : option Z; ff_bottom : option Z; ff_left : option Z; ff_right : option Z;
  ff_padding : option Z; ff_border : option Z; ff_position : option N; ff_quote : option bool
}.
(** convert.rs:302-325 with set_frame_format_uc.rs: fields given replace the stored ones;
    the position is in no request. *)
Definition store_frame (f old : ffmt) : ffmt :=
  mk_ffmt (over (ff_height f) (ff_height old)) (over (ff_width f) (ff_width old)) (over (ff_top f) (ff_top old))
          (over (ff_bottom f) (ff_bottom old)) (over (ff_left f) (ff_left old)) (over (ff_right f) (ff_right old))
          (over (ff_padding f) (ff_padding old)) (over (ff_border f) (ff_border old)) (ff_position old) (over (ff_quote f) (ff_quote old)).
(** text_frame.rs:469-482. *)
Definition read_frame (f : ffmt) : ffmt :=
  mk_ffmt (option_map i32 (ff_height f)) (option_map i32 (ff_width f)) (option_map i32 (ff_top f)) (option_map i32 (ff_bottom f))
          (option_map i32 (ff_left f)) (option_map i32 (ff_right f)) (option_map i32 (ff_padding f)) (option_map i32 (ff_border f))
          (ff_position f) (ff_quote f).
(** flow.rs:241-247 [TableFormat], convert.rs:345-360, set_table_format_uc.rs,
    text_frame.rs:484-492. *)
Record gfmt := mk_gfmt { g_border : option Z; g_spacing : option Z; g_padding : option Z; g_width : option Z; g_alignment : option N }.
Definition store_table (f old : gfmt) : gfmt :=
  mk_gfmt (over (g_border f) (g_border old)) (over (g_spacing f) (g_spacing old)) (over (g_padding f) (g_padding old))
          (over (g_width f) (g_width old)) (over (g_alignment f) (g_alignment old)).
Definition read_table (f : gfmt) : gfmt :=
  mk_gfmt (option_map i32 (g_border f)) (option_map i32 (g_spacing f)) (option_map i32 (g_padding f)) (option_map i32 (g_width f)) (g_alignment f).
(** flow.rs:251-256 [CellFormat], convert.rs:374-389, set_table_cell_format_uc.rs,
    text_frame.rs:494-508. *)
Record zfmt := mk_zfmt { z_padding : option Z; z_border : option Z; z_vertical : option N; z_background : option str }.
Definition store_cell (f old : zfmt) : zfmt :=
  mk_zfmt (over (z_padding f) (z_padding old)) (over (z_border f) (z_border old)) (over (z_vertical f) (z_vertical old)) (over (z_background f) (z_background old)).
Definition read_cell (f : zfmt) : zfmt :=
  mk_zfmt (option_map i32 (z_padding f)) (option_map i32 (z_border f)) (z_vertical f) (z_background f).
(** lib.rs:174-179 [ListFormat], convert.rs:329-341, set_list_format_uc.rs:50-65,
    text_list.rs:100-113: the stored fields are not optional. *)
Record jfmt := mk_jfmt { j_style : option N; j_indent : option Z; j_prefix : option str; j_suffix : option str }.
Record jrec := mk_jrec { jr_style : N; jr_indent : Z; jr_prefix : str; jr_suffix : str }.
Definition given {A} (v : option A) (old : A) : A := match v with Some x => x | None => old end.
Definition store_list (f : jfmt) (old : jrec) : jrec :=
  mk_jrec (given (j_style f) (jr_style old)) (given (j_indent f) (jr_indent old)) (given (j_prefix f) (jr_prefix old)) (given (j_suffix f) (jr_suffix old)).
Definition read_list (r : jrec) : jfmt := mk_jfmt (Some (jr_style r)) (Some (u8 (jr_indent r))) (Some (jr_prefix r)) (Some (jr_suffix r)).
(** A table of the store, by id; an unknown id is an error. *)
Fixpoint set_in {A} (f : A -> A) (l : list (id * A)) (i : id) : res (list (id * A)) :=
  match l with
  | [] => Err
  | (j, x) :: rest => if N.eqb j i then Ok ((j, f x) :: rest) else let! rest := set_in f rest i in Ok ((j, x) :: rest)
  end.
Definition get_in {A} (l : list (id * A)) (i : id) : option A := option_map snd (find (fun x => N.eqb (fst x) i) l).
