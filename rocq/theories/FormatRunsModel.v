(** Per-block character formatting: crates/common/src/format_runs.rs.

    Simplifications: [u32] byte offsets are [nat]; the two enums
    [UnderlineStyle] and [CharVerticalAlignment] (entities.rs) are numbered. *)
From Verif Require Import Base.

(** format_runs.rs:69-86 [CharacterFormat]. *)
Record cfmt := mk_cfmt {
  font_family : option str;
  font_point_size : option Z;
  font_weight : option Z;
  font_bold : option bool;
  font_italic : option bool;
  font_underline : option bool;
  font_overline : option bool;
  font_strikeout : option bool;
  letter_spacing : option Z;
  word_spacing : option Z;
  anchor_href : option str;
  anchor_names : list str;
  is_anchor : option bool;
  tooltip : option str;
  underline_style : option N;
  vertical_alignment : option N
}.

(** [CharacterFormat::default()] (derived). *)
Definition cfmt_default : cfmt :=
  mk_cfmt None None None None None None None None None None None [] None None None None.

(** Derived [PartialEq]. *)
Definition cfmt_eq_dec (a b : cfmt) : {a = b} + {a <> b}.
Proof.
  assert (Ds : forall x y : str, {x = y} + {x <> y}) by (apply list_eq_dec, N.eq_dec).
  decide equality; try (apply (list_eq_dec Ds)); decide equality;
    solve [ apply Ds | apply Z.eq_dec | apply N.eq_dec | apply bool_dec ].
Defined.
Definition cfmt_eqb (a b : cfmt) : bool := if cfmt_eq_dec a b then true else false.

(** format_runs.rs:91-96 [FormatRun]. *)
Record run := mk_run { rstart : nat; rend : nat; rfmt : cfmt }.

(** format_runs.rs:103-111 [ImageAnchor]. *)
Record image := mk_image {
  ioff : nat; iname : str; iwidth : Z; iheight : Z; iquality : Z; ifmt : cfmt }.

(** format_runs.rs:156-173 [coalesce_in_place]: [w] is the element at the write
    index, the list is what is still to be read. *)
Fixpoint coalesce_go (w : run) (rest : list run) : list run :=
  match rest with
  | [] => [w]
  | r :: rest' =>
      if (rend w =? rstart r) && cfmt_eqb (rfmt w) (rfmt r)
      then coalesce_go (mk_run (rstart w) (rend r) (rfmt w)) rest'
      else w :: coalesce_go r rest'
  end.
Definition coalesce (runs : list run) : list run :=
  match runs with [] => [] | r :: rest => coalesce_go r rest end.

(** format_runs.rs:196-208, the part of [splice_range] kept before the range. *)
Fixpoint splice_left (runs : list run) (a : nat) : list run :=
  match runs with
  | [] => []
  | r :: rest =>
      if rend r <=? a then r :: splice_left rest a
      else if rstart r <? a then mk_run (rstart r) a (rfmt r) :: splice_left rest a
      else splice_left rest a
  end.

(** format_runs.rs:213-225, the part of [splice_range] kept after the range. *)
Fixpoint splice_right (runs : list run) (b : nat) : list run :=
  match runs with
  | [] => []
  | r :: rest =>
      if b <=? rstart r then r :: splice_right rest b
      else if b <? rend r then mk_run b (rend r) (rfmt r) :: splice_right rest b
      else splice_right rest b
  end.

(** format_runs.rs:184-229 [splice_range]. *)
Definition splice_range (runs : list run) (a b : nat) (repl : list run) : list run :=
  coalesce (splice_left runs a ++ repl ++ splice_right runs b).

(** format_runs.rs:241-258 [capture_runs_in_range]. *)
Fixpoint capture_runs (runs : list run) (a b : nat) : list run :=
  match runs with
  | [] => []
  | r :: rest =>
      if (rend r <=? a) || (b <=? rstart r) then capture_runs rest a b
      else
        let cs := Nat.max (rstart r) a in
        let ce := Nat.min (rend r) b in
        if cs <? ce then mk_run cs ce (rfmt r) :: capture_runs rest a b
        else capture_runs rest a b
  end.

(** format_runs.rs:263-275 [capture_image_formats_in_range]. *)
Definition capture_image_formats (images : list image) (a b : nat) : list (nat * cfmt) :=
  map (fun i => (ioff i, ifmt i))
      (filter (fun i => (a <=? ioff i) && (ioff i <? b)) images).

(** format_runs.rs:284-294 [shift_after] with a negative delta [-n] (the only
    use, from [shift_runs_for_delete]). Truncated subtraction stands for the
    [debug_assert]ed underflow; the facts show it does not happen. *)
Definition shift_runs_back (runs : list run) (threshold n : nat) : list run :=
  map (fun r => if threshold <=? rstart r
                then mk_run (rstart r - n) (rend r - n) (rfmt r) else r) runs.

(** format_runs.rs:338-353 [shift_runs_for_insert]. *)
Definition shift_runs_for_insert (runs : list run) (off n : nat) : list run :=
  if n =? 0 then runs
  else map (fun r =>
        if off <=? rstart r then mk_run (rstart r + n) (rend r + n) (rfmt r)
        else if off <=? rend r then mk_run (rstart r) (rend r + n) (rfmt r)
        else r) runs.

(** format_runs.rs:359-369 [shift_runs_for_delete]. *)
Definition shift_runs_for_delete (runs : list run) (a b : nat) : list run :=
  if b <=? a then runs
  else coalesce (shift_runs_back (splice_range runs a b []) b (b - a)).

Definition set_ioff (i : image) (o : nat) : image :=
  mk_image o (iname i) (iwidth i) (iheight i) (iquality i) (ifmt i).
Definition set_ifmt (i : image) (f : cfmt) : image :=
  mk_image (ioff i) (iname i) (iwidth i) (iheight i) (iquality i) f.

(** format_runs.rs:373-382 [shift_images_for_insert]. *)
Definition shift_images_for_insert (images : list image) (off n : nat) : list image :=
  if n =? 0 then images
  else map (fun i => if off <=? ioff i then set_ioff i (ioff i + n) else i) images.

(** format_runs.rs:388-402 [shift_images_for_delete] and 318-326
    [shift_images_after]; the removed count is the length difference. *)
Definition shift_images_for_delete (images : list image) (a b : nat) : list image * nat :=
  if b <=? a then (images, 0)
  else
    let kept := filter (fun i => negb ((a <=? ioff i) && (ioff i <? b))) images in
    (map (fun i => if b <=? ioff i then set_ioff i (ioff i - (b - a)) else i) kept,
     length images - length kept).

(** format_runs.rs:446-472 [split_runs_at]. *)
Fixpoint split_runs_left (runs : list run) (o : nat) : list run :=
  match runs with
  | [] => []
  | r :: rest =>
      if rend r <=? o then r :: split_runs_left rest o
      else if o <=? rstart r then split_runs_left rest o
      else mk_run (rstart r) o (rfmt r) :: split_runs_left rest o
  end.
Fixpoint split_runs_right (runs : list run) (o : nat) : list run :=
  match runs with
  | [] => []
  | r :: rest =>
      if rend r <=? o then split_runs_right rest o
      else if o <=? rstart r
      then mk_run (rstart r - o) (rend r - o) (rfmt r) :: split_runs_right rest o
      else mk_run 0 (rend r - o) (rfmt r) :: split_runs_right rest o
  end.

(** format_runs.rs:476-492 [split_images_at]. *)
Definition split_images_left (images : list image) (o : nat) : list image :=
  filter (fun i => ioff i <? o) images.
Definition split_images_right (images : list image) (o : nat) : list image :=
  map (fun i => set_ioff i (ioff i - o)) (filter (fun i => negb (ioff i <? o)) images).

(** format_runs.rs:418-439, the loops of [logical_offset_to_byte]. [skip_images]
    is the inner [while]: it returns [inl b] when the function returns. *)
Fixpoint skip_images (images : list image) (b logical target : nat)
  : nat + (list image * nat) :=
  match images with
  | i :: rest =>
      if ioff i <=? b then
        if logical =? target then inl b else skip_images rest b (S logical) target
      else inr (images, logical)
  | [] => inr ([], logical)
  end.
Fixpoint lob_go (text : str) (images : list image) (b logical target : nat) : nat :=
  match text with
  | [] => b
  | c :: text' =>
      match skip_images images b logical target with
      | inl r => r
      | inr (images', logical') =>
          if logical' =? target then b
          else lob_go text' images' (b + utf8_len c) (S logical') target
      end
  end.
(** format_runs.rs:412-440 [logical_offset_to_byte]; the trailing image loop
    always returns the text length, so it is dropped. *)
Definition logical_offset_to_byte (text : str) (images : list image) (off : nat) : nat :=
  if off =? 0 then 0 else lob_go text images 0 0 off.

(** Set-text-format request, document_formatting/src/dtos.rs:7-22 (without the
    range). The same record serves the merge request (dtos.rs:49-57), whose
    other fields are then [None]. *)
Record fmt_req := mk_req {
  q_font_family : option str;
  q_font_point_size : option Z;
  q_font_weight : option Z;
  q_font_bold : option bool;
  q_font_italic : option bool;
  q_font_underline : option bool;
  q_font_overline : option bool;
  q_font_strikeout : option bool;
  q_letter_spacing : option Z;
  q_word_spacing : option Z;
  q_underline_style : option N;
  q_vertical_alignment : option N
}.

Definition over {A} (q old : option A) : option A :=
  match q with Some v => Some v | None => old end.

(** set_text_format_uc.rs:94-133 [merge_dto]. *)
Definition set_merge (f : cfmt) (q : fmt_req) : cfmt :=
  mk_cfmt (over (q_font_family q) (font_family f))
          (over (q_font_point_size q) (font_point_size f))
          (over (q_font_weight q) (font_weight f))
          (over (q_font_bold q) (font_bold f))
          (over (q_font_italic q) (font_italic f))
          (over (q_font_underline q) (font_underline f))
          (over (q_font_overline q) (font_overline f))
          (over (q_font_strikeout q) (font_strikeout f))
          (over (q_letter_spacing q) (letter_spacing f))
          (over (q_word_spacing q) (word_spacing f))
          (anchor_href f) (anchor_names f) (is_anchor f) (tooltip f)
          (over (q_underline_style q) (underline_style f))
          (over (q_vertical_alignment q) (vertical_alignment f)).

(** merge_text_format_uc.rs:45-65 [merge_dto]: only five attributes, and an
    empty family is ignored. *)
Definition merge_merge (f : cfmt) (q : fmt_req) : cfmt :=
  mk_cfmt (match q_font_family q with
           | Some ((_ :: _) as v) => Some v
           | _ => font_family f end)
          (font_point_size f) (font_weight f)
          (over (q_font_bold q) (font_bold f))
          (over (q_font_italic q) (font_italic f))
          (over (q_font_underline q) (font_underline f))
          (font_overline f)
          (over (q_font_strikeout q) (font_strikeout f))
          (letter_spacing f) (word_spacing f)
          (anchor_href f) (anchor_names f) (is_anchor f) (tooltip f)
          (underline_style f) (vertical_alignment f).

(** set_text_format_uc.rs:138-174 = merge_text_format_uc.rs:67-103
    [build_replacement_runs], with the merge function as an argument; [cur] is
    the cursor variable. *)
Fixpoint repl_go (m : cfmt -> cfmt) (runs : list run) (a b cur : nat) : list run :=
  match runs with
  | [] => if cur <? b then [mk_run cur b (m cfmt_default)] else []
  | r :: rest =>
      if (rend r <=? a) || (b <=? rstart r) then repl_go m rest a b cur
      else
        let os := Nat.max (rstart r) a in
        let oe := Nat.min (rend r) b in
        (if cur <? os then [mk_run cur os (m cfmt_default)] else [])
          ++ mk_run os oe (m (rfmt r)) :: repl_go m rest a b oe
  end.
Definition build_replacement_runs (m : cfmt -> cfmt) (runs : list run) (a b : nat) : list run :=
  repl_go m runs a b a.

(** The per-block mutation of set/merge text format
    (set_text_format_uc.rs:248-254). *)
Definition format_block_runs (m : cfmt -> cfmt) (runs : list run) (a b : nat) : list run :=
  splice_range runs a b (build_replacement_runs m runs a b).

(** set_text_format_uc.rs:258-267, image formats in the range. *)
Definition format_block_images (m : cfmt -> cfmt) (images : list image) (a b : nat) : list image :=
  map (fun i => if (a <=? ioff i) && (ioff i <? b) then set_ifmt i (m (ifmt i)) else i) images.

(** set_text_format_uc.rs:309-314: restore each captured image format to the
    FIRST image found at that offset. *)
Fixpoint set_first_image (images : list image) (o : nat) (f : cfmt) : list image :=
  match images with
  | [] => []
  | i :: rest => if ioff i =? o then set_ifmt i f :: rest else i :: set_first_image rest o f
  end.
Definition restore_image_formats (images : list image) (saved : list (nat * cfmt)) : list image :=
  fold_left (fun acc p => set_first_image acc (fst p) (snd p)) saved images.
