(** C07, C08, C42: character and paragraph formats. *)
From Verif Require Import Base FormatRunsModel FormatRunsSpec FormatRunsFacts RopeModel DocModel DocSpec HistModel HistSpec
  QueryModel QuerySpec PropSpec DocTheorems QueryTheorems DocRefuted.

(** C07. Formatting never changes the text or the paragraphs, its undo restores
    everything, and when the stored paragraph positions are right it changes
    exactly the range. Missing: the range is wrong after other histories. *)
Theorem format_range_partial : forall m d p a, reach d ->
  exists its d' ivs its', doc_items d = Ok its /\ format_text m d p a = Ok (d', ivs)
   /\ doc_items d' = Ok its' /\ plain its' = plain its /\ map is_break its' = map is_break its
   /\ para_attrs d' = para_attrs d
   /\ same_document (apply_inverse d' ivs) d
   /\ (fresh_positions d -> its' = spec_format m (clip its (Z.min p a)) (clip its (Z.max p a)) its).
Proof. exact format_theorem. Qed.
Print Assumptions format_range_partial.

(** Where the stored positions are right. *)
Theorem tidy_positions : forall d, tidy d -> reach d /\ fresh_positions d.
Proof. exact tidy_theorem. Qed.
Print Assumptions tidy_positions.
Example tidy_case : tidy two_paras
  /\ bind (set_text_format bold_req two_paras 1 4) (fun x => doc_items (fst x))
     = Ok [Chr 97%N cfmt_default; Chr 98%N (set_merge cfmt_default bold_req); Brk;
           Chr 99%N (set_merge cfmt_default bold_req); Chr 100%N cfmt_default].
Proof. split; [apply two_paras_tidy|vm_compute; reflexivity]. Qed.

(** C07 does not hold as stated: after typing in an earlier paragraph the
    stored positions are behind. *)
Theorem format_range_refuted :
  exists d its d' ivs, reach d /\ doc_items d = Ok its
   /\ set_text_format bold_req d 6 8 = Ok (d', ivs)
   /\ doc_items d' <> Ok (spec_format (fun f => set_merge f bold_req) 6 8 its).
Proof. exact format_range_refuted_w. Qed.
Print Assumptions format_range_refuted.

(** C07, attributes: each requested one takes the requested value, the others
    stay. *)
Theorem set_format_attributes : forall f q,
  let g := set_merge f q in
  let takes := fun A (new old now : option A) => (forall v, new = Some v -> now = Some v) /\ (new = None -> now = old) in
  takes _ (q_font_family q) (font_family f) (font_family g)
  /\ takes _ (q_font_point_size q) (font_point_size f) (font_point_size g)
  /\ takes _ (q_font_weight q) (font_weight f) (font_weight g)
  /\ takes _ (q_font_bold q) (font_bold f) (font_bold g)
  /\ takes _ (q_font_italic q) (font_italic f) (font_italic g)
  /\ takes _ (q_font_underline q) (font_underline f) (font_underline g)
  /\ takes _ (q_font_overline q) (font_overline f) (font_overline g)
  /\ takes _ (q_font_strikeout q) (font_strikeout f) (font_strikeout g)
  /\ takes _ (q_letter_spacing q) (letter_spacing f) (letter_spacing g)
  /\ takes _ (q_word_spacing q) (word_spacing f) (word_spacing g)
  /\ takes _ (q_underline_style q) (underline_style f) (underline_style g)
  /\ takes _ (q_vertical_alignment q) (vertical_alignment f) (vertical_alignment g)
  /\ anchor_href g = anchor_href f /\ anchor_names g = anchor_names f /\ is_anchor g = is_anchor f /\ tooltip g = tooltip f.
Proof. exact set_merge_attrs. Qed.
Print Assumptions set_format_attributes.
(** [merge_char_format] honours five attributes and leaves the others. Missing:
    the other requested attributes. *)
Theorem merge_format_partial : forall f q,
  let g := merge_merge f q in
  let takes := fun A (new old now : option A) => (forall v, new = Some v -> now = Some v) /\ (new = None -> now = old) in
  (q_font_family q <> Some [] -> takes _ (q_font_family q) (font_family f) (font_family g))
  /\ takes _ (q_font_bold q) (font_bold f) (font_bold g)
  /\ takes _ (q_font_italic q) (font_italic f) (font_italic g)
  /\ takes _ (q_font_underline q) (font_underline f) (font_underline g)
  /\ takes _ (q_font_strikeout q) (font_strikeout f) (font_strikeout g)
  /\ font_point_size g = font_point_size f /\ font_weight g = font_weight f /\ font_overline g = font_overline f
  /\ letter_spacing g = letter_spacing f /\ word_spacing g = word_spacing f
  /\ underline_style g = underline_style f /\ vertical_alignment g = vertical_alignment f
  /\ anchor_href g = anchor_href f /\ anchor_names g = anchor_names f /\ is_anchor g = is_anchor f /\ tooltip g = tooltip f.
Proof. exact merge_merge_attrs. Qed.
Print Assumptions merge_format_partial.
(** C07, [merge_char_format]: a requested size is dropped. *)
Theorem merge_format_refuted :
  exists f, q_font_point_size size_req = Some 14%Z /\ font_point_size (merge_merge f size_req) <> Some 14%Z.
Proof. exact merge_size_refuted_w. Qed.
Print Assumptions merge_format_refuted.

(** C08. Runs of every paragraph of every reachable document are well formed.
    Missing: formatted insertion of the empty text. *)
Theorem runs_well_formed_partial : forall d i, reach d -> In i (d_order d) ->
  exists t, block_content (d_rs d) i = Ok t /\ wf_runs t (d_runs d i).
Proof. exact runs_theorem. Qed.
Print Assumptions runs_well_formed_partial.
Theorem empty_formatted_insert_refuted :
  exists d f d' np u i t, reach d /\ insert_formatted_simple d 1 [] f = Ok (d', np, u)
   /\ In i (d_order d') /\ block_content (d_rs d') i = Ok t /\ ~ wf_runs t (d_runs d' i).
Proof. exact empty_formatted_insert_refuted_w. Qed.
Print Assumptions empty_formatted_insert_refuted.

(** C42. Paragraph formats change exactly the selected paragraphs when the
    stored positions are right. Missing: other histories, and a caret at the end
    of a paragraph. *)
Theorem block_format_partial : forall q d p a, reach d ->
  exists its d', doc_items d = Ok its /\ set_block_format q d p a = Ok d' /\ doc_items d' = Ok its
   /\ d_order d' = d_order d
   /\ (fresh_positions d -> forall k i l f para,
        nth_error (d_order d) k = Some i -> attr d i = Some (l, f) -> nth_error (paragraphs its) k = Some para ->
        (selected_para (para_start k its) (length para) (Z.min p a) (Z.max p a) -> attr d' i = Some (l, apply_bfmt q f))
        /\ (~ selected_para (para_start k its) (length para) (Z.min p a) (Z.max p a) -> attr d' i = Some (l, f))).
Proof. exact block_format_theorem. Qed.
Print Assumptions block_format_partial.
(** Attributes of a paragraph after a request; heading levels are limited to 0..6. *)
Theorem block_format_attributes : forall q f,
  let g := apply_bfmt q f in
  let takes := fun A (new old now : option A) => (forall v, new = Some v -> now = Some v) /\ (new = None -> now = old) in
  takes _ (q_alignment q) (f_alignment f) (f_alignment g)
  /\ takes _ (q_top_margin q) (f_top_margin f) (f_top_margin g)
  /\ takes _ (q_bottom_margin q) (f_bottom_margin f) (f_bottom_margin g)
  /\ takes _ (q_left_margin q) (f_left_margin f) (f_left_margin g)
  /\ takes _ (q_right_margin q) (f_right_margin f) (f_right_margin g)
  /\ (forall v, q_heading_level q = Some v -> (0 <= v <= 6)%Z -> f_heading_level g = Some v)
  /\ (forall v, q_heading_level q = Some v -> exists w, f_heading_level g = Some w /\ (0 <= w <= 6)%Z)
  /\ (q_heading_level q = None -> f_heading_level g = f_heading_level f)
  /\ takes _ (q_indent q) (f_indent f) (f_indent g)
  /\ takes _ (q_text_indent q) (f_text_indent f) (f_text_indent g)
  /\ takes _ (q_marker q) (f_marker f) (f_marker g)
  /\ f_tab_positions g = f_tab_positions f
  /\ takes _ (q_line_height q) (f_line_height f) (f_line_height g)
  /\ takes _ (q_non_breakable_lines q) (f_non_breakable_lines f) (f_non_breakable_lines g)
  /\ takes _ (q_direction q) (f_direction f) (f_direction g)
  /\ takes _ (q_background_color q) (f_background_color f) (f_background_color g)
  /\ takes _ (q_is_code_block q) (f_is_code_block f) (f_is_code_block g)
  /\ takes _ (q_code_language q) (f_code_language f) (f_code_language g).
Proof. exact apply_bfmt_attrs. Qed.
Print Assumptions block_format_attributes.
Example block_format_case : tidy two_paras /\ selected_para (para_start 1 (text_items [97; 98; 10; 99; 100]%N)) 2 4 9
  /\ bind (set_block_format center_req two_paras 4 9) (fun d => Ok (map (option_map (fun x => f_alignment (snd x))) (para_attrs d)))
     = Ok [Some None; Some (Some 2%N)].
Proof. split; [apply two_paras_tidy|]. split; [exists 4; vm_compute; split; split; discriminate || (repeat constructor)|vm_compute; reflexivity]. Qed.
Theorem block_format_stale_refuted :
  exists d its d' i l f para, reach d /\ doc_items d = Ok its
   /\ set_block_format center_req d 6 6 = Ok d'
   /\ nth_error (d_order d) 1 = Some i /\ attr d i = Some (l, f) /\ nth_error (paragraphs its) 1 = Some para
   /\ para_start 1 its <= 6 < para_start 1 its + length para
   /\ attr d' i <> Some (l, apply_bfmt center_req f).
Proof. exact block_format_stale_refuted_w. Qed.
Print Assumptions block_format_stale_refuted.
Theorem block_format_caret_refuted :
  exists d its d' i l f para, tidy d /\ doc_items d = Ok its
   /\ set_block_format center_req d 2 2 = Ok d'
   /\ nth_error (d_order d) 0 = Some i /\ attr d i = Some (l, f) /\ nth_error (paragraphs its) 0 = Some para
   /\ para_start 0 its <= 2 <= para_start 0 its + length para
   /\ attr d' i = Some (l, f) /\ apply_bfmt center_req f <> f.
Proof. exact block_format_caret_refuted_w. Qed.
Print Assumptions block_format_caret_refuted.
