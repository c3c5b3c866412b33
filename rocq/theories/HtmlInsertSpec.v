(** Specifications for inserting HTML at a position. *)
From Verif Require Import Base FormatRunsModel RopeModel DocModel DocSpec QuerySpec ListModel ListDocModel FragmentModel ImportModel ImportSpec
  MdInsertModel MdInsertSpec HtmlInsertModel.

(** Place [n] is at the start or the end of its paragraph. *)
Definition at_start (n : nat) (its : list item) : bool := match rev (firstn n its) with [] | Brk :: _ => true | _ => false end.
Definition at_end (n : nat) (its : list item) : bool := match skipn n its with [] | Brk :: _ => true | _ => false end.
Definition single (bs : list pblock) : bool := match bs with [_] => true | _ => false end.
(** No break is needed before a formatted paragraph at the start of a
    paragraph, nor after one at the end of a paragraph, except that the break
    after one inserted alone and not at the start is made all the same. *)
Definition html_before (n : nat) (bs : list pblock) (its : list item) : list item :=
  if at_start n its then [] else break_before bs.
Definition html_after (n : nat) (bs : list pblock) (its : list item) : list item :=
  if at_end n its && (at_start n its || negb (single bs)) then [] else break_after bs.
Definition html_items (n : nat) (bs : list pblock) (its : list item) : list item :=
  html_before n bs its ++ items_of_blocks bs ++ html_after n bs its.
Definition with_html (n : nat) (bs : list pblock) (its : list item) : list item :=
  firstn n its ++ html_items n bs its ++ skipn n its.
(** The position returned: after all that was inserted; for one formatted
    paragraph at the start of a paragraph, before the break that follows. *)
Definition html_end (n : nat) (bs : list pblock) (its : list item) : nat :=
  n + length (html_before n bs its ++ items_of_blocks bs)
  + (if single bs && at_start n its then 0 else length (html_after n bs its)).
Definition html_added (n : nat) (bs : list pblock) (its : list item) : nat := length (filter is_break (html_items n bs its)).
(** The first paragraph of the HTML takes the place of the paragraph: it is
    formatted and the place is at the start. *)
Definition takes_place (n : nat) (bs : list pblock) (its : list item) : bool :=
  at_start n its && match bs with b :: _ => negb (is_inline b) | [] => false end.
(** The paragraphs of the HTML that become new paragraphs. *)
Definition html_own (n : nat) (bs : list pblock) (its : list item) : list pblock :=
  if takes_place n bs its then tl (own_paragraphs bs) else own_paragraphs bs.
(** There is a new paragraph for the text after the place. *)
Definition cut_off (n : nat) (bs : list pblock) (its : list item) : bool :=
  negb (at_end n its && (at_start n its || negb (single bs))) || is_nil (break_after bs).
(** The text before the place keeps its paragraph to itself. *)
Definition stands_alone (n : nat) (bs : list pblock) (its : list item) : Prop :=
  at_start n its = false /\ match bs with b :: _ => ~ bare b | [] => False end.
(** The characters the count misses: those from the place to the end of its
    paragraph, when the first paragraph of the HTML is merged into the text
    before the place or takes the place of the paragraph. *)
Fixpoint to_break (its : list item) : nat := match its with [] | Brk :: _ => 0 | _ :: rest => S (to_break rest) end.
Definition missed (n : nat) (bs : list pblock) (its : list item) : nat :=
  match bs with
  | [] => 0
  | [b] => if is_inline b || negb (at_start n its) then 0 else to_break (skipn n its)
  | b :: _ => if is_inline b || at_start n its then to_break (skipn n its) else 0
  end.
(** A new paragraph has the list and the format it is read with, and no other
    format. *)
Definition html_read (L : ldoc) (b : pblock) (a : option id * bfmt) : Prop :=
  in_read_list L b (fst a)
  /\ snd a = mk_bfmt None None None None None (pb_heading b) None None None [] (pb_line_height b) (pb_non_breakable b)
       (pb_direction b) (pb_background b) None None.
(** A paragraph whose place is taken gets the list and the format of the one
    that takes it; what HTML does not say stays. *)
Definition html_over (L : ldoc) (b : pblock) (old a : option id * bfmt) : Prop :=
  in_read_list L b (fst a)
  /\ f_heading_level (snd a) = pb_heading b /\ f_line_height (snd a) = pb_line_height b
  /\ f_non_breakable_lines (snd a) = pb_non_breakable b /\ f_direction (snd a) = pb_direction b
  /\ f_background_color (snd a) = pb_background b
  /\ f_alignment (snd a) = f_alignment (snd old) /\ f_top_margin (snd a) = f_top_margin (snd old)
  /\ f_bottom_margin (snd a) = f_bottom_margin (snd old) /\ f_left_margin (snd a) = f_left_margin (snd old)
  /\ f_right_margin (snd a) = f_right_margin (snd old) /\ f_indent (snd a) = f_indent (snd old)
  /\ f_text_indent (snd a) = f_text_indent (snd old) /\ f_marker (snd a) = f_marker (snd old)
  /\ f_tab_positions (snd a) = f_tab_positions (snd old) /\ f_is_code_block (snd a) = f_is_code_block (snd old)
  /\ f_code_language (snd a) = f_code_language (snd old).
