(** Specifications for inserting Markdown at a position. *)
From Verif Require Import Base FormatRunsModel RopeModel DocModel DocSpec ListModel ListDocModel FragmentModel ImportModel ImportSpec MdInsertModel.

(** A parsed paragraph without paragraph formatting. *)
Definition bare (b : pblock) : Prop :=
  pb_heading b = None /\ pb_list b = None /\ pb_code b = false /\ pb_quotes b = 0 /\ pb_line_height b = None
  /\ pb_non_breakable b = None /\ pb_direction b = None /\ pb_background b = None.
(** A break keeps a first paragraph that is not bare apart from the text before
    it, and a last one from the text after it. *)
Definition break_before (bs : list pblock) : list item :=
  match bs with b :: _ => if is_inline b then [] else [Brk] | [] => [] end.
Definition break_after (bs : list pblock) : list item := break_before (rev bs).
Definition inserted (bs : list pblock) : list item := break_before bs ++ items_of_blocks bs ++ break_after bs.
Definition with_markdown (n : nat) (bs : list pblock) (its : list item) : list item :=
  firstn n its ++ inserted bs ++ skipn n its.
(** The parsed paragraphs that become paragraphs of their own. *)
Definition own_paragraphs (bs : list pblock) : list pblock :=
  skipn (match bs with b :: _ => if is_inline b then 1 else 0 | [] => 0 end)
        (match rev bs with b :: _ => if is_inline b then removelast bs else bs | [] => bs end).
(** One bare paragraph. *)
Definition one_bare (bs : list pblock) : Prop := exists b, bs = [b] /\ bare b.
(** The paragraph of place [n] is followed by one paragraph, the last one of
    the document, and that one is empty. *)
Definition before_empty_end (n : nat) (its : list item) : Prop := exists u, skipn n its = u ++ [Brk] /\ ~ In Brk u.
(** Paragraphs the document has more: one for each break. *)
Definition added (bs : list pblock) : nat := length (filter is_break (inserted bs)).

(** A new paragraph has the list style, indent and heading level it is read
    with, and no other paragraph format. *)
Definition in_read_list (L : ldoc) (b : pblock) (l : option id) : Prop :=
  match pb_list b with
  | None => l = None
  | Some st => exists i e, l = Some i /\ get_list L i = Some e /\ l_style e = st /\ Z.to_nat (l_indent e) = pb_indent b
  end.
Definition heading_only (h : option Z) : bfmt := mk_bfmt None None None None None h None None None [] None None None None None None.
Definition as_read (L : ldoc) (b : pblock) (a : option id * bfmt) : Prop :=
  in_read_list L b (fst a) /\ snd a = heading_only (pb_heading b).
