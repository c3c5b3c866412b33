(** What inserting Markdown or HTML should do, in terms of the document that
    setting the same content makes. *)
From Verif Require Import Base FormatRunsModel RopeModel DocModel DocSpec PropSpec QuerySpec ListModel ListDocModel
  FragmentModel FragmentSpec.

(** No paragraph is a code block. *)
Definition no_code_blocks (L : ldoc) : Prop :=
  forall a, In a (para_attrs (l_doc L)) -> exists l f, a = Some (l, f) /\ f_is_code_block f = None /\ f_code_language f = None.
(** The list a paragraph is in. *)
Definition list_at (L : ldoc) (a : option id * bfmt) : option list_entity := match fst a with Some l => get_list L l | None => None end.
(** The fragment has the paragraphs of the document, with their formats and lists. *)
Definition same_paragraphs (fbs : list fblock) (L : ldoc) : Prop :=
  exists its atts, doc_items (l_doc L) = Ok its /\ para_attrs (l_doc L) = map Some atts
   /\ map fb_items fbs = paragraphs its /\ map fb_fmt fbs = map snd atts /\ map fb_list fbs = map (list_at L) atts.

(** A paragraph in no list and without paragraph format. *)
Definition plain_attr (a : option (option id * bfmt)) : Prop := a = Some (None, bfmt_default).
Definition one_para (its : list item) : bool := match paragraphs its with [_] => true | _ => false end.
(** Inserting [new] in place of what is between [n] and [m]: when its first
    paragraph is not a plain one, it is kept apart from text before it; when its
    last one is not, from text after it; one such paragraph alone, put after some
    text, is always followed by a break. *)
Definition break_before (first_plain : bool) (rest : list item) (n : nat) : list item :=
  if first_plain || at_start rest n then [] else [Brk].
Definition break_after (last_plain one : bool) (rest : list item) (n : nat) : list item :=
  if last_plain || (at_end rest n && (at_start rest n || negb one)) then [] else [Brk].
Definition put (first_plain last_plain : bool) (n m : nat) (its new : list item) : list item :=
  let rest := firstn n its ++ skipn m its in
  firstn n its ++ break_before first_plain rest n ++ new ++ break_after last_plain (one_para new) rest n ++ skipn m its.
(** How many characters and breaks come before the end of [new]'s part. *)
Definition put_end (first_plain last_plain : bool) (n m : nat) (its new : list item) : nat :=
  let rest := firstn n its ++ skipn m its in
  n + length (break_before first_plain rest n) + length new + length (break_after last_plain (one_para new) rest n).
