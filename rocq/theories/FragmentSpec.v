(** Specifications for copy and paste. *)
From Verif Require Import Base FormatRunsModel FormatRunsSpec RopeModel DocModel DocSpec HistModel
  QueryModel QuerySpec ListModel ListDocModel FragmentModel FragmentText.

(** What a paragraph of a fragment shows, and a whole fragment. *)
Definition fb_items (fb : fblock) : list item := flat_map seg_items (fb_elems fb).
Fixpoint join_paras (ps : list (list item)) : list item :=
  match ps with
  | [] => []
  | [p] => p
  | p :: rest => p ++ Brk :: join_paras rest
  end.
Definition fragment_items (fbs : list fblock) : list item := join_paras (map fb_items fbs).

(** A place with nothing before it in its paragraph; with nothing after it. *)
Definition at_start (its : list item) (n : nat) : bool :=
  match rev (firstn n its) with Chr _ _ :: _ => false | _ => true end.
Definition at_end (its : list item) (n : nat) : bool :=
  match skipn n its with Chr _ _ :: _ => false | _ => true end.

(** Inserting a fragment at place [n]: a fragment that starts (or ends) with a
    paragraph that has paragraph formatting is kept apart by a break from the
    text before it (or after it), if there is any. One such paragraph alone,
    put after some text, is always followed by a break. *)
Definition sep_before (fbs : list fblock) (its : list item) (n : nat) : list item :=
  match fbs with
  | fb :: _ => if is_inline_only fb || at_start its n then [] else [Brk]
  | [] => []
  end.
Definition sep_after (fbs : list fblock) (its : list item) (n : nat) : list item :=
  match rev fbs with
  | fb :: others =>
      if is_inline_only fb || (at_end its n && (at_start its n || negb (length others =? 0)))
      then [] else [Brk]
  | [] => []
  end.
Definition spec_paste (n : nat) (fbs : list fblock) (its : list item) : list item :=
  firstn n its ++ sep_before fbs its n ++ fragment_items fbs ++ sep_after fbs its n ++ skipn n its.

(** The paragraphs the paste leaves in place of the one it goes into: the
    fragment's paragraphs that are not merged into surrounding text bring their
    own format and list, between the two parts of the paragraph that is split. *)
Definition own_format (fbs : list fblock) : list fblock :=
  match fbs with
  | fb :: rest => (if is_inline_only fb then [] else [fb])
                  ++ (match rest with
                      | [] => []
                      | _ => removelast rest ++ (if is_inline_only (last rest fb) then [] else [last rest fb])
                      end)
  | [] => []
  end.
Definition takes_over (fbs : list fblock) (its : list item) (n : nat) : bool :=
  match fbs with fb :: _ => negb (is_inline_only fb) && at_start its n | [] => false end.
Definition keeps_tail (fbs : list fblock) (its : list item) (n : nat) : bool :=
  match rev fbs with
  | fb :: _ :: _ => is_inline_only fb || negb (at_end its n)
  | [fb] => negb (is_inline_only fb) && negb (at_end its n && at_start its n)
  | [] => false
  end.
(** [cur] is the list and the format of the paragraph the paste goes into,
    [own] those of the new paragraphs of the fragment. *)
Definition paste_attrs (fbs : list fblock) (its : list item) (n : nat) (cur : option id * bfmt) (own : list (option id * bfmt))
  : list (option id * bfmt) :=
  (if takes_over fbs its n then [] else [cur])
  ++ own
  ++ (if keeps_tail fbs its n then [if takes_over fbs its n then (None, bfmt_default) else cur] else []).

(** Pastes after which the stored positions (the character count) are right if
    they were before: all but those of one formatted paragraph before some
    text (but those that put text of the fragment, or the fragment, at the
    start of text). *)
Definition keeps_positions (fbs : list fblock) (its : list item) (n : nat) : bool :=
  match fbs with [fb] => is_inline_only fb || at_end its n | _ => true end.
Definition keeps_counts (fbs : list fblock) (its : list item) (n : nat) : bool :=
  at_end its n
  || match fbs with
     | [fb] => is_inline_only fb || negb (at_start its n)
     | fb :: _ => negb (is_inline_only fb) && negb (at_start its n)
     | [] => true
     end.
(** Characters of a fragment. *)
Definition fragment_length (fbs : list fblock) : nat := fold_right (fun fb n => length (fb_text fb) + n) 0 fbs.
(** The list a pasted paragraph joins, for the list [e] it had when it was
    copied: one with the same style and indent. *)
Definition joins (L : ldoc) (e : option list_entity) (l : option id) : Prop :=
  match e with
  | None => l = None
  | Some e => exists i e', l = Some i /\ get_list L i = Some e'
                           /\ l_style e' = l_style e /\ Z.to_nat (l_indent e') = Z.to_nat (l_indent e)
  end.
(** No list has a number that is yet to be given. *)
Definition lists_numbered (L : ldoc) : Prop := forall l, (l_next L <= l)%N -> get_list L l = None.
(** The lists that were there are still there, unchanged. *)
Definition more_lists (L L' : ldoc) : Prop := forall i e, get_list L i = Some e -> get_list L' i = Some e.
