(** Specification of lists in a document. *)
From Verif Require Import Base RopeModel DocModel DocSpec HistModel HistSpec PropSpec ListModel ListDocModel ImportModel.

(** The paragraphs of a list, in display order. *)
Definition members (d : doc) (l : id) : list id :=
  filter (fun i => match attr d i with Some (Some l', _) => N.eqb l' l | _ => false end) (d_order d).

(** A paragraph of [n] characters from position [s], its end included, meets the
    selection [rs..re]. *)
Definition meets (s n : nat) (rs re : Z) : Prop := exists x, s <= x <= s + n /\ (rs <= Z.of_nat x <= re)%Z.

(** The end of the paragraph that position [p] is in. *)
Definition para_end (its : list item) (p : nat) : nat :=
  let k := breaks p its in para_start k its + length (nth k (paragraphs its) []).

(** Documents with lists: lists made, changed, joined and left, and anything the
    edits of a document do to its paragraphs in between. Left out:
    [insert_list]. *)
Inductive lreach : ldoc -> Prop :=
| lreach_start d : reach d -> lreach (mk_ldoc d [] 1%N)
| lreach_edit L d : lreach L -> reach d -> lreach (mk_ldoc d (l_lists L) (l_next L))
| lreach_create L p a st L' l : lreach L -> create_list L p a st = Ok (L', l) -> lreach L'
| lreach_join L i l L' : lreach L -> add_block_to_list L i l = Ok L' -> lreach L'
| lreach_leave L i L' : lreach L -> remove_block_from_list L i = Ok L' -> lreach L'
| lreach_format L l q L' : lreach L -> set_list_format L l q = Ok L' -> lreach L'
| lreach_import html L bs : lreach L -> bs <> [] -> lreach (import_parsed html L bs).
