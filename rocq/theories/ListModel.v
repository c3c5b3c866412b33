(** List markers, grouping of imported list items, reordering of children.

    Sources: crates/public_api/src/text_block.rs:780-850,
    crates/common/src/parser_tools/list_grouper.rs,
    crates/common/src/direct_access/block/block_table.rs:443-461. *)
From Verif Require Import Base RopeModel.

(** common/src/entities.rs [ListStyle]. *)
Inductive list_style := Disc | Circle | Square | Decimal | LowerAlpha | UpperAlpha | LowerRoman | UpperRoman.
Definition style_eq_dec (a b : list_style) : {a = b} + {a <> b}.
Proof. decide equality. Defined.
Definition style_eqb (a b : list_style) : bool := if style_eq_dec a b then true else false.

(** [format!("{n}")] of a [usize]: repeated division by ten; [fuel] bounds the
    number of digits. *)
Fixpoint decimal_go (fuel : nat) (n : N) (acc : str) : str :=
  match fuel with
  | 0 => acc
  | S fuel' =>
      let acc' := (48 + n mod 10)%N :: acc in
      if (n <? 10)%N then acc' else decimal_go fuel' (n / 10)%N acc'
  end.
Definition decimal (n : N) : str := decimal_go (S (N.to_nat (N.size n))) n [].

(** text_block.rs:814-828 [VALUES]. *)
Definition roman_table : list (N * str) :=
  [(1000, [77]); (900, [67; 77]); (500, [68]); (400, [67; 68]); (100, [67]); (90, [88; 67]); (50, [76]);
   (40, [88; 76]); (10, [88]); (9, [73; 88]); (5, [86]); (4, [73; 86]); (1, [73])]%N.
(** text_block.rs:831-834, the [while] loop: symbols pushed and what is left;
    [fuel] bounds the number of turns. *)
Fixpoint roman_while (fuel : nat) (val : N) (sym : str) (n : N) : str * N :=
  match fuel with
  | 0 => ([], n)
  | S fuel' =>
      if (val <=? n)%N then let (s, r) := roman_while fuel' val sym (n - val)%N in (sym ++ s, r) else ([], n)
  end.
Fixpoint roman_for (table : list (N * str)) (n : N) : str :=
  match table with
  | [] => []
  | (val, sym) :: rest => let (s, r) := roman_while (N.to_nat n) val sym n in s ++ roman_for rest r
  end.
(** text_block.rs:813-837 [to_roman_upper]. *)
Definition to_roman_upper (n : N) : str := roman_for roman_table n.
(** text_block.rs:839-841 [to_roman_lower]; [to_lowercase] on ASCII letters. *)
Definition ascii_lower (c : char) : char := if ((65 <=? c) && (c <=? 90))%N then (c + 32)%N else c.
Definition to_roman_lower (n : N) : str := map ascii_lower (to_roman_upper n).

(** text_block.rs:781-811 [format_list_marker]. *)
Definition marker_body (st : list_style) (number : N) : str :=
  match st with
  | Disc => [8226%N]
  | Circle => [9702%N]
  | Square => [9642%N]
  | Decimal => decimal number
  | LowerAlpha => if (number <=? 26)%N then [(97 + (number - 1))%N] else decimal number
  | UpperAlpha => if (number <=? 26)%N then [(65 + (number - 1))%N] else decimal number
  | LowerRoman => to_roman_lower number
  | UpperRoman => to_roman_upper number
  end.
Definition format_list_marker (prefix suffix : str) (st : list_style) (item_index : N) : str :=
  prefix ++ marker_body st (item_index + 1)%N ++ suffix.

(** list_grouper.rs:10-13: one entry per indent level. *)
Definition grouper := list (option (id * list_style)).
(** list_grouper.rs:23-33 [try_reuse]. *)
Definition try_reuse (g : grouper) (st : list_style) (indent : nat) : grouper * option id :=
  let g' := firstn (indent + 1) g in
  (g', match nth_error g' indent with
       | Some (Some (i, st')) => if style_eqb st' st then Some i else None
       | _ => None
       end).
(** list_grouper.rs:36-42 [register]. *)
Fixpoint put_level (g : grouper) (k : nat) (x : id * list_style) : grouper :=
  match g, k with
  | [], 0 => [Some x]
  | [], S k' => None :: put_level [] k' x
  | _ :: g', 0 => Some x :: g'
  | y :: g', S k' => y :: put_level g' k' x
  end.
Definition register (g : grouper) (i : id) (st : list_style) (indent : nat) : grouper := put_level g indent (i, st).
(** list_grouper.rs:45-47 [reset]. *)
Definition reset (g : grouper) : grouper := [].

(** What an importer meets: a list item, or anything that resets the grouper (a
    paragraph, a table, the edge of a block quote). *)
Inductive piece := Item (st : list_style) (indent : nat) | Other.
(** import_markdown_uc.rs:219-251 (import_html_uc.rs:236-266 and the insertion use
    cases do the same): the list of each item; [next] is the next list id. *)
Fixpoint group_go (g : grouper) (next : id) (ps : list piece) : list (option id) :=
  match ps with
  | [] => []
  | Other :: rest => None :: group_go (reset g) next rest
  | Item st indent :: rest =>
      match try_reuse g st indent with
      | (g', Some i) => Some i :: group_go g' next rest
      | (g', None) => Some next :: group_go (register g' next st indent) (N.succ next) rest
      end
  end.
Definition group_lists (first : id) (ps : list piece) : list (option id) := group_go [] first ps.

(** [Vec::insert]. *)
Definition vec_insert {A} (l : list A) (k : nat) (x : A) : res (list A) :=
  if k <=? length l then Ok (firstn k l ++ x :: skipn k l) else Panic.
(** block_table.rs:456-458. *)
Fixpoint insert_all {A} (l : list A) (k : nat) (xs : list A) : res (list A) :=
  match xs with
  | [] => Ok l
  | x :: rest => let! l' := vec_insert l k x in insert_all l' (S k) rest
  end.
(** block_table.rs:443-461 [reorder]; the other five tables have the same code. *)
Definition reorder (current moved : list id) (new_index : Z) : res (list id) :=
  match moved with
  | [] => Ok current
  | _ =>
      let remaining := filter (fun i => negb (existsb (N.eqb i) moved)) current in
      let p := if (new_index <? 0)%Z || (Z.of_nat (length remaining) <? new_index)%Z
               then length remaining else Z.to_nat new_index in
      insert_all remaining p moved
  end.
