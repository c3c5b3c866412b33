(** How list markers are read, which imported items belong together, and what
    moving children means. *)
From Coq Require Import Permutation.
From Verif Require Import Base RopeModel ListModel.

(** ** Numerals *)
Definition digit (c : char) : Prop := (48 <= c <= 57)%N.
Definition decimal_value (s : str) : N := fold_left (fun n c => 10 * n + (c - 48))%N s 0%N.
(** Plain decimal notation: digits, no leading zero. *)
Definition plain_decimal (s : str) : Prop :=
  Forall digit s /\ match s with [] => False | c :: rest => c = 48%N -> rest = [] end.

(** Roman numerals: the usual table by thousands, hundreds, tens and units. *)
Definition roman_units : list str := [[]; [73]; [73; 73]; [73; 73; 73]; [73; 86]; [86]; [86; 73]; [86; 73; 73]; [86; 73; 73; 73]; [73; 88]]%N.
Definition roman_tens : list str := [[]; [88]; [88; 88]; [88; 88; 88]; [88; 76]; [76]; [76; 88]; [76; 88; 88]; [76; 88; 88; 88]; [88; 67]]%N.
Definition roman_hundreds : list str := [[]; [67]; [67; 67]; [67; 67; 67]; [67; 68]; [68]; [68; 67]; [68; 67; 67]; [68; 67; 67; 67]; [67; 77]]%N.
Definition roman_numeral (n : N) : str :=
  repeat 77%N (N.to_nat (n / 1000))
  ++ nth (N.to_nat (n / 100 mod 10)) roman_hundreds []
  ++ nth (N.to_nat (n / 10 mod 10)) roman_tens []
  ++ nth (N.to_nat (n mod 10)) roman_units [].
(** Their value: a letter before a greater one is subtracted. *)
Definition roman_digit (c : char) : Z :=
  (if c =? 73 then 1%Z else if c =? 86 then 5%Z else if c =? 88 then 10%Z else if c =? 76 then 50%Z
   else if c =? 67 then 100%Z else if c =? 68 then 500%Z else if c =? 77 then 1000%Z else 0%Z)%N.
Fixpoint roman_value (s : str) : Z :=
  match s with
  | [] => 0
  | c :: rest =>
      let v := roman_digit c in
      (match rest with c' :: _ => if v <? roman_digit c' then - v else v | [] => v end + roman_value rest)%Z
  end.
Definition to_upper (c : char) : char := if ((97 <=? c) && (c <=? 122))%N then (c - 32)%N else c.

(** The number a reader sees in the body of a marker. *)
Definition alpha_value (base : char) (s : str) : Z :=
  match s with
  | [c] => if ((base <=? c) && (c <? base + 26))%N then Z.of_N (c - base) + 1 else Z.of_N (decimal_value s)
  | _ => Z.of_N (decimal_value s)
  end%Z.
Definition numbered (st : list_style) : Prop := match st with Disc | Circle | Square => False | _ => True end.
Definition marker_value (st : list_style) (s : str) : Z :=
  match st with
  | Decimal => Z.of_N (decimal_value s)
  | LowerAlpha => alpha_value 97%N s
  | UpperAlpha => alpha_value 65%N s
  | LowerRoman => roman_value (map to_upper s)
  | UpperRoman => roman_value s
  | _ => 0%Z
  end.

(** ** Grouping *)
(** Pieces [i < j] are items of one list: same style and level, and everything
    between is a list item at that level in that style, or deeper. *)
Definition same_list (ps : list piece) (i j : nat) : Prop :=
  exists st n, nth_error ps i = Some (Item st n) /\ nth_error ps j = Some (Item st n)
   /\ forall k, i < k < j -> exists st' n', nth_error ps k = Some (Item st' n')
        /\ (n < n' \/ n' = n /\ st' = st).

(** ** Moving children *)
(** The children that do not move, in order; the place asked for, the end if it
    is out of range. *)
Definition staying (moved current : list id) : list id := filter (fun i => negb (existsb (N.eqb i) moved)) current.
Definition place (new_index : Z) (rest : list id) : nat :=
  if ((0 <=? new_index) && (new_index <=? Z.of_nat (length rest)))%Z then Z.to_nat new_index else length rest.
