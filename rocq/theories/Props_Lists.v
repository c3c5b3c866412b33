(** C30, C34, C35: list markers, moving children, grouping of imported items. *)
From Coq Require Import Permutation.
From Verif Require Import Base RopeModel ListModel ListSpec ListFacts.

(** C30. The marker of item [k] (counted from 0) of a numbered list is the
    prefix, a numeral read as [k + 1], and the suffix. *)
Theorem marker_decodes : forall prefix suffix st k, numbered st ->
  exists body, format_list_marker prefix suffix st k = prefix ++ body ++ suffix
   /\ marker_value st body = (Z.of_N k + 1)%Z.
Proof. exact marker_theorem. Qed.
Print Assumptions marker_decodes.
Example marker_decodes_case :
  format_list_marker [40]%N [41]%N LowerRoman 1943 = [40; 109; 99; 109; 120; 108; 105; 118; 41]%N
  /\ format_list_marker [] [46]%N UpperAlpha 25 = [90; 46]%N /\ format_list_marker [] [46]%N UpperAlpha 26 = [50; 55; 46]%N.
Proof. repeat split; vm_compute; reflexivity. Qed.

(** The numerals are the usual ones: decimals without leading zero, roman
    numerals by thousands, hundreds, tens and units; letters give way to decimals
    after 26. *)
Theorem marker_usual_form : forall k,
  plain_decimal (marker_body Decimal (k + 1)) /\ marker_body UpperRoman (k + 1) = roman_numeral (k + 1)
  /\ map to_upper (marker_body LowerRoman (k + 1)) = roman_numeral (k + 1)
  /\ (forall st, st = LowerAlpha \/ st = UpperAlpha -> (26 <= k)%N -> marker_body st (k + 1) = marker_body Decimal (k + 1)).
Proof. exact marker_forms. Qed.
Print Assumptions marker_usual_form.
Example marker_usual_form_case : roman_numeral 3999 = [77; 77; 77; 67; 77; 88; 67; 73; 88]%N.
Proof. reflexivity. Qed.

(** Different items of a numbered list never share a marker. *)
Theorem markers_differ : forall prefix suffix st k1 k2, numbered st ->
  format_list_marker prefix suffix st k1 = format_list_marker prefix suffix st k2 -> k1 = k2.
Proof. exact marker_distinct. Qed.
Print Assumptions markers_differ.
Example markers_differ_case :
  numbered Decimal /\ format_list_marker [] [] Decimal 0 <> format_list_marker [] [] Decimal 1.
Proof. split; [exact I|vm_compute; discriminate]. Qed.

(** C34. The moved children come together in the order given, at the place asked
    for among the others, which keep their order. *)
Theorem reorder_exact : forall current moved new_index, moved <> [] ->
  let rest := staying moved current in
  reorder current moved new_index
  = Ok (firstn (place new_index rest) rest ++ moved ++ skipn (place new_index rest) rest).
Proof. exact reorder_exact_w. Qed.
Print Assumptions reorder_exact.
Example reorder_exact_case : reorder [1; 2; 3; 4; 5]%N [4; 1]%N 1 = Ok [2; 4; 1; 3; 5]%N.
Proof. reflexivity. Qed.
(** Moving some of the children keeps exactly the same children. Missing: moved
    ids that are not children, or given twice. *)
Theorem reorder_same_children_partial : forall current moved new_index,
  NoDup current -> NoDup moved -> incl moved current ->
  exists result, reorder current moved new_index = Ok result /\ Permutation result current /\ NoDup result.
Proof. exact reorder_perm_w. Qed.
Print Assumptions reorder_same_children_partial.
Example reorder_same_children_case : NoDup [1; 2; 3]%N /\ NoDup [3; 1]%N /\ incl [3; 1]%N [1; 2; 3]%N.
Proof. split; [|split]; [repeat constructor; cbn; lia|repeat constructor; cbn; lia|]. intros i; cbn; tauto. Qed.
Theorem reorder_foreign_refuted : exists current moved new_index result,
  NoDup current /\ NoDup moved /\ reorder current moved new_index = Ok result /\ ~ Permutation result current.
Proof. exact reorder_foreign_w. Qed.
Print Assumptions reorder_foreign_refuted.
Theorem reorder_twice_refuted : exists current moved new_index result,
  NoDup current /\ incl moved current /\ reorder current moved new_index = Ok result /\ ~ NoDup result.
Proof. exact reorder_twice_w. Qed.
Print Assumptions reorder_twice_refuted.

(** C35. Two imported list items get the same list exactly when nothing between
    them closes it. *)
Theorem list_grouping : forall first ps i j a b, i < j ->
  nth_error (group_lists first ps) i = Some (Some a) -> nth_error (group_lists first ps) j = Some (Some b) ->
  (a = b <-> same_list ps i j).
Proof. exact group_theorem. Qed.
Print Assumptions list_grouping.
Example list_grouping_case :
  group_lists 1%N [Item Decimal 0; Item Disc 1; Item Disc 1; Item Decimal 0; Item Disc 1; Other; Item Decimal 0]
  = [Some 1; Some 2; Some 2; Some 1; Some 3; None; Some 4]%N.
Proof. reflexivity. Qed.
(** Exactly the list items get a list. *)
Theorem list_items_listed : forall first ps k,
  (nth_error ps k = Some Other <-> nth_error (group_lists first ps) k = Some None)
  /\ ((exists st n, nth_error ps k = Some (Item st n)) <-> exists a, nth_error (group_lists first ps) k = Some (Some a)).
Proof. exact group_item. Qed.
Print Assumptions list_items_listed.
