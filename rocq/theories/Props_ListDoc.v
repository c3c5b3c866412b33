(** Lists in a document: C44. *)
From Verif Require Import Base RopeModel DocModel DocSpec HistModel HistSpec PropSpec QueryModel ListModel ListSpec ListDocModel ListDocSpec
  DocTheorems QueryTheorems DocRefuted ListDocFacts.

(** The items of a list are its paragraphs in display order; counting them,
    asking for the item of a number and for the number of an item agree. *)
Theorem list_order : forall d l, reach d ->
  list_count d l = length (members d l)
  /\ (forall k, list_item d l k = Ok (nth_error (members d l) k))
  /\ (forall k i, nth_error (members d l) k = Some i -> list_item_index d i = Ok (Some k)).
Proof. exact list_order_theorem. Qed.
Print Assumptions list_order.
Example list_order_case : lreach two_items /\ members (l_doc two_items) 1%N = [3%N] /\ list_item (l_doc two_items) 1%N 0 = Ok (Some 3%N).
Proof. split; [apply two_items_lreach|]. split; vm_compute; reflexivity. Qed.

(** The marker shown for item [k] (counted from 0) is the one of number [k + 1]
    in the style of the list. *)
Theorem list_marker : forall L i l e k, lreach L -> get_list L l = Some e -> nth_error (members (l_doc L) l) k = Some i ->
  block_marker L i = Ok (Some (l_prefix e ++ marker_body (l_style e) (N.of_nat k + 1)%N ++ l_suffix e)).
Proof. exact marker_theorem. Qed.
Print Assumptions list_marker.
(** The number read in it is [k + 1]. *)
Theorem list_marker_number : forall L i l e k, lreach L -> get_list L l = Some e -> numbered (l_style e) ->
  nth_error (members (l_doc L) l) k = Some i ->
  exists body, block_marker L i = Ok (Some (l_prefix e ++ body ++ l_suffix e)) /\ marker_value (l_style e) body = (Z.of_nat k + 1)%Z.
Proof. exact marker_number_theorem. Qed.
Print Assumptions list_marker_number.
Example list_marker_case : lreach two_items /\ get_list two_items 1%N = Some (mk_list Decimal 0 [] []) /\ numbered Decimal
  /\ nth_error (members (l_doc two_items) 1%N) 0 = Some 3%N /\ block_marker two_items 3%N = Ok (Some [49%N]).
Proof. split; [apply two_items_lreach|]. split; [reflexivity|]. split; [exact I|]. split; vm_compute; reflexivity. Qed.

(** Joining a list changes one paragraph. *)
Theorem list_join : forall L i l e, reach (l_doc L) -> In i (d_order (l_doc L)) -> get_list L l = Some e ->
  exists L', add_block_to_list L i l = Ok L' /\ reach (l_doc L') /\ doc_items (l_doc L') = doc_items (l_doc L)
   /\ d_order (l_doc L') = d_order (l_doc L) /\ l_lists L' = l_lists L
   /\ (forall l0 f, attr (l_doc L) i = Some (l0, f) -> attr (l_doc L') i = Some (Some l, f))
   /\ (forall j, j <> i -> attr (l_doc L') j = attr (l_doc L) j).
Proof. exact join_theorem. Qed.
Print Assumptions list_join.
Theorem list_join_error : forall L i l, reach (l_doc L) -> ~ In i (d_order (l_doc L)) \/ get_list L l = None ->
  add_block_to_list L i l = Err.
Proof. exact join_error_theorem. Qed.
Print Assumptions list_join_error.
Example list_join_error_case : ~ In 9%N (d_order (l_doc two_items)) /\ get_list two_items 7%N = None.
Proof. split; [vm_compute; intuition discriminate|reflexivity]. Qed.
Example list_join_case : bind (add_block_to_list two_items 2%N 1%N) (fun L => Ok (members (l_doc L) 1%N)) = Ok [2%N; 3%N].
Proof. vm_compute. reflexivity. Qed.

(** Leaving a list changes one paragraph; a list nobody is in any more is gone,
    and only such a list. *)
Theorem list_leave : forall L i l f, reach (l_doc L) -> In i (d_order (l_doc L)) -> attr (l_doc L) i = Some (Some l, f) ->
  exists L', remove_block_from_list L i = Ok L' /\ reach (l_doc L') /\ doc_items (l_doc L') = doc_items (l_doc L)
   /\ d_order (l_doc L') = d_order (l_doc L)
   /\ attr (l_doc L') i = Some (None, f)
   /\ (forall j, j <> i -> attr (l_doc L') j = attr (l_doc L) j)
   /\ (forall k, k <> l -> get_list L' k = get_list L k)
   /\ (members (l_doc L') l = [] -> get_list L' l = None)
   /\ (members (l_doc L') l <> [] -> get_list L' l = get_list L l).
Proof. exact leave_theorem. Qed.
Print Assumptions list_leave.
Theorem list_leave_error : forall L i, reach (l_doc L) ->
  ~ In i (d_order (l_doc L)) \/ (exists f, attr (l_doc L) i = Some (None, f)) -> remove_block_from_list L i = Err.
Proof. exact leave_error_theorem. Qed.
Print Assumptions list_leave_error.
Example list_leave_error_case : exists f, attr (l_doc two_items) 2%N = Some (None, f).
Proof. eexists. vm_compute. reflexivity. Qed.
Example list_leave_case : bind (remove_block_from_list two_items 3%N) (fun L => Ok (get_list two_items 1%N, get_list L 1%N))
  = Ok (Some (mk_list Decimal 0 [] []), None).
Proof. vm_compute. reflexivity. Qed.

(** A list format request changes what it names, of one list. *)
Theorem list_format : forall L l q e, get_list L l = Some e ->
  exists L' e', set_list_format L l q = Ok L' /\ l_doc L' = l_doc L /\ get_list L' l = Some e'
   /\ (forall k, k <> l -> get_list L' k = get_list L k)
   /\ (forall s, q_style q = Some s -> l_style e' = s) /\ (q_style q = None -> l_style e' = l_style e)
   /\ (forall s, q_list_indent q = Some s -> l_indent e' = s) /\ (q_list_indent q = None -> l_indent e' = l_indent e)
   /\ (forall s, q_prefix q = Some s -> l_prefix e' = s) /\ (q_prefix q = None -> l_prefix e' = l_prefix e)
   /\ (forall s, q_suffix q = Some s -> l_suffix e' = s) /\ (q_suffix q = None -> l_suffix e' = l_suffix e).
Proof. exact list_format_theorem. Qed.
Print Assumptions list_format.
Example list_format_case :
  bind (set_list_format two_items 1%N (mk_list_req (Some UpperRoman) None None (Some [41%N]))) (fun L => block_marker L 3%N) = Ok (Some [73; 41]%N).
Proof. vm_compute. reflexivity. Qed.

(** Making a list of the selection: a new list, joined by exactly the paragraphs
    the selection meets, when the stored positions are right. Missing: other
    histories. *)
Theorem create_list_partial : forall L p a st, lreach L ->
  exists its L', doc_items (l_doc L) = Ok its /\ create_list L p a st = Ok (L', l_next L)
   /\ reach (l_doc L') /\ doc_items (l_doc L') = Ok its /\ d_order (l_doc L') = d_order (l_doc L)
   /\ get_list L (l_next L) = None /\ get_list L' (l_next L) = Some (mk_list st 0%Z [] [])
   /\ (forall l, l <> l_next L -> get_list L' l = get_list L l)
   /\ (fresh_positions (l_doc L) -> forall k i l f para,
        nth_error (d_order (l_doc L)) k = Some i -> attr (l_doc L) i = Some (l, f) -> nth_error (paragraphs its) k = Some para ->
        (meets (para_start k its) (length para) (Z.min p a) (Z.max p a) -> attr (l_doc L') i = Some (Some (l_next L), f))
        /\ (~ meets (para_start k its) (length para) (Z.min p a) (Z.max p a) -> attr (l_doc L') i = Some (l, f))).
Proof. exact create_list_theorem. Qed.
Print Assumptions create_list_partial.
Example create_list_case :
  lreach (mk_ldoc two_paras [] 1%N) /\ fresh_positions two_paras
  /\ bind (create_list (mk_ldoc two_paras [] 1%N) 5 4 Decimal) (fun x => Ok (members (l_doc (fst x)) (snd x))) = Ok [3%N]
  /\ bind (create_list (mk_ldoc two_paras [] 1%N) 1 4 Decimal) (fun x => Ok (members (l_doc (fst x)) (snd x))) = Ok [2%N; 3%N].
Proof. split; [constructor; apply two_paras_reach|]. split; [apply (tidy_theorem _ two_paras_tidy)|]. split; vm_compute; reflexivity. Qed.
Theorem create_list_refuted :
  exists L its L' l k i para, lreach L /\ doc_items (l_doc L) = Ok its /\ create_list L 7 8 Decimal = Ok (L', l)
   /\ nth_error (d_order (l_doc L)) k = Some i /\ nth_error (paragraphs its) k = Some para
   /\ meets (para_start k its) (length para) 7 8 /\ attr (l_doc L') i = Some (None, bfmt_default) /\ members (l_doc L') l = [].
Proof. exact create_list_refuted_w. Qed.
Print Assumptions create_list_refuted.

(** [insert_list] adds an empty paragraph after the one at the cursor, the only
    item of a new list, as far as the paragraphs read one by one tell. Missing:
    the plain text, and typing in the new paragraph (refuted below). *)
Theorem insert_list_partial : forall L p st, lreach L -> fresh_positions (l_doc L) ->
  exists its L', doc_items (l_doc L) = Ok its
   /\ insert_list L p st = Ok (L', l_next L, Z.of_nat (para_end its (clip its p) + 1))
   /\ doc_items (l_doc L') = Ok (spec_break (para_end its (clip its p)) its)
   /\ nth_error (d_order (l_doc L')) (S (breaks (clip its p) its)) = Some (d_next (l_doc L))
   /\ attr (l_doc L') (d_next (l_doc L)) = Some (Some (l_next L), bfmt_default)
   /\ (forall i, In i (d_order (l_doc L)) -> attr (l_doc L') i = attr (l_doc L) i)
   /\ get_list L' (l_next L) = Some (mk_list st 0%Z [] [])
   /\ (forall n, block_count (l_doc L) = Ok n -> block_count (l_doc L') = Ok (S n))
   /\ character_count (l_doc L') = character_count (l_doc L).
Proof. exact insert_list_theorem. Qed.
Print Assumptions insert_list_partial.
Example insert_list_case :
  exists its L', doc_items two_paras = Ok its /\ para_end its 1 = 2 /\ insert_list (mk_ldoc two_paras [] 1%N) 1 Decimal = Ok (L', 1%N, 3%Z)
   /\ d_order two_paras = [2; 3]%N /\ d_order (l_doc L') = [2; 4; 3]%N.
Proof. do 2 eexists. split; [vm_compute; reflexivity|]. split; [reflexivity|]. split; [vm_compute; reflexivity|]. split; reflexivity. Qed.
(** The new paragraph is not in the exported text, and a character typed in it
    is counted but lost. *)
Theorem insert_list_refuted :
  exists L L' l np d' np' u n,
   lreach L /\ fresh_positions (l_doc L) /\ insert_list L 1 Decimal = Ok (L', l, np)
   /\ export_plain_text (l_doc L') = export_plain_text (l_doc L)
   /\ insert_text_simple (l_doc L') np [120%N] = Ok (d', np', u)
   /\ export_plain_text d' = export_plain_text (l_doc L')
   /\ doc_items d' = doc_items (l_doc L')
   /\ character_count (l_doc L') = Ok n /\ character_count d' = Ok (S n).
Proof. exact insert_list_refuted_w. Qed.
Print Assumptions insert_list_refuted.
