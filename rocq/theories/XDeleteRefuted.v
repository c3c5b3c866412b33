(** Deleting over cells: witnesses. *)
From Coq Require Import Sorting.Permutation Sorting.Sorted.
From Verif Require Import Base RopeModel TableModel TableSpec TableTextModel TableTextSpec TableTextRefuted TableEditModel TableEditSpec TableEditFacts TableEditTheorems TableEditSteps TableEditRefuted
  XCopyRefuted XDeleteModel XDeleteSpec FlowSpec.
Local Open Scope Z_scope.

Fixpoint readsb (l : list tcell) : bool :=
  match l with
  | [] => true
  | a :: r => forallb (fun b => (tc_row a <? tc_row b) || (tc_row a =? tc_row b) && (tc_col a <? tc_col b)) r && readsb r
  end.
Lemma readsb_ok l : readsb l = true -> reads l.
Proof.
  induction l as [|a l IH]; intros E; [constructor|]. cbn [readsb] in E. apply andb_true_iff in E. destruct E as [E1 E2]. constructor; [now apply IH|].
  apply Forall_forall. intros b Hb. rewrite forallb_forall in E1. specialize (E1 b Hb). lia.
Qed.
Lemma texts_read x ts : readsb (t_cells (x_table x)) = true ->
  map (fun b => text_of x (tb_id b)) (firstn (t_at (x_table x)) (t_others (x_table x)) ++ flat_map tc_blocks (t_cells (x_table x)) ++ skipn (t_at (x_table x)) (t_others (x_table x))) = map Ok ts -> document_texts x ts.
Proof. intros R T. eexists. split; [|exact T]. exists (t_cells (x_table x)). split; [easy|]. split; [now apply readsb_ok|easy]. Qed.
Definition got_cells (r : res (option (xdoc * str))) (x : xdoc) : xdoc := match r with Ok (Some (x', _)) => x' | _ => x end.

(** A table of three cells at the end; then with "x", "y" and "q" in them. *)
Definition last0 : xdoc := got (x_insert_table two 9 9 1 3 70%N 80%N).
Lemma last0_edited : edited last0.
Proof. apply (edited_new two 9 9 1 3 70%N 80%N); [exact two_reach|exact two_counted|apply got_ok; vm_compute; reflexivity]. Qed.
Definition last1 : xdoc := got_text (x_insert_text last0 10 [120]%N).
Lemma last1_edited : edited last1.
Proof. destruct (text_ok (x_insert_text last0 10 [120]%N)) as [q E]; [vm_compute; reflexivity|]. exact (edited_type last0 10 [120]%N last1 q last0_edited E). Qed.
Definition last2 : xdoc := got_text (x_insert_text last1 12 [121]%N).
Lemma last2_edited : edited last2.
Proof. destruct (text_ok (x_insert_text last1 12 [121]%N)) as [q E]; [vm_compute; reflexivity|]. exact (edited_type last1 12 [121]%N last2 q last1_edited E). Qed.
Definition last3 : xdoc := got_text (x_insert_text last2 14 [113]%N).
Lemma last3_edited : edited last3.
Proof. destruct (text_ok (x_insert_text last2 14 [113]%N)) as [q E]; [vm_compute; reflexivity|]. exact (edited_type last2 14 [113]%N last3 q last2_edited E). Qed.
Definition last3_texts : list str := [[97; 98]; [99; 100; 101; 102; 103; 104]; [120]; [121]; [113]]%N.
Lemma last3_read : document_texts last3 last3_texts.
Proof. apply texts_read; vm_compute; reflexivity. Qed.
Lemma last3_last : table_last last3.
Proof. vm_compute. lia. Qed.
(** Paragraphs 2, 3 and 4 are in cells. *)
Lemma inside_ok x k b : edited x -> nth_error (flow_blocks (x_table x)) k = Some b -> existsb (N.eqb (tb_id b)) (block_ids (t_others (x_table x))) = false -> ~ outside x k.
Proof.
  intros Ed E X (bs & y & O & Ey & Hy). apply (order_flow _ _ (inv_history _ (edited_inv _ Ed))) in O. subst bs. rewrite E in Ey. injection Ey as <-.
  assert (existsb (N.eqb (tb_id b)) (block_ids (t_others (x_table x))) = true); [|congruence]. apply existsb_exists. exists (tb_id b). split; [now apply in_map|apply N.eqb_refl].
Qed.
Lemma last3_inside k : (2 <= k)%nat -> ~ outside last3 k.
Proof.
  intros Hk. destruct (Nat.le_gt_cases 5 k) as [L|L].
  - intros (bs & y & O & Ey & _). apply (order_flow _ _ (inv_history _ (edited_inv _ last3_edited))) in O. subst bs. assert (X : length (flow_blocks (x_table last3)) = 5%nat) by (vm_compute; reflexivity).
    assert (nth_error (flow_blocks (x_table last3)) k = None) by (apply nth_error_None; lia). congruence.
  - assert (C : k = 2%nat \/ k = 3%nat \/ k = 4%nat) by lia. destruct C as [->|[->| ->]]; (eapply inside_ok; [exact last3_edited|vm_compute; reflexivity|vm_compute; reflexivity]).
Qed.

(** Delete at the end of the first cell: the position after it is all that is selected;
    the texts of both cells go, and no text is reported. *)
Lemma two_emptied_refuted : exists x ts s x' ts', edited x /\ table_last x /\ document_texts x ts /\ holds ts 2 s /\ holds ts 3 (S s) /\ ~ outside x 2 /\ ~ outside x 3
  /\ selected ts s (S s) = [NL] /\ x_delete_cells x (Z.of_nat s) (Z.of_nat (S s)) = Ok (Some (x', [])) /\ document_texts x' ts'
  /\ nth_error ts 2 = Some [120]%N /\ nth_error ts' 2 = Some [] /\ nth_error ts 3 = Some [121]%N /\ nth_error ts' 3 = Some [].
Proof.
  exists last3, last3_texts, 11%nat, (got_cells (x_delete_cells last3 11 12) last3), [[97; 98]; [99; 100; 101; 102; 103; 104]; []; []; [113]]%N.
  split; [exact last3_edited|]. split; [exact last3_last|]. split; [exact last3_read|]. split; [eexists; split; [reflexivity|]; cbn; lia|]. split; [eexists; split; [reflexivity|]; cbn; lia|].
  split; [apply last3_inside; lia|]. split; [apply last3_inside; lia|]. split; [reflexivity|]. split; [vm_compute; reflexivity|]. split; [apply texts_read; vm_compute; reflexivity|]. now repeat split.
Qed.
(** Text of a paragraph below the table goes when cells are deleted. *)
Lemma below_deleted_refuted : exists x ts s e k t x' ts', edited x /\ document_texts x ts /\ outside x k /\ ~ touches ts s e k /\ nth_error ts k = Some t
  /\ x_delete_cells x (Z.of_nat s) (Z.of_nat e) = Ok (Some (x', [])) /\ document_texts x' ts' /\ nth_error ts' k = Some (skipn 3 t) /\ (3 < length t)%nat.
Proof.
  exists three, three_texts, 3%nat, 6%nat, 4%nat, [99; 100; 101; 102; 103; 104]%N, (got_cells (x_delete_cells three 3 6) three), [[97; 98]; []; []; [113]; [102; 103; 104]]%N.
  split; [exact three_edited|]. split; [exact three_read|]. split.
  { exists (flow_blocks (x_table three)), (mk_tblock 3%N 9 6). split; [apply order_flow; [apply (inv_history _ (edited_inv _ three_edited))|easy]|]. split; [vm_compute; reflexivity|]. vm_compute. auto. }
  split; [intros (t & _ & L & _); cbn in L; lia|]. split; [reflexivity|]. split; [vm_compute; reflexivity|]. split; [apply texts_read; vm_compute; reflexivity|]. split; [reflexivity|cbn; lia].
Qed.
(** Delete in an empty cell, then a letter typed there: it is in the next cell. *)
Lemma next_cell_refuted : exists x ts k p x1 x2 q ts2, edited x /\ table_last x /\ document_texts x ts /\ holds ts k p /\ ~ outside x k /\ nth_error ts k = Some []
  /\ x_delete_cells x (Z.of_nat p) (Z.of_nat (S p)) = Ok (Some (x1, [])) /\ document_texts x1 ts
  /\ x_insert_text x1 (Z.of_nat p) [65]%N = Ok (x2, q) /\ document_texts x2 ts2 /\ nth_error ts2 k = Some [] /\ nth_error ts2 (S k) = Some [65]%N.
Proof.
  exists last0, [[97; 98]; [99; 100; 101; 102; 103; 104]; []; []; []]%N, 3%nat, 11%nat, (got_cells (x_delete_cells last0 11 12) last0), (got_text (x_insert_text (got_cells (x_delete_cells last0 11 12) last0) 11 [65]%N)), 12,
    [[97; 98]; [99; 100; 101; 102; 103; 104]; []; []; [65]]%N.
  split; [exact last0_edited|]. split; [vm_compute; lia|]. split; [apply texts_read; vm_compute; reflexivity|]. split; [eexists; split; [reflexivity|]; cbn; lia|].
  split; [eapply inside_ok; [exact last0_edited|vm_compute; reflexivity|vm_compute; reflexivity]|]. split; [reflexivity|]. split; [vm_compute; reflexivity|]. split; [apply texts_read; vm_compute; reflexivity|].
  split; [vm_compute; reflexivity|]. split; [apply texts_read; vm_compute; reflexivity|]. now split.
Qed.
