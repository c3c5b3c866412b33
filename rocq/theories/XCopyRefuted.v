(** Concrete copies in documents with a table. *)
From Coq Require Import Sorting.Permutation.
From Verif Require Import Base RopeModel TableModel TableSpec TableFacts TablePlaces TableTextModel TableTextSpec TableTextRefuted TableEditModel TableEditSpec TableEditFacts TableEditSteps TableEditTheorems TableEditRefuted
  PropSpec FlowSpec XCopyModel XCopySpec XCopyTheorems.
From Verif Require Import DocModel DocSpec.
Local Open Scope Z_scope.

(** "ab", a row of three cells "x", "y", "q", then "cdefgh". *)
Definition three0 : xdoc := got (x_insert_table two 2 2 1 3 70%N 80%N).
Lemma three0_edited : edited three0.
Proof. apply (edited_new two 2 2 1 3 70%N 80%N); [exact two_reach|exact two_counted|apply got_ok; vm_compute; reflexivity]. Qed.
Definition three1 : xdoc := got_text (x_insert_text three0 3 [120]%N).
Lemma three1_edited : edited three1.
Proof. destruct (text_ok (x_insert_text three0 3 [120]%N)) as [q E]; [vm_compute; reflexivity|]. exact (edited_type three0 3 [120]%N three1 q three0_edited E). Qed.
Definition three2 : xdoc := got_text (x_insert_text three1 5 [121]%N).
Lemma three2_edited : edited three2.
Proof. destruct (text_ok (x_insert_text three1 5 [121]%N)) as [q E]; [vm_compute; reflexivity|]. exact (edited_type three1 5 [121]%N three2 q three1_edited E). Qed.
Definition three : xdoc := got_text (x_insert_text three2 7 [113]%N).
Lemma three_edited : edited three.
Proof. destruct (text_ok (x_insert_text three2 7 [113]%N)) as [q E]; [vm_compute; reflexivity|]. exact (edited_type three2 7 [113]%N three q three2_edited E). Qed.
Definition three_texts : list str := [[97; 98]; [120]; [121]; [113]; [99; 100; 101; 102; 103; 104]]%N.
Lemma three_read : document_texts three three_texts.
Proof. assert (R := read_ok _ three_edited). assert (E : read_texts three = three_texts) by (vm_compute; reflexivity). now rewrite E in R. Qed.

(** The text of one cell is copied twice. *)
Lemma cell_twice_refuted : exists x ts s e text, edited x /\ document_texts x ts /\ holds ts 1 s /\ holds ts 1 e /\ ~ outside x 1
  /\ between_positions s e (joined ts) = text /\ text <> [] /\ x_extract x (Z.of_nat s) (Z.of_nat e) = Ok (mk_xfrag [mk_xpiece text false; mk_xpiece text false] [] (text ++ NL :: text)).
Proof.
  exists typed, typed_texts, 3%nat, 4%nat, [112]%N. split; [exact typed_edited|]. split; [exact typed_read|]. split; [eexists; split; [reflexivity|]; cbn; lia|]. split; [eexists; split; [reflexivity|]; cbn; lia|].
  split; [|split; [reflexivity|split; [easy|vm_compute; reflexivity]]]. intros (bs & b & O & E & Hb). apply (order_flow _ _ (inv_history _ (edited_inv _ typed_edited))) in O. subst bs.
  assert (X : nth_error (flow_blocks (x_table typed)) 1 = Some (mk_tblock 4%N 3 1)) by (vm_compute; reflexivity). rewrite X in E. injection E as <-.
  assert (Y : t_others (x_table typed) = [mk_tblock 2%N 0 2; mk_tblock 3%N 5 6]) by (vm_compute; reflexivity). rewrite Y in Hb. clear -Hb. cbn [In] in Hb. destruct Hb as [Hb|[Hb|Hb]]; [discriminate Hb|discriminate Hb|exact Hb].
Qed.
(** Two of three cells are selected, and all three are copied. *)
Lemma more_cells_refuted : exists x ts s e f, edited x /\ document_texts x ts /\ between_positions s e (joined ts) = [120; 10; 121]%N
  /\ x_extract x (Z.of_nat s) (Z.of_nat e) = Ok f /\ xf_plain f = [120; 10; 121; 10; 113]%N /\ map (fun t => length (fx_cells t)) (xf_tables f) = [3%nat].
Proof.
  exists three, three_texts, 3%nat, 6%nat. eexists. split; [exact three_edited|]. split; [exact three_read|]. split; [reflexivity|]. split; [vm_compute; reflexivity|]. split; reflexivity.
Qed.
(** The cell "p" is copied with the table and pasted over the cell "y", which stays "y". *)
Lemma pasted_over_refuted : exists x ts y f p, edited x /\ edited y /\ document_texts x ts /\ x_from_document y = Ok f /\ map (fun t => copied_texts (fx_cells t)) (xf_tables f) = [[[112]]]%N
  /\ holds ts 2 p /\ nth_error ts 2 = Some [121]%N /\ x_paste_cells x (Z.of_nat p) (mk_xfrag [] (xf_tables f) [112]%N) = Ok (Some x).
Proof.
  exists three, three_texts, typed. eexists. exists 5%nat. split; [exact three_edited|]. split; [exact typed_edited|]. split; [exact three_read|]. split; [vm_compute; reflexivity|]. split; [reflexivity|].
  split; [eexists; split; [reflexivity|]; cbn; lia|]. split; [reflexivity|]. vm_compute. reflexivity.
Qed.

(** Cases for the theorems. *)
Lemma typed_above : outside typed 0.
Proof. apply (outside_ok _ _ (mk_tblock 2%N 0 2) typed_edited); [vm_compute; reflexivity|]. vm_compute. auto. Qed.
Lemma above_only : forall k, touched typed_texts 1 2 k -> outside typed k.
Proof.
  intros k (t & E & A & B). destruct k as [|k]; [exact typed_above|]. exfalso. cbn in A. lia.
Qed.
Lemma all_of_it : table_selected typed typed_texts 1 7.
Proof.
  intros k t E O. destruct k as [|[|[|k]]]; [exfalso; apply O; exact typed_above| |exfalso; apply O; exact typed_outside|destruct k; discriminate E].
  injection E as <-. cbn. lia.
Qed.
Lemma some_below : exists k, touched typed_texts 1 7 k /\ outside typed k.
Proof. exists 2%nat. split; [exists [99; 100; 101; 102; 103; 104]%N; cbn; split; [reflexivity|lia]|exact typed_outside]. Qed.
