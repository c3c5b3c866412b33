(** Concrete documents for the flow. *)
From Verif Require Import Base FormatRunsModel RopeModel DocModel DocSpec HistModel QueryModel ListModel ListDocModel PropSpec DocRefuted FlowModel FlowSpec.

(** "abcde" and "fg". *)
Definition two : ldoc := mk_ldoc typed_first [] 0%N.
Lemma two_reach : reach (l_doc two). Proof. apply typed_first_reach. Qed.
(** "a", an empty paragraph, "b". *)
Definition gap : doc := import_plain_text new_document [97; 10; 10; 98]%N.
Lemma gap_reach : reach gap. Proof. repeat constructor. Qed.
Definition gap_items : list item := [Chr 97%N cfmt_default; Brk; Brk; Chr 98%N cfmt_default].
Lemma gap_read : doc_items gap = Ok gap_items. Proof. vm_compute. reflexivity. Qed.

Lemma snapshot_at_refuted_w : exists L p s i a n k, reach (l_doc L) /\ snapshot_block_at_position L p = Ok (Some s)
  /\ block_at_position (l_doc L) (Z.of_nat p) = Ok (i, a, n, k) /\ sn_id s <> i.
Proof.
  exists two, 5. eexists _, _, _, _, _. split; [exact two_reach|]. split; [vm_compute; reflexivity|]. split; [vm_compute; reflexivity|]. cbn. discriminate.
Qed.
Lemma range_point_refuted_w : exists d its p i a n k, reach d /\ doc_items d = Ok its /\ p <= length its
  /\ block_at_position d (Z.of_nat p) = Ok (i, a, n, k) /\ blocks_in_range d p 0 = Ok [].
Proof.
  exists gap, gap_items, 2. eexists _, _, _, _. split; [exact gap_reach|]. split; [exact gap_read|]. split; [cbn; lia|]. split; vm_compute; reflexivity.
Qed.
Lemma range_empty_refuted_w : exists d its k i, reach d /\ doc_items d = Ok its /\ nth_error (d_order d) k = Some i
  /\ nth_error (paragraphs its) k = Some [] /\ para_start k its = 2
  /\ blocks_in_range d 1 2 = Ok [i] /\ blocks_in_range d 2 1 = Ok [].
Proof.
  exists gap, gap_items, 1. eexists. split; [exact gap_reach|]. split; [exact gap_read|]. split; [vm_compute; reflexivity|]. repeat split; vm_compute; reflexivity.
Qed.
