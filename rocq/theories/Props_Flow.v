(** C70: snapshots of the flow and lookup of paragraphs. *)
From Verif Require Import Base FormatRunsModel RopeModel DocModel DocSpec HistModel QueryModel QuerySpec ListModel ListDocModel PropSpec FlowModel FlowSpec FlowFacts FlowRefuted.

(** The snapshot has one element for each paragraph, in order; each says where the
    paragraph starts, its length, its text and its formats, the format of the paragraph
    and the marker of its list item. *)
Theorem flow_snapshot_exact : forall L its, reach (l_doc L) -> doc_items (l_doc L) = Ok its ->
  exists ss, snapshot_flow L = Ok ss /\ map sn_id ss = d_order (l_doc L) /\ length ss = length (paragraphs its)
   /\ forall k s, nth_error ss k = Some s -> describes its k s
        /\ option_map b_fmt (get_block (l_doc L) (sn_id s)) = Some (sn_fmt s) /\ block_marker L (sn_id s) = Ok (sn_marker s).
Proof. exact flow_theorem. Qed.
Print Assumptions flow_snapshot_exact.
(** Its texts, a line feed between them, are the plain text of the document. *)
Theorem flow_snapshot_text : forall L, reach (l_doc L) ->
  exists ss, snapshot_flow L = Ok ss /\ export_plain_text (l_doc L) = Ok (joined (map sn_text ss)).
Proof. exact flow_text_theorem. Qed.
Print Assumptions flow_snapshot_text.
Example flow_snapshot_case : reach (l_doc two) /\ exists ss, snapshot_flow two = Ok ss /\ map sn_pos ss = [0; 6] /\ map sn_len ss = [5; 2].
Proof. split; [exact two_reach|]. eexists. split; [vm_compute; reflexivity|]. split; reflexivity. Qed.

(** The snapshot for a position is the one in the flow snapshot of the paragraph with as
    many breaks before it as the position; past the end, of the last paragraph. *)
Theorem snapshot_at_exact : forall L its p, reach (l_doc L) -> doc_items (l_doc L) = Ok its ->
  exists ss s, snapshot_flow L = Ok ss /\ nth_error ss (breaks p its) = Some s /\ snapshot_block_at_position L p = Ok (Some s).
Proof. exact snapshot_at_theorem. Qed.
Print Assumptions snapshot_at_exact.
Example snapshot_at_case : reach (l_doc two) /\ exists s, snapshot_block_at_position two 7 = Ok (Some s) /\ sn_pos s = 6.
Proof. split; [exact two_reach|]. eexists. split; [vm_compute; reflexivity|reflexivity]. Qed.
(** Refuted: it need not be the paragraph that [block_at_position] gives (at the end of a
    paragraph with text). *)
Theorem snapshot_at_refuted : exists L p s i a n k, reach (l_doc L) /\ snapshot_block_at_position L p = Ok (Some s)
  /\ block_at_position (l_doc L) (Z.of_nat p) = Ok (i, a, n, k) /\ sn_id s <> i.
Proof. exact snapshot_at_refuted_w. Qed.
Print Assumptions snapshot_at_refuted.

(** All paragraphs, and the paragraph with a number. *)
Theorem blocks_listed : forall d k, reach d -> blocks d = Ok (d_order d) /\ block_by_number d k = Ok (nth_error (d_order d) k).
Proof. exact blocks_theorem. Qed.
Print Assumptions blocks_listed.
Example blocks_listed_case : reach gap /\ length (d_order gap) = 3 /\ block_by_number gap 3 = Ok None.
Proof. split; [exact gap_reach|]. split; vm_compute; reflexivity. Qed.

(** The paragraphs in a range, in order: those with a character in it and the empty ones
    inside; with an empty range, the one with the character at the position. *)
Theorem blocks_in_range_partial : forall d its p n, reach d -> doc_items d = Ok its ->
  exists f, blocks_in_range d p n = Ok (filter f (d_order d))
   /\ forall k i para, nth_error (d_order d) k = Some i -> nth_error (paragraphs its) k = Some para ->
        (f i = true <-> if n =? 0 then para_start k its <= p < para_start k its + length para
                        else para_start k its < p + n /\ p < para_start k its + length para).
Proof. exact range_theorem. Qed.
Print Assumptions blocks_in_range_partial.
Example blocks_in_range_case : reach gap /\ doc_items gap = Ok gap_items /\ blocks_in_range gap 0 4 = Ok (d_order gap) /\ exists i, blocks_in_range gap 3 0 = Ok [i].
Proof. split; [exact gap_reach|]. split; [exact gap_read|]. split; [vm_compute; reflexivity|]. eexists. vm_compute. reflexivity. Qed.
(** Refuted: an empty range gives no paragraph although one contains the position. *)
Theorem blocks_in_range_point_refuted : exists d its p i a n k, reach d /\ doc_items d = Ok its /\ p <= length its
  /\ block_at_position d (Z.of_nat p) = Ok (i, a, n, k) /\ blocks_in_range d p 0 = Ok [].
Proof. exact range_point_refuted_w. Qed.
Print Assumptions blocks_in_range_point_refuted.
(** Refuted: an empty paragraph is in the range [1, 3) and not in [2, 3), although it is
    at 2. *)
Theorem blocks_in_range_empty_refuted : exists d its k i, reach d /\ doc_items d = Ok its /\ nth_error (d_order d) k = Some i
  /\ nth_error (paragraphs its) k = Some [] /\ para_start k its = 2
  /\ blocks_in_range d 1 2 = Ok [i] /\ blocks_in_range d 2 1 = Ok [].
Proof. exact range_empty_refuted_w. Qed.
Print Assumptions blocks_in_range_empty_refuted.
