(** C14, C24, C25, C39: cursors and change reports. *)
From Verif Require Import Base FormatRunsModel RopeModel DocModel DocSpec HistModel HistSpec QueryModel QuerySpec PropSpec
  DocTheorems QueryTheorems DocRefuted DiffModel DiffSpec DiffFacts CursorModel CursorSpec CursorFacts CursorTheorems CursorRefuted.

(** C14. An edit through one cursor carries every other cursor: what is before a
    cursor before the edit, and what is after a cursor after the edit, stays; a
    cursor inside the replaced text goes to the end of the new text; cursors keep
    their order; the reported change is the change made. *)
Theorem cursors_follow : forall d its cs k c ce,
  reach d -> doc_items d = Ok its -> nth_error cs k = Some c -> in_range its c -> cedit_ok ce ->
  exists d' its' cs' rep, cursor_edit_step d cs k ce = Ok (d', cs', rep) /\ doc_items d' = Ok its'
   /\ describes its its' (sel_start c) (sel_len c) (cedit_len ce)
   /\ (rep = match ce with KRemove => if sel_len c =? 0 then None else Some (sel_start c, sel_len c, 0)
             | _ => Some (sel_start c, sel_len c, cedit_len ce) end)
   /\ length cs' = length cs
   /\ nth_error cs' k = Some (mk_cursor (sel_start c + cedit_len ce) (sel_start c + cedit_len ce))
   /\ (forall j x, j <> k -> nth_error cs j = Some x -> exists x', nth_error cs' j = Some x'
        /\ carried its its' (sel_start c) (sel_len c) (cedit_len ce) (c_pos x) (c_pos x')
        /\ carried its its' (sel_start c) (sel_len c) (cedit_len ce) (c_anchor x) (c_anchor x')
        /\ (in_range its x -> in_range its' x'))
   /\ (forall j1 j2 x1 x2 y1 y2, j1 <> k -> j2 <> k ->
        nth_error cs j1 = Some x1 -> nth_error cs j2 = Some x2 -> nth_error cs' j1 = Some y1 -> nth_error cs' j2 = Some y2 ->
        c_pos x1 <= c_pos x2 -> c_pos y1 <= c_pos y2).
Proof. exact follow_theorem. Qed.
Print Assumptions cursors_follow.
Example cursors_follow_case :
  reach accented /\ Forall (in_range accented_items) three_cursors
  /\ exists d rep, cursor_edit_step accented three_cursors 0 (KInsert [120; 121; 122]%N)
     = Ok (d, [mk_cursor 4 4; mk_cursor 4 4; mk_cursor 6 5], rep).
Proof.
  split; [apply reach_import, reach_new|]. split; [repeat constructor; cbn; lia|].
  eexists (match run_edit accented (EInsert 1 3 [120; 121; 122]%N) with Ok (d, _) => d | _ => new_document end), _.
  vm_compute. reflexivity.
Qed.

(** C14, C39. However cursors are created, moved, made to select and to edit,
    they stay inside the document and nothing fails. Missing: the import of a new
    text under live cursors, and creating a cursor beyond the end. *)
Theorem cursors_in_range_partial : forall G os d cs its,
  segmentation G -> counted d -> doc_items d = Ok its -> Forall (in_range its) cs -> Forall op_local os ->
  exists d' cs' its', csteps G (d, cs) os = Ok (d', cs') /\ counted d' /\ doc_items d' = Ok its' /\ Forall (in_range its') cs'.
Proof. exact session_theorem. Qed.
Print Assumptions cursors_in_range_partial.
Example cursors_in_range_case :
  segmentation marks /\ counted accented /\ doc_items accented = Ok accented_items /\ Forall (in_range accented_items) three_cursors
  /\ Forall op_local [OpNew 0; OpMove 3 MNext true 2; OpEdit 3 (KInsert [120%N]); OpSet 0 7 false; OpSelectBlock 1; OpEdit 1 KRemove; OpMove 0 MPrev false 3].
Proof.
  split; [apply marks_segmentation|]. split; [apply accented_counted|]. split; [apply accented_doc_items|].
  split; repeat constructor; cbn; lia.
Qed.
Theorem cursors_import_refuted :
  exists d cs its, counted d /\ csteps marks (two_paras, [mk_cursor 5 5]) [OpImport [97%N]] = Ok (d, cs)
   /\ doc_items d = Ok its /\ ~ Forall (in_range its) cs.
Proof. exact cursors_import_refuted_w. Qed.
Print Assumptions cursors_import_refuted.
Theorem cursor_at_refuted :
  exists cs its, csteps marks (two_paras, []) [OpNew 9] = Ok (two_paras, cs)
   /\ doc_items two_paras = Ok its /\ ~ Forall (in_range its) cs.
Proof. exact cursor_at_refuted_w. Qed.
Print Assumptions cursor_at_refuted.

(** C39. The stops of a document: from 0 to its end, strictly increasing. *)
Theorem stops_increase : forall G its, segmentation G ->
  forall i j p q, nth_error (stops G its) i = Some p -> nth_error (stops G its) j = Some q -> i < j -> p < q.
Proof. exact stops_sorted. Qed.
Print Assumptions stops_increase.
Theorem stops_cover : forall G its, segmentation G ->
  nth_error (stops G its) 0 = Some 0 /\ nth_error (stops G its) (length (stops G its) - 1) = Some (length its).
Proof. exact stops_range. Qed.
Print Assumptions stops_cover.
(** C39. Moving by [n] characters from a stop goes [n] stops further, as far as
    the document goes; one step forward and one back return. Missing: the Unicode
    tables (any segmentation meeting [segmentation] will do), and documents never
    imported. *)
Theorem move_next_partial : forall G d its n i p,
  segmentation G -> counted d -> doc_items d = Ok its -> nth_error (stops G its) i = Some p ->
  exists q, nth_error (stops G its) (Nat.min (i + n) (length (stops G its) - 1)) = Some q /\ resolve_move G d p MNext n = Ok q.
Proof. exact move_next_theorem. Qed.
Print Assumptions move_next_partial.
Theorem move_previous_partial : forall G d its n i p,
  segmentation G -> counted d -> doc_items d = Ok its -> nth_error (stops G its) i = Some p ->
  exists q, nth_error (stops G its) (i - n) = Some q /\ resolve_move G d p MPrev n = Ok q.
Proof. exact move_prev_theorem. Qed.
Print Assumptions move_previous_partial.
Theorem move_round_trip_partial : forall G d its i p q,
  segmentation G -> counted d -> doc_items d = Ok its ->
  nth_error (stops G its) i = Some p -> nth_error (stops G its) (S i) = Some q ->
  p < q /\ next_grapheme G d p = Ok q /\ prev_grapheme G d q = Ok p.
Proof. exact round_theorem. Qed.
Print Assumptions move_round_trip_partial.
(** C39. A cursor is placed on the first stop not before the requested position. *)
Theorem set_position_partial : forall G d its c p keep,
  segmentation G -> counted d -> doc_items d = Ok its ->
  exists q, set_position G d c p keep
            = Ok (mk_cursor q (if keep && negb (c_anchor c =? Nat.min p (length its)) then c_anchor c else q))
   /\ In q (stops G its) /\ Nat.min p (length its) <= q <= length its
   /\ (forall q', In q' (stops G its) -> Nat.min p (length its) <= q' -> q <= q').
Proof. exact set_position_theorem. Qed.
Print Assumptions set_position_partial.
(** C39. The start and the end of the paragraph that owns the position. *)
Theorem block_moves : forall G d its p n, reach d -> doc_items d = Ok its -> p <= length its ->
  exists para, nth_error (paragraphs its) (owner its p) = Some para
   /\ resolve_move G d p MBlockStart n = Ok (para_start (owner its p) its)
   /\ resolve_move G d p MBlockEnd n = Ok (para_start (owner its p) its + length para).
Proof. exact block_moves_theorem. Qed.
Print Assumptions block_moves.
Example movement_case :
  segmentation marks /\ counted accented /\ doc_items accented = Ok accented_items
  /\ stops marks accented_items = [0; 2; 3; 4; 5]
  /\ resolve_move marks accented 0 MNext 1 = Ok 2 /\ resolve_move marks accented 4 MPrev 2 = Ok 2
  /\ set_position marks accented (mk_cursor 0 0) 1 false = Ok (mk_cursor 2 2).
Proof.
  split; [apply marks_segmentation|]. split; [apply accented_counted|]. split; [apply accented_doc_items|].
  split; [apply accented_stops|]. vm_compute. auto.
Qed.
(** From the end of a paragraph, "start of the paragraph" goes forward. *)
Theorem block_start_refuted :
  exists its p q, counted two_paras /\ doc_items two_paras = Ok its /\ nth_error its p = Some Brk
   /\ resolve_move marks two_paras p MBlockStart 1 = Ok q /\ p < q.
Proof. exact block_start_refuted_w. Qed.
Print Assumptions block_start_refuted.
(** C39. Next and previous paragraph, from the one that owns the position. From
    the last paragraph the move is stopped at the end of the document. Missing:
    "previous" over two empty paragraphs in a row (refuted below). *)
Theorem block_steps_partial : forall G d its p n, reach d -> doc_items d = Ok its -> p <= length its ->
  (S (owner its p) < length (paragraphs its) -> resolve_move G d p MNextBlock n = Ok (para_start (S (owner its p)) its))
  /\ (S (owner its p) = length (paragraphs its) -> resolve_move G d p MNextBlock n = Ok (length its + 1))
  /\ (owner its p = 0 -> resolve_move G d p MPrevBlock n = Ok 0)
  /\ (forall k, owner its p = S k ->
        (nth_error (paragraphs its) k <> Some [] \/ k = 0 \/ nth_error (paragraphs its) (k - 1) <> Some []) ->
        resolve_move G d p MPrevBlock n = Ok (para_start k its)).
Proof. exact block_steps_theorem. Qed.
Print Assumptions block_steps_partial.
Example block_steps_case :
  reach accented /\ owner accented_items 1 = 0 /\ owner accented_items 5 = 1
  /\ resolve_move marks accented 1 MNextBlock 1 = Ok 4 /\ resolve_move marks accented 5 MPrevBlock 1 = Ok 0.
Proof. split; [repeat constructor|]. vm_compute. auto. Qed.
Theorem previous_block_refuted :
  exists d its, counted d /\ doc_items d = Ok its /\ owner its 4 = 3
   /\ resolve_move marks d 4 MPrevBlock 1 = Ok (para_start 1 its) /\ para_start 1 its < para_start 2 its.
Proof. exact previous_block_refuted_w. Qed.
Print Assumptions previous_block_refuted.
(** In a document never imported, the last position cannot be reached. *)
Theorem movement_new_refuted :
  exists es d its, Forall edit_ok es /\ run_edits new_document es = Ok d /\ doc_items d = Ok its
   /\ In 2 (stops marks its) /\ In 3 (stops marks its) /\ next_grapheme marks d 2 = Ok 2.
Proof. exact movement_new_refuted_w. Qed.
Print Assumptions movement_new_refuted.

(** C24. The difference computed after undo and redo to move the cursors. *)
Theorem text_difference : forall before after,
  let '(p, r, a) := compute_text_edit N.eqb before after in describes before after p r a.
Proof. exact text_edit_theorem. Qed.
Print Assumptions text_difference.
Example text_difference_case : compute_text_edit N.eqb [97; 97; 97]%N [97; 97; 97; 97]%N = (3, 0, 1).
Proof. reflexivity. Qed.
(** C24. The event sent after undo and redo, when no paragraph is added or
    removed. Missing: paragraphs added or removed. *)
Theorem undo_report_partial : forall F (before after : list (bstate F)),
  NoDup (map bs_id before) -> map bs_id after = map bs_id before -> placed 0 before -> placed 0 after ->
  match undo_event before after with
  | None => build_doc_text before = build_doc_text after
  | Some (p, r, a, _) => describes (build_doc_text before) (build_doc_text after) p r a
  end.
Proof. exact (@undo_event_facts). Qed.
Print Assumptions undo_report_partial.
Example undo_report_case :
  let before := [mk_bstate 2%N 0 [97]%N tt; mk_bstate 3%N 2 [98; 98]%N tt; mk_bstate 4%N 5 []%N tt] in
  let after := [mk_bstate 2%N 0 [97]%N tt; mk_bstate 3%N 2 [98]%N tt; mk_bstate 4%N 4 []%N tt] in
  placed 0 before /\ placed 0 after /\ undo_event before after = Some (2, 2, 1, 1).
Proof. cbv zeta. cbn. auto 10. Qed.
Theorem undo_report_refuted :
  exists before after : list (bstate unit), NoDup (map bs_id before) /\ NoDup (map bs_id after) /\ placed 0 before /\ placed 0 after
   /\ exists p r a n, undo_event before after = Some (p, r, a, n) /\ ~ describes (build_doc_text before) (build_doc_text after) p r a.
Proof. exact undo_event_refuted_w. Qed.
Print Assumptions undo_report_refuted.

(** C25. A listener that applies the flow events to its copy of the list of
    elements has the new list; no events are sent exactly when nothing changed. *)
Theorem flow_difference : forall old new : list N,
  fold_left (apply_flow new) (flow_events N.eqb old new) old = new
  /\ (flow_events N.eqb old new = [] <-> old = new).
Proof. exact flow_theorem. Qed.
Print Assumptions flow_difference.
(** C25. After a break or a removal the listener is in sync. Missing: the
    insertions, which send no flow events. *)
Theorem flow_reports_partial : forall d e copy, reach d -> edit_ok e -> checks_flow e = true -> copy = d_order d ->
  exists d' evs, flow_step d copy e = Ok (d', d_order d', evs) /\ fold_left (apply_flow (d_order d')) evs copy = d_order d'.
Proof. exact flow_step_theorem. Qed.
Print Assumptions flow_reports_partial.
Example flow_reports_case :
  reach two_paras /\ checks_flow (EBreak 1 1) = true
  /\ exists d', flow_step two_paras (d_order two_paras) (EBreak 1 1) = Ok (d', [2; 4; 3]%N, [FlowInserted 1 1]).
Proof.
  split; [apply two_paras_reach|]. split; [reflexivity|].
  exists (match run_edit two_paras (EBreak 1 1) with Ok (d, _) => d | _ => new_document end). vm_compute. reflexivity.
Qed.
Theorem flow_reports_refuted :
  exists d' last evs, reach two_paras /\ flow_step two_paras (d_order two_paras) (EInsert 1 4 [120%N]) = Ok (d', last, evs)
   /\ fold_left (apply_flow (d_order d')) evs (d_order two_paras) <> d_order d'.
Proof. exact flow_insert_refuted_w. Qed.
Print Assumptions flow_reports_refuted.
