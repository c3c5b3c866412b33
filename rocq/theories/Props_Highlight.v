(** C20, C21, C46: highlighting, and which paragraphs an edit touches. *)
From Verif Require Import Base FormatRunsModel RopeModel DocModel DocSpec HistModel HistSpec QueryModel QuerySpec PropSpec DocRefuted
  HighlightModel HighlightSpec HighlightFacts HighlightRerun HighlightTheorems.

(** ** C20: the overlay *)
(** Whatever the spans, the fragments shown hold the same characters and images,
    in order, at the same offsets; each attribute of each of them is what the
    last span over it asks for, or else the stored one. *)
Theorem overlay_exact : forall xs spans, Forall measured xs ->
  exists out, merge_highlight_spans xs spans = Ok out /\ Forall measured out
    /\ Forall2 (overlaid spans) (flat_map places xs) (flat_map places out).
Proof. exact merge_ok. Qed.
Print Assumptions overlay_exact.
Example overlay_exact_case :
  let f := to_text_format cfmt_default in
  Forall measured [SText [97; 98; 99]%N f 0 3 7%N]
  /\ exists out, merge_highlight_spans [SText [97; 98; 99]%N f 0 3 7%N] [mk_hspan 1 1 italic_span] = Ok out /\ length out = 3.
Proof. split; [now constructor|]. eexists. split; vm_compute; reflexivity. Qed.
(** The same, of the paragraphs of every reachable document and whatever the
    highlighter has asked for; and of the format shown at an offset. *)
Theorem overlay_shown : forall U d (m : hmap U) its n i para, reach d -> doc_items d = Ok its ->
  nth_error (d_order d) n = Some i -> nth_error (paragraphs its) n = Some para ->
  exists out, shown_fragments d m i = Ok out /\ Forall measured out /\ length (flat_map places out) = length para
   /\ (forall k it, nth_error para k = Some it -> exists c f pl, it = Chr c f
         /\ nth_error (flat_map places out) k = Some pl /\ p_off pl = k /\ p_glyph pl = GChar c
         /\ overlay (spans_on m i) k (to_text_format f) (p_fmt pl))
   /\ (forall k, exists r, shown_format_at d m i k = Ok r /\
         match nth_error para k with
         | Some (Chr _ f) => exists g, r = Some g /\ overlay (spans_on m i) k (to_text_format f) g
         | _ => r = None
         end).
Proof. exact @shown_theorem. Qed.
Print Assumptions overlay_shown.
Example overlay_shown_case : reach commented /\ exists m out, rehighlight_all (comments []) commented = Ok m
  /\ shown_fragments commented m 2%N = Ok out /\ spans_on m 2%N = [mk_hspan 0 2 italic_span]
  /\ map (fun pl => x_italic (p_fmt pl)) (flat_map places out) = [Some true; Some true].
Proof. split; [apply commented_reach|]. eexists _, _. repeat (split; [vm_compute; reflexivity|]). vm_compute. reflexivity. Qed.
(** The format under the overlay is the stored one, for the sizes and
    spacings the API takes (u32, i32). *)
Theorem overlay_base : forall f, in_opt 0 (2 ^ 32) (font_point_size f) -> in_opt 0 (2 ^ 32) (font_weight f) ->
  in_opt (- 2 ^ 31) (2 ^ 31) (letter_spacing f) -> in_opt (- 2 ^ 31) (2 ^ 31) (word_spacing f) -> shown_as f (to_text_format f).
Proof. exact shown_as_theorem. Qed.
Print Assumptions overlay_base.
Example overlay_base_case : in_opt 0 (2 ^ 32) (Some 12%Z) /\ in_opt (- 2 ^ 31) (2 ^ 31) (Some (-2)%Z).
Proof. cbn. lia. Qed.
(** Highlighting stores nothing: an edit does to the document what it does
    without a highlighter. *)
Theorem overlay_stores_nothing : forall U (h : highlighter U) d m e d' m', hedit h d m e = Ok (d', m') ->
  exists q, run_edit d e = Ok (d', q).
Proof. exact @hedit_stores. Qed.
Print Assumptions overlay_stores_nothing.
Example overlay_stores_nothing_case : exists m d' m', rehighlight_all (comments []) commented = Ok m
  /\ hedit (comments []) commented m (EInsert 1 1 [120]%N) = Ok (d', m').
Proof. eexists _, _, _. split; vm_compute; reflexivity. Qed.

(** ** C21: highlighting again *)
(** A full pass gives every paragraph what the highlighter asks for, told the
    state of the paragraph before. *)
Theorem full_pass : forall U (h : highlighter U) d, reach d ->
  exists m, rehighlight_all h d = Ok m /\ highlighted h d m.
Proof. exact @pass_theorem. Qed.
Print Assumptions full_pass.
Example full_pass_case : reach typed_first /\ exists m x, rehighlight_all (comments [SetState 0]) typed_first = Ok m
  /\ m 3%N = Some x /\ hd_state x = 0%Z.
Proof. split; [apply typed_first_reach|]. eexists _, _. repeat (split; [vm_compute; reflexivity|]). vm_compute. reflexivity. Qed.
(** After any history of edits, formatting and list changes, undo and redo the
    document is highlighted as a full pass would do it.
    Missing: a paragraph split while the highlighter leaves some paragraph in the
    default state -1. *)
Theorem rerun_partial : forall U (h : highlighter U) d ss, reach d -> steady h ->
  (marks h \/ Forall no_split ss) -> Forall hstep_ok ss ->
  exists m0 d' m', rehighlight_all h d = Ok m0 /\ run_hsteps h (d, m0) ss = Ok (d', m') /\ highlighted h d' m'.
Proof. exact @rerun_theorem. Qed.
Print Assumptions rerun_partial.
Example rerun_partial_case :
  steady (comments [SetState 0]) /\ marks (comments [SetState 0]) /\ reach commented
  /\ exists m d' m', rehighlight_all (comments [SetState 0]) commented = Ok m
  /\ option_map hd_state (m 3%N) = Some 1%Z
  /\ run_hsteps (comments [SetState 0]) (commented, m) [HEdit (EBreak 1 1); HEdit (EInsert 0 0 [122]%N)] = Ok (d', m')
  /\ option_map hd_state (m' 3%N) = Some 0%Z.
Proof.
  split; [apply comments_steady|]. split; [apply comments_marks|]. split; [apply commented_reach|].
  eexists _, _, _. repeat (split; [vm_compute; reflexivity|]). vm_compute. reflexivity.
Qed.
(** Refuted: breaking "/*" in two leaves the next paragraph highlighted as a
    comment, because the new paragraph's state -1 looks unchanged. *)
Theorem rerun_refuted : exists (h : highlighter unit) d m d' m', steady h /\ reach d /\ rehighlight_all h d = Ok m
  /\ run_hstep h (d, m) (HEdit (EBreak 1 1)) = Ok (d', m') /\ ~ highlighted h d' m'.
Proof.
  exists (comments []), commented. destruct rerun_refuted_w as (m & d' & m' & H). exists m, d', m'.
  split; [apply comments_steady|]. split; [apply commented_reach|exact H].
Qed.
Print Assumptions rerun_refuted.

(** ** C46: paragraph handles across an edit *)
(** An edit touches the paragraph it starts in, which keeps its handle, and the
    following ones its range reaches, which lose theirs; the paragraphs before
    and after keep handle and text. A break adds one paragraph after the first,
    with a handle not in use. *)
Theorem edit_keeps_handles : forall d e, reach d -> edit_ok e ->
  exists d' q pre b t olds post t' news, run_edit d e = Ok (d', q)
    /\ doc_texts d = Ok (pre ++ (b, t) :: olds ++ post) /\ doc_texts d' = Ok (pre ++ (b, t') :: news ++ post)
    /\ chars_before pre <= fst (edit_range e)
    /\ (fst (edit_range e) <= chars_before pre + Nat.max (length t) (length t') \/ post = [])
    /\ match e with
       | EBreak _ _ => exists i t2, news = [(i, t2)] /\ get_block d i = None
       | _ => news = []
       end.
Proof. exact identity_theorem. Qed.
Print Assumptions edit_keeps_handles.
Example edit_keeps_handles_case : reach typed_first /\ doc_texts typed_first = Ok [(2, [88; 89; 90; 97; 98]); (3, [99; 100])]%N
  /\ exists d' q, run_edit typed_first (EBreak 2 7) = Ok (d', q) /\ doc_texts d' = Ok [(2, [88; 89]); (4, [100])]%N.
Proof. split; [apply typed_first_reach|]. split; [vm_compute; reflexivity|]. eexists _, _. split; vm_compute; reflexivity. Qed.
