(** C50-C53: copy and paste. *)
From Verif Require Import Base FormatRunsModel FormatRunsSpec RopeModel DocModel DocSpec HistModel QueryModel QuerySpec
  PropSpec DocTheorems QueryTheorems DocRefuted ListModel ListDocModel ListDocSpec FragmentModel FragmentText FragmentSpec
  FragmentCopySpec FragmentTheorems FragmentRefuted.

(** ** C50: copying *)

(** The selection, whatever its direction, is copied with the formats of its
    characters, paragraph by paragraph, and so is its plain text; the document
    is one whose stored positions are right, and a break at the very end of the
    selection is left out. *)
Theorem copy_selection_partial : forall L its p a, tidy (l_doc L) -> doc_items (l_doc L) = Ok its ->
  let n := Nat.min p a in let m := Nat.max p a in n < m -> n <= length its ->
  exists fbs, selection L p a = Ok (mk_dfrag (Some fbs) (plain (between n (copied_end m its) its)))
   /\ Forall text_only fbs
   /\ map fb_items fbs = paragraphs (between n (copied_end m its) its)
   /\ fragment_items fbs = between n (copied_end m its) its.
Proof. exact copy_theorem. Qed.
Print Assumptions copy_selection_partial.
Example copy_selection_example : tidy two_paras /\ doc_items two_paras = Ok (text_items [97; 98; 10; 99; 100]%N)
  /\ exists fbs, selection (no_lists two_paras) 4 1 = Ok (mk_dfrag (Some fbs) [98; 10; 99]%N).
Proof. split; [apply two_paras_tidy|]. split; [vm_compute; reflexivity|]. eexists. vm_compute. reflexivity. Qed.

(** The whole document as a fragment. *)
Theorem copy_document_partial : forall L its, tidy (l_doc L) -> doc_items (l_doc L) = Ok its -> (Z.of_nat (length its) < 2 ^ 63 - 1)%Z ->
  exists fbs, fragment_from_document L = Ok (mk_dfrag (Some fbs) (plain its))
   /\ Forall text_only fbs /\ map fb_items fbs = paragraphs its /\ fragment_items fbs = its.
Proof. exact whole_document_theorem. Qed.
Print Assumptions copy_document_partial.
Example copy_document_example : exists fbs, fragment_from_document (no_lists two_paras) = Ok (mk_dfrag (Some fbs) [97; 98; 10; 99; 100]%N).
Proof. eexists. vm_compute. reflexivity. Qed.

(** A break at the end of the selection is lost. *)
Theorem copy_break_refuted :
  exists L its fbs t, tidy (l_doc L) /\ doc_items (l_doc L) = Ok its /\ 3 <= length its
   /\ selection L 0 3 = Ok (mk_dfrag (Some fbs) t)
   /\ fragment_items fbs <> between 0 3 its /\ t <> plain (between 0 3 its).
Proof. exact copy_break_refuted_w. Qed.
Print Assumptions copy_break_refuted.

(** After typing in an earlier paragraph the wrong text is copied: nothing, for
    "cd". *)
Theorem copy_stale_refuted :
  exists L its fbs t, reach (l_doc L) /\ doc_items (l_doc L) = Ok its /\ 8 <= length its
   /\ plain (between 6 8 its) = [99; 100]%N /\ selection L 6 8 = Ok (mk_dfrag (Some fbs) t) /\ fbs = [] /\ t = [].
Proof. exact copy_stale_refuted_w. Qed.
Print Assumptions copy_stale_refuted.

(** ** C51: pasting *)

(** The paragraphs that are merged into the text around them are those without
    a list and without paragraph format. *)
Theorem merged_paragraphs : forall fb, is_inline_only fb = true <-> without_format fb.
Proof. exact inline_theorem. Qed.
Print Assumptions merged_paragraphs.
Example merged_paragraphs_case : without_format (plain_fblock [97%N]) /\ ~ without_format (centered [97%N]).
Proof.
  split; [apply merged_paragraphs; reflexivity|]. intros H. apply merged_paragraphs in H. discriminate.
Qed.

(** A fragment of text is inserted at the position (brought into the document),
    with the formats of its characters, and with the breaks [sep_before] and
    [sep_after] that keep formatted paragraphs apart. The result is again an
    edited document. Two or more paragraphs, or one with paragraph formatting,
    need the stored positions of the paragraphs to be in order. *)
Theorem paste_text_partial : forall L its fbs p, reach (l_doc L) -> doc_items (l_doc L) = Ok its ->
  fbs <> [] -> Forall text_only fbs -> single_inline fbs \/ in_order (l_doc L) ->
  exists L' np k, insert_fragment L p p (Some fbs) = Ok (L', np, k)
   /\ doc_items (l_doc L') = Ok (spec_paste (clip its p) fbs its)
   /\ reach (l_doc L') /\ ((0 <= p)%Z -> (0 <= np)%Z)
   /\ (keeps_positions fbs its (clip its p) = true -> p = Z.of_nat (clip its p) ->
       np = Z.of_nat (length (firstn (clip its p) its ++ sep_before fbs its (clip its p) ++ fragment_items fbs
                              ++ sep_after fbs its (clip its p)))).
Proof. exact paste_theorem. Qed.
Print Assumptions paste_text_partial.
Example paste_text_example : reach two_paras /\ in_order two_paras /\ Forall text_only [centered [49%N]; plain_fblock [50%N]]
  /\ keeps_positions [centered [49%N]; plain_fblock [50%N]] (text_items [97; 98; 10; 99; 100]%N) 1 = true
  /\ exists L', insert_fragment (no_lists two_paras) 1 1 (Some [centered [49%N]; plain_fblock [50%N]]) = Ok (L', 5%Z, 2%Z)
     /\ doc_items (l_doc L') = Ok (text_items [97; 10; 49; 10; 50; 98; 10; 99; 100]%N).
Proof.
  split; [apply two_paras_reach|]. split; [apply tidy_in_order, two_paras_tidy|].
  split; [repeat apply Forall_cons; try apply centered_text; try apply plain_text; constructor|].
  split; [reflexivity|]. eexists. split; vm_compute; reflexivity.
Qed.

(** With a cursor: the fragment replaces the selection; with a selection the
    stored positions do not matter. *)
Theorem paste_over_selection_partial : forall L its fbs t p a, reach (l_doc L) -> doc_items (l_doc L) = Ok its ->
  fbs <> [] -> Forall text_only fbs -> p <= length its -> a <= length its ->
  p <> a \/ single_inline fbs \/ in_order (l_doc L) ->
  let n := Nat.min p a in
  let rest := spec_delete n (Nat.max p a) its in
  exists L' r, cursor_insert_fragment L p a (mk_dfrag (Some fbs) t) = Ok (L', Some r)
   /\ doc_items (l_doc L') = Ok (spec_paste n fbs rest)
   /\ (keeps_positions fbs rest n = true ->
       r = length (firstn n its ++ sep_before fbs rest n ++ fragment_items fbs ++ sep_after fbs rest n)).
Proof. exact cursor_paste_theorem. Qed.
Print Assumptions paste_over_selection_partial.
Example paste_over_selection_example : reach typed_first
  /\ exists L', cursor_insert_fragment (no_lists typed_first) 1 6 (fragment_from_plain_text [49; 10; 50]%N) = Ok (L', Some 4)
     /\ doc_items (l_doc L') = Ok (text_items [88; 49; 10; 50; 99; 100]%N).
Proof. split; [apply typed_first_reach|]. eexists. split; vm_compute; reflexivity. Qed.

(** A plain text pasted from a fragment: exactly its characters, with its line
    feeds as paragraph breaks, and the position after them; the stored positions
    are right again. *)
Theorem paste_plain_text_partial : forall L its s p, tidy (l_doc L) -> doc_items (l_doc L) = Ok its -> p <= length its ->
  exists fbs L' k, fragment_from_plain_text s = mk_dfrag (Some fbs) s
   /\ insert_fragment L (Z.of_nat p) (Z.of_nat p) (Some fbs) = Ok (L', Z.of_nat (p + length s), k)
   /\ doc_items (l_doc L') = Ok (firstn p its ++ text_items s ++ skipn p its)
   /\ fresh_positions (l_doc L').
Proof. exact plain_fragment_theorem. Qed.
Print Assumptions paste_plain_text_partial.
Example paste_plain_text_example : tidy two_paras /\ doc_items two_paras = Ok (text_items [97; 98; 10; 99; 100]%N).
Proof. split; [apply two_paras_tidy|vm_compute; reflexivity]. Qed.

(** Pasting fails exactly when there is nothing to paste or a selection is
    given. *)
Theorem paste_errors : forall L p a fbs, reach (l_doc L) -> Forall text_only fbs ->
  single_inline fbs \/ in_order (l_doc L) \/ fbs = [] ->
  (insert_fragment L p a (Some fbs) = Err <-> p <> a \/ fbs = []) /\ insert_fragment L p a (Some fbs) <> Panic.
Proof. exact paste_error_theorem. Qed.
Print Assumptions paste_errors.
Example paste_errors_example : insert_fragment (no_lists two_paras) 1 2 (Some [centered [49%N]]) = Err.
Proof. reflexivity. Qed.

(** Stored positions that are right stay right when [keeps_positions]. *)
Theorem paste_positions_partial : forall L its fbs p L' np k, tidy (l_doc L) -> doc_items (l_doc L) = Ok its ->
  Forall text_only fbs -> keeps_positions fbs its (clip its p) = true -> insert_fragment L p p (Some fbs) = Ok (L', np, k) ->
  fresh_positions (l_doc L').
Proof. exact paste_tidy_theorem. Qed.
Print Assumptions paste_positions_partial.
Example paste_positions_example : keeps_positions [centered [49%N]] (text_items [97; 98; 10; 99; 100]%N) 2 = true
  /\ exists L' np k, insert_fragment (no_lists two_paras) 2 2 (Some [centered [49%N]]) = Ok (L', np, k).
Proof. split; [reflexivity|]. eexists _, _, _. vm_compute. reflexivity. Qed.

(** Type "XYZ" at the start of "ab", press Enter before the "b", paste two
    lines behind the "b": the text shows them there, the list of paragraphs has
    the second one behind the next paragraph. *)
Theorem paste_order_refuted :
  exists L its its' fbs L' np k, reach (l_doc L) /\ doc_items (l_doc L) = Ok its /\ Forall text_only fbs
   /\ insert_fragment L 6 6 (Some fbs) = Ok (L', np, k)
   /\ export_plain_text (l_doc L') = Ok (plain (spec_paste 6 fbs its))
   /\ doc_items (l_doc L') = Ok its' /\ plain its' <> plain (spec_paste 6 fbs its).
Proof. exact paste_order_refuted_w. Qed.
Print Assumptions paste_order_refuted.

(** A centered paragraph "1" pasted into "ab": the position returned is not the
    one behind it (4), and the stored positions are wrong. *)
Theorem paste_positions_refuted :
  exists L fbs L' np k, tidy (l_doc L) /\ Forall text_only fbs /\ insert_fragment L 1 1 (Some fbs) = Ok (L', np, k)
   /\ export_plain_text (l_doc L') = Ok [97; 10; 49; 10; 98; 10; 99; 100]%N
   /\ np = 5%Z /\ ~ fresh_positions (l_doc L').
Proof. exact paste_positions_refuted_w. Qed.
Print Assumptions paste_positions_refuted.

(** The same paste reports one new paragraph and adds two. *)
Theorem paste_added_refuted :
  exists L fbs L' np k, tidy (l_doc L) /\ Forall text_only fbs /\ insert_fragment L 1 1 (Some fbs) = Ok (L', np, k)
   /\ k = 1%Z /\ length (d_order (l_doc L')) = length (d_order (l_doc L)) + 2.
Proof. exact paste_added_refuted_w. Qed.
Print Assumptions paste_added_refuted.

(** Before some text it leaves a wrong character count: 3 for "1", "ab", "cd". *)
Theorem paste_count_refuted :
  exists L fbs L' np k, counted (l_doc L) /\ Forall text_only fbs /\ insert_fragment L 0 0 (Some fbs) = Ok (L', np, k)
   /\ export_plain_text (l_doc L') = Ok [49; 10; 97; 98; 10; 99; 100]%N /\ character_count (l_doc L') = Ok 3.
Proof. exact paste_count_refuted_w. Qed.
Print Assumptions paste_count_refuted.

(** An empty fragment over a selection: an error, and the selection is gone. *)
Theorem paste_failure_refuted :
  exists L L' its, reach (l_doc L) /\ doc_items (l_doc L) = Ok its
   /\ cursor_insert_fragment L 0 2 empty_fragment = Ok (L', None) /\ doc_items (l_doc L') <> Ok its.
Proof. exact paste_failure_refuted_w. Qed.
Print Assumptions paste_failure_refuted.

(** ** C52: copy, then paste *)

(** What is pasted is what was copied, within the same document or between two:
    the selected characters with their formats, between at most two extra
    breaks. There is no extra break before them unless the first paragraph
    copied was selected as a whole, nor after them unless the last one was. *)
Theorem copy_paste_partial : forall L its p a L2 its2 q, tidy (l_doc L) -> doc_items (l_doc L) = Ok its ->
  tidy (l_doc L2) -> doc_items (l_doc L2) = Ok its2 ->
  let n := Nat.min p a in let m := Nat.max p a in n < m -> n <= length its ->
  let c := between n (copied_end m its) its in
  exists fbs L' np k sb sa, selection L p a = Ok (mk_dfrag (Some fbs) (plain c))
   /\ insert_fragment L2 q q (Some fbs) = Ok (L', np, k)
   /\ doc_items (l_doc L') = Ok (firstn (clip its2 q) its2 ++ sb ++ c ++ sa ++ skipn (clip its2 q) its2)
   /\ (sb = [] \/ sb = [Brk]) /\ (sa = [] \/ sa = [Brk])
   /\ (~ whole_para n m its (breaks n its) -> sb = [])
   /\ (~ whole_para n m its (breaks (copied_end m its) its) -> sa = []).
Proof. exact copy_paste_theorem. Qed.
Print Assumptions copy_paste_partial.
Example copy_paste_example : tidy two_paras /\ ~ whole_para 1 4 (text_items [97; 98; 10; 99; 100]%N) 0
  /\ ~ whole_para 1 4 (text_items [97; 98; 10; 99; 100]%N) 1
  /\ whole_para 0 4 (text_items [97; 98; 10; 99; 100]%N) 0.
Proof.
  split; [apply two_paras_tidy|]. unfold whole_para. vm_compute. split; [|split]; [intros [H _]; lia|intros [_ [H|H]]; lia|]. lia.
Qed.

(** Cutting part of one paragraph and pasting it back restores the text and the
    formats of its characters. *)
Theorem cut_paste_partial : forall L its p a, tidy (l_doc L) -> doc_items (l_doc L) = Ok its ->
  let n := Nat.min p a in let m := Nat.max p a in n < m -> m <= length its ->
  ~ In Brk (between n m its) -> ~ whole_para n m its (breaks n its) ->
  exists fbs d1 L2 np k, selection L p a = Ok (mk_dfrag (Some fbs) (plain (between n m its)))
   /\ delete_text (l_doc L) (Z.of_nat p) (Z.of_nat a) = Ok (d1, Z.of_nat n, plain (between n m its))
   /\ doc_items d1 = Ok (firstn n its ++ skipn m its)
   /\ insert_fragment (mk_ldoc d1 (l_lists L) (l_next L)) (Z.of_nat n) (Z.of_nat n) (Some fbs) = Ok (L2, np, k)
   /\ doc_items (l_doc L2) = Ok its.
Proof. exact cut_paste_theorem. Qed.
Print Assumptions cut_paste_partial.
Example cut_paste_example : let its := text_items [97; 98; 10; 99; 100]%N in
  ~ In Brk (between 0 1 its) /\ ~ whole_para 0 1 its (breaks 0 its).
Proof. split; [intros [H|[]]; discriminate|]. unfold whole_para. vm_compute. intros [_ [H|[_ H]]]; lia. Qed.

(** ** C53: paragraph formats and lists in copy and paste *)

(** Paragraph [k] of a copy has the format and the list of the paragraph it
    comes from when that one was selected as a whole, and none otherwise. *)
Theorem copy_formats_partial : forall L its p a fbs t k fb, tidy (l_doc L) -> doc_items (l_doc L) = Ok its ->
  let n := Nat.min p a in let m := Nat.max p a in n <= length its ->
  selection L p a = Ok (mk_dfrag (Some fbs) t) -> nth_error fbs k = Some fb ->
  exists li f, nth_error (para_attrs (l_doc L)) (breaks n its + k) = Some (Some (li, f))
   /\ (whole_para n m its (breaks n its + k) ->
       fb_fmt fb = f /\ fb_list fb = match li with Some l => get_list L l | None => None end)
   /\ (~ whole_para n m its (breaks n its + k) -> fb_fmt fb = bfmt_default /\ fb_list fb = None).
Proof. exact copy_formats_theorem. Qed.
Print Assumptions copy_formats_partial.
Example copy_formats_example : tidy centered_first /\ exists fb t,
  selection (no_lists centered_first) 0 3 = Ok (mk_dfrag (Some [fb]) t) /\ fb_fmt fb = apply_bfmt center_req bfmt_default.
Proof. split; [apply centered_first_tidy|]. eexists _, _. split; vm_compute; reflexivity. Qed.

(** The paragraphs a paste leaves: those before and after stay as they are; the
    fragment's paragraphs with paragraph formatting, and those inside it, have
    their own format and join lists of the same style and indent; the parts of
    the paragraph that is split keep its list and format, except that the part
    behind a paragraph pasted at its start gets none. No list changes. *)
Theorem paste_attrs_partial : forall L its fbs p, reach (l_doc L) -> lists_numbered L -> doc_items (l_doc L) = Ok its ->
  fbs <> [] -> Forall text_only fbs -> single_inline fbs \/ in_order (l_doc L) ->
  let n := clip its p in let k := breaks n its in let before := para_attrs (l_doc L) in
  exists L' np added cur own, insert_fragment L p p (Some fbs) = Ok (L', np, added)
   /\ nth_error before k = Some (Some cur)
   /\ para_attrs (l_doc L') = firstn k before ++ map Some (paste_attrs fbs its n cur own) ++ skipn (S k) before
   /\ map snd own = map fb_fmt (own_format fbs)
   /\ Forall2 (joins L') (map fb_list (own_format fbs)) (map fst own)
   /\ more_lists L L' /\ lists_numbered L'.
Proof. exact paste_attrs_theorem. Qed.
Print Assumptions paste_attrs_partial.
Example paste_attrs_example : reach two_paras /\ lists_numbered (no_lists two_paras) /\ in_order two_paras
  /\ own_format [centered [49%N]; plain_fblock [50%N]; plain_fblock [51%N]] = [centered [49%N]; plain_fblock [50%N]].
Proof. split; [apply two_paras_reach|]. split; [intros l _; reflexivity|]. split; [apply tidy_in_order, two_paras_tidy|reflexivity]. Qed.

(** A centered paragraph that gets a centered one pasted before it at its start
    is not centered any more. *)
Theorem paste_format_refuted :
  exists L fbs L' np k, tidy (l_doc L) /\ Forall text_only fbs /\ insert_fragment L 0 0 (Some fbs) = Ok (L', np, k)
   /\ nth_error (para_attrs (l_doc L)) 0 = Some (Some (None, apply_bfmt center_req bfmt_default))
   /\ export_plain_text (l_doc L') = Ok [49; 10; 97; 98; 10; 99; 100]%N
   /\ nth_error (para_attrs (l_doc L')) 1 = Some (Some (None, bfmt_default)).
Proof. exact paste_format_refuted_w. Qed.
Print Assumptions paste_format_refuted.

(** Tab positions do not count as paragraph formatting and are lost. *)
Theorem paste_tabs_refuted :
  exists L fb L' np k, tidy (l_doc L) /\ text_only fb /\ fb_fmt fb <> bfmt_default
   /\ insert_fragment L 0 0 (Some [fb]) = Ok (L', np, k) /\ para_attrs (l_doc L') = para_attrs (l_doc L).
Proof. exact paste_tabs_refuted_w. Qed.
Print Assumptions paste_tabs_refuted.

(** Items of two lists that differ in their prefix only end up in one. *)
Theorem paste_list_refuted :
  exists L fbs L' np k i f a b, tidy (l_doc L) /\ lists_numbered L /\ Forall text_only fbs
   /\ insert_fragment L 0 0 (Some fbs) = Ok (L', np, k)
   /\ nth_error (map fb_list fbs) 1 = Some (Some a) /\ nth_error (para_attrs (l_doc L')) 1 = Some (Some (Some i, f))
   /\ get_list L' i = Some b /\ l_prefix a = [41%N] /\ l_prefix b = [40%N].
Proof. exact paste_list_refuted_w. Qed.
Print Assumptions paste_list_refuted.
