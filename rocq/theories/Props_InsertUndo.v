(** C80: undo and redo of paragraph breaks, paragraph formats, new lists, pastes
    and inserted Markdown and HTML. *)
From Verif Require Import Base FormatRunsModel RopeModel DocModel DocSpec HistModel UndoModel SessionModel PropSpec QuerySpec DocTheorems DocRefuted FragmentRefuted ListModel ListDocModel
  FragmentModel FragmentSpec ImportModel MdInsertModel MdInsertSpec MdInsertRefuted HtmlInsertModel HtmlInsertSpec RichModel RichSpec RichFacts RichTheorems
  InsertUndoSpec InsertUndoFacts InsertUndoWalk InsertUndoRefuted.

(** Any number of paragraph breaks, paragraph formats, new lists, pastes and
    insertions of Markdown and HTML, one after another: all succeed and give the text they should, with right positions. As many undos
    give back the document there was, with its lists; as many redos give the
    same text again, with right positions, and paragraphs in lists of the same
    style and indent, with the same formats; the counts are the same. Left out:
    documents with stale positions; Markdown and HTML in the paragraph before an
    empty last one; pastes that leave stale positions or a wrong count (C51). *)
Theorem insertions_undo_redo_partial : forall L m its cs,
  idle m -> tidy (l_doc L) -> lists_numbered L -> lists_exist L -> doc_items (l_doc L) = Ok its -> all_insert cs its ->
  let n := length cs in
  exists s1 s2 s3, r_run (L, m) cs = Ok (s1, repeat true n)
   /\ doc_items (l_doc (fst s1)) = Ok (after_insertions cs its) /\ fresh_positions (l_doc (fst s1))
   /\ r_run s1 (repeat RUndo n) = Ok (s2, repeat true n) /\ same_rich (fst s2) L
   /\ r_run s2 (repeat RRedo n) = Ok (s3, repeat true n)
   /\ doc_items (l_doc (fst s3)) = Ok (after_insertions cs its) /\ fresh_positions (l_doc (fst s3))
   /\ looks (fst s3) = looks (fst s1) /\ d_nblocks (l_doc (fst s3)) = d_nblocks (l_doc (fst s1))
   /\ d_chars (l_doc (fst s3)) = d_chars (l_doc (fst s1)).
Proof. exact insertions_theorem. Qed.
Print Assumptions insertions_undo_redo_partial.
Example insertions_case : idle rich_history /\ tidy two_paras /\ lists_numbered (no_lists two_paras) /\ lists_exist (no_lists two_paras)
  /\ doc_items two_paras = Ok (text_items [97; 98; 10; 99; 100]%N) /\ all_insert insertions (text_items [97; 98; 10; 99; 100]%N)
  /\ plain (after_insertions insertions (text_items [97; 98; 10; 99; 100]%N)) = [97; 120; 10; 121; 10; 98; 10; 122; 10; 99; 10; 100; 10; 49; 10; 50]%N
  /\ exists s1, r_run (no_lists two_paras, rich_history) insertions = Ok (s1, repeat true 6)
     /\ looks (fst s1) = [Some (Some (Some (Disc, 0)), bfmt_default); Some (Some (Some (Disc, 0)), bfmt_default); Some (None, bfmt_default);
                          Some (None, heading_only (Some 1%Z)); Some (None, bfmt_default); Some (None, apply_bfmt center_req bfmt_default);
                          Some (None, apply_bfmt center_req bfmt_default); Some (None, apply_bfmt center_req bfmt_default)].
Proof.
  split; [exact rich_history_idle|]. split; [apply two_paras_tidy|]. split; [easy|]. split; [apply no_lists_exist|].
  split; [vm_compute; reflexivity|]. split.
  - cbn [all_insert insertions]. split; [|split; [|split; [split; [reflexivity|vm_compute; lia]|split; [exact I|split; [exact I|split; [|exact I]]]]]].
    + split; [reflexivity|]. split; [vm_compute; lia|]. right. intros (u & H & _). apply (f_equal (@rev _)) in H. rewrite rev_app_distr in H. vm_compute in H. discriminate.
    + split; [reflexivity|]. split; [vm_compute; lia|]. right. intros (u & H & _). apply (f_equal (@rev _)) in H. rewrite rev_app_distr in H. vm_compute in H. discriminate.
    + split; [reflexivity|]. split; [vm_compute; lia|]. eexists. split; [reflexivity|]. split; [discriminate|].
      split; [repeat constructor; vm_compute; easy|]. split; vm_compute; reflexivity.
  - split; [vm_compute; reflexivity|]. eexists. split; [vm_compute; reflexivity|]. vm_compute. reflexivity.
Qed.

(** After the insertions, any walk of undos and redos among them succeeds. Where
    it ends with [j] insertions done, there are the text, positions, looks and
    counts there were after those [j] insertions; with none done, the document
    there was. *)
Theorem insertions_walk_partial : forall L m its cs w j,
  idle m -> tidy (l_doc L) -> lists_numbered L -> lists_exist L -> doc_items (l_doc L) = Ok its -> all_insert cs its ->
  walks (length cs) (length cs) w = Some j ->
  let now_ := firstn j cs in
  exists s s0 s', r_run (L, m) cs = Ok (s, repeat true (length cs)) /\ r_run (L, m) now_ = Ok (s0, repeat true (length now_))
   /\ r_run s w = Ok (s', repeat true (length w))
   /\ doc_items (l_doc (fst s')) = Ok (after_insertions now_ its) /\ fresh_positions (l_doc (fst s'))
   /\ looks (fst s') = looks (fst s0) /\ d_nblocks (l_doc (fst s')) = d_nblocks (l_doc (fst s0))
   /\ d_chars (l_doc (fst s')) = d_chars (l_doc (fst s0))
   /\ (j = 0 -> same_rich (fst s') L).
Proof. exact walk_theorem. Qed.
Print Assumptions insertions_walk_partial.
Example insertions_walk_case : walks (length insertions) (length insertions) (repeat RUndo 6 ++ repeat RRedo 6 ++ repeat RUndo 5) = Some 1
  /\ exists s s', r_run (no_lists two_paras, rich_history) insertions = Ok (s, repeat true 6)
     /\ r_run s (repeat RUndo 6 ++ repeat RRedo 6 ++ repeat RUndo 5) = Ok (s', repeat true 17)
     /\ export_plain_text (l_doc (fst s')) = Ok [97; 120; 10; 121; 10; 98; 10; 99; 100]%N.
Proof.
  split; [reflexivity|]. eexists _, _. split; [vm_compute; reflexivity|]. split; [vm_compute; reflexivity|]. vm_compute. reflexivity.
Qed.

(** Insert a list, change its style, undo both, redo both: the second redo
    fails, because the list has a new number; it fails for ever, and the style
    is lost. *)
Theorem redo_inserted_list_refuted : exists L s1 s2, tidy (l_doc L) /\ lists_numbered L /\ lists_exist L
  /\ r_run (L, rich_history) [RMarkdown 1 1 [PBlock (item_block [121%N])]; RListFormat 1%N numbered_req] = Ok (s1, [true; true])
  /\ r_run s1 [RUndo; RUndo; RRedo; RRedo] = Ok (s2, [true; true; true; false])
  /\ all_markers (fst s2) <> all_markers (fst s1)
  /\ (forall n, r_run s2 (repeat RRedo n) = Ok (s2, repeat false n)).
Proof. exact redo_inserted_list_w. Qed.
Print Assumptions redo_inserted_list_refuted.
