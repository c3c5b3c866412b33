(** Undo and redo of lists, pastes, images and replacements: theorems only.
    Programs: RichModel.v, UndoModel.v; what the words mean: RichSpec.v,
    PropSpec.v, FragmentSpec.v. *)
From Verif Require Import Base FormatRunsModel RopeModel DocModel DocSpec HistModel HistSpec UndoModel SessionModel SearchModel PropSpec
  DocRefuted ListModel ListDocModel ListDocSpec ListDocFacts FragmentModel FragmentText FragmentSpec FragmentTheorems FragmentRefuted ImageModel
  RichModel RichSpec RichFacts RichTheorems RichInsertList RichCallSpec RichCalls.

(** C61. Any number of calls that succeed, each at a caret or over a selection:
    as many undos give back the document there was, with its lists. Nothing is
    asked of the document. *)
Theorem rich_undo_all : forall s cs s1, idle (snd s) -> Forall changes cs -> r_run s cs = Ok (s1, repeat true (length cs)) ->
  exists s2, r_run s1 (repeat RUndo (length cs)) = Ok (s2, repeat true (length cs))
   /\ same_rich (fst s2) (fst s) /\ idle (snd s2).
Proof. exact undo_all_theorem. Qed.
Print Assumptions rich_undo_all.
Example rich_undo_all_case : idle rich_history /\ Forall changes rich_calls
  /\ exists s1 s2, r_run (no_lists two_paras, rich_history) rich_calls = Ok (s1, repeat true 5)
   /\ export_plain_text (l_doc (fst s1)) = Ok [FFFC; 10; 49; 10; 10; 50; 100]%N
   /\ r_run s1 (repeat RUndo 5) = Ok (s2, repeat true 5) /\ export_plain_text (l_doc (fst s2)) = Ok [97; 98; 10; 99; 100]%N.
Proof.
  split; [exact rich_history_idle|]. split; [repeat constructor|]. eexists _, _. split; [vm_compute; reflexivity|].
  split; [vm_compute; reflexivity|]. split; [vm_compute; reflexivity|]. vm_compute. reflexivity.
Qed.

(** C61. Each call does to the document, with a history, what it does without
    one, and returns an error when it does without one. *)
Theorem rich_call_alone : forall L m c L' ok, idle m -> alone L c = Ok (L', ok) ->
  exists m', r_step (L, m) c = Ok ((L', m'), ok).
Proof. exact alone_theorem. Qed.
Print Assumptions rich_call_alone.
Example rich_call_alone_case : idle rich_history
  /\ (exists L', alone (no_lists two_paras) (RImage 3 1 a_picture 3 4) = Ok (L', true)
       /\ export_plain_text (l_doc L') = Ok [97; FFFC; 99; 100]%N)
  /\ (exists L', alone (no_lists two_paras) (RImage 3 1 a_picture 0 4) = Ok (L', false)
       /\ export_plain_text (l_doc L') = Ok [97; 99; 100]%N)
  /\ (exists L', alone (no_lists two_paras) (RPaste 2 2 (mk_dfrag (Some [centered [49%N]]) [])) = Ok (L', true)
       /\ export_plain_text (l_doc L') = Ok [97; 98; 10; 49; 10; 10; 99; 100]%N).
Proof.
  split; [exact rich_history_idle|]. repeat split; eexists; (split; [vm_compute; reflexivity|vm_compute; reflexivity]).
Qed.

(** C61. So calls that succeed one after another without a history give the same
    document with one, and as many undos give back the document there was. *)
Theorem rich_run_alone : forall L m cs L', idle m -> all_alone L cs = Ok L' ->
  exists m' s2, r_run (L, m) cs = Ok ((L', m'), repeat true (length cs))
   /\ r_run (L', m') (repeat RUndo (length cs)) = Ok (s2, repeat true (length cs)) /\ same_rich (fst s2) L.
Proof. exact run_alone_theorem. Qed.
Print Assumptions rich_run_alone.
Example rich_run_alone_case : exists L', all_alone (no_lists two_paras) rich_calls = Ok L'
  /\ export_plain_text (l_doc L') = Ok [FFFC; 10; 49; 10; 10; 50; 100]%N.
Proof. eexists. split; [vm_compute; reflexivity|]. vm_compute. reflexivity. Qed.

(** C61. A call that fails and replaces no selection changes nothing, not even
    the history. *)
Theorem rich_failed_call : forall s c s1, changes c -> at_caret c -> r_step s c = Ok (s1, false) -> s1 = s.
Proof. exact failed_theorem. Qed.
Print Assumptions rich_failed_call.
(** C61. So with calls that fail among those that succeed, as many undos as calls
    that succeeded give back the document. *)
Theorem rich_undo_mixed : forall s cs s1 oks, idle (snd s) -> Forall changes cs -> r_run s cs = Ok (s1, oks) ->
  Forall2 (fun c ok => ok = false -> at_caret c) cs oks ->
  let n := count_occ Bool.bool_dec oks true in
  exists s2, r_run s1 (repeat RUndo n) = Ok (s2, repeat true n) /\ same_rich (fst s2) (fst s) /\ idle (snd s2).
Proof. exact mixed_theorem. Qed.
Print Assumptions rich_undo_mixed.
Example rich_undo_mixed_case : exists s1,
  r_run (no_lists two_paras, rich_history) [RCreateList 0 0 Disc; RImage 1 1 a_picture 0 5; RListFormat 7%N numbered_req; RBreak 3 3]
    = Ok (s1, [true; false; false; true])
  /\ Forall2 (fun c ok => ok = false -> at_caret c) [RCreateList 0 0 Disc; RImage 1 1 a_picture 0 5; RListFormat 7%N numbered_req; RBreak 3 3]
       [true; false; false; true].
Proof. eexists. split; [vm_compute; reflexivity|]. repeat constructor. Qed.

(** C61. Calls that make no paragraph and no list, an image in place of a
    selection among them: undoing and redoing all of them is exact, in any
    document. *)
Theorem rich_back_and_forth : forall s cs s1, idle (snd s) -> Forall makes_nothing cs ->
  r_run s cs = Ok (s1, repeat true (length cs)) ->
  exists s2 s3, r_run s1 (repeat RUndo (length cs)) = Ok (s2, repeat true (length cs)) /\ fst s2 = fst s
   /\ r_run s2 (repeat RRedo (length cs)) = Ok (s3, repeat true (length cs)) /\ fst s3 = fst s1.
Proof. exact exact_theorem. Qed.
Print Assumptions rich_back_and_forth.
Example rich_back_and_forth_case : exists s0 s1, r_step (no_lists two_paras, rich_history) (RCreateList 4 4 Disc) = Ok (s0, true)
  /\ idle (snd s0) /\ Forall makes_nothing tame_calls /\ r_run s0 tame_calls = Ok (s1, repeat true 5)
  /\ export_plain_text (l_doc (fst s1)) = Ok [97; FFFC; 10; 99; 100]%N
  /\ all_markers (fst s1) <> all_markers (fst s0).
Proof.
  eexists _, _. split; [vm_compute; reflexivity|]. split; [constructor; cbn; try easy; now left|]. split; [repeat constructor|].
  split; [vm_compute; reflexivity|]. split; [vm_compute; reflexivity|]. vm_compute. intros H. discriminate H.
Qed.

(** C61. A paste, at a caret or over a selection: undo gives back the document,
    redo the text and the formats after the paste. *)
Theorem paste_undo_redo_partial : forall L m its fbs t p a, idle m -> reach (l_doc L) -> doc_items (l_doc L) = Ok its ->
  fbs <> [] -> Forall text_only fbs -> p <= length its -> a <= length its ->
  p <> a \/ single_inline fbs \/ in_order (l_doc L) ->
  let after := spec_paste (Nat.min p a) fbs (spec_delete (Nat.min p a) (Nat.max p a) its) in
  exists s1 s2 s3, r_step (L, m) (RPaste p a (mk_dfrag (Some fbs) t)) = Ok (s1, true) /\ doc_items (l_doc (fst s1)) = Ok after
   /\ r_step s1 RUndo = Ok (s2, true) /\ same_rich (fst s2) L
   /\ r_step s2 RRedo = Ok (s3, true) /\ doc_items (l_doc (fst s3)) = Ok after.
Proof. exact paste_undo_theorem. Qed.
Print Assumptions paste_undo_redo_partial.
Example paste_undo_redo_case : reach two_paras /\ doc_items two_paras = Ok (text_items [97; 98; 10; 99; 100]%N)
  /\ Forall text_only [centered [49%N]; plain_fblock [50%N]]
  /\ spec_paste 1 [centered [49%N]; plain_fblock [50%N]] (spec_delete 1 4 (text_items [97; 98; 10; 99; 100]%N))
     = text_items [97; 10; 49; 10; 50; 100]%N.
Proof.
  split; [apply two_paras_reach|]. split; [vm_compute; reflexivity|]. split; [|vm_compute; reflexivity].
  repeat constructor; vm_compute; easy.
Qed.

(** C61. Making a list: redo gives the same paragraphs the same new list, under
    a new number. *)
Theorem create_list_undo_redo : forall L m p a st, idle m -> lreach L -> lists_exist L ->
  exists s1 s2 s3 f, r_step (L, m) (RCreateList p a st) = Ok (s1, true)
   /\ r_step s1 RUndo = Ok (s2, true) /\ same_rich (fst s2) L
   /\ r_step s2 RRedo = Ok (s3, true) /\ renamed f (fst s1) (fst s3)
   /\ doc_items (l_doc (fst s3)) = doc_items (l_doc (fst s1)).
Proof. exact create_undo_theorem. Qed.
Print Assumptions create_list_undo_redo.
Example create_list_undo_redo_case : lreach (no_lists two_paras) /\ lists_exist (no_lists two_paras)
  /\ exists s1, r_step (no_lists two_paras, rich_history) (RCreateList 0 4 Disc) = Ok (s1, true)
     /\ all_markers (fst s1) <> all_markers (no_lists two_paras).
Proof.
  split; [apply lreach_start, two_paras_reach|]. split.
  - intros i l f H. exfalso. unfold attr in H. destruct (get_block (l_doc (no_lists two_paras)) i) as [b|] eqn:E; [|discriminate].
    cbn [option_map] in H. injection H as H _. revert E H. unfold get_block. vm_compute (d_blocks _). cbn [find_block b_id].
    repeat match goal with |- context [N.eqb ?x ?y] => destruct (N.eqb x y) end; intros [= <-]; discriminate.
  - eexists. split; [vm_compute; reflexivity|]. vm_compute. intros H. discriminate H.
Qed.

(** C61. Adding an item after the paragraph at the cursor: redo gives the same
    paragraphs and the same new list, under a new number, and the same counts. *)
Theorem insert_list_undo_redo : forall L m p st, idle m -> lreach L -> lists_exist L -> fresh_positions (l_doc L) ->
  exists its s1 s2 s3 f, doc_items (l_doc L) = Ok its /\ r_step (L, m) (RInsertList p st) = Ok (s1, true)
   /\ doc_items (l_doc (fst s1)) = Ok (spec_break (para_end its (clip its (Z.of_nat p))) its)
   /\ r_step s1 RUndo = Ok (s2, true) /\ same_rich (fst s2) L
   /\ r_step s2 RRedo = Ok (s3, true) /\ renamed f (fst s1) (fst s3)
   /\ doc_items (l_doc (fst s3)) = doc_items (l_doc (fst s1))
   /\ d_nblocks (l_doc (fst s3)) = d_nblocks (l_doc (fst s1)) /\ d_chars (l_doc (fst s3)) = d_chars (l_doc (fst s1)).
Proof. exact insert_undo_theorem. Qed.
Print Assumptions insert_list_undo_redo.
Example insert_list_undo_redo_case : lreach two_items /\ lists_exist two_items /\ fresh_positions (l_doc two_items)
  /\ exists s1 s2 s3, r_step (two_items, rich_history) (RInsertList 1 Disc) = Ok (s1, true)
     /\ length (d_order (l_doc two_items)) = 2 /\ length (d_order (l_doc (fst s1))) = 3
     /\ r_step s1 RUndo = Ok (s2, true) /\ r_step s2 RRedo = Ok (s3, true) /\ all_markers (fst s3) = all_markers (fst s1)
     /\ all_markers (fst s1) <> all_markers two_items /\ l_lists (fst s3) <> l_lists (fst s1).
Proof.
  split; [exact two_items_lreach|]. split.
  { intros i l f H. unfold attr in H. destruct (get_block (l_doc two_items) i) as [b|] eqn:E; [|discriminate].
    cbn [option_map] in H. injection H as H _. revert E H. unfold get_block. vm_compute (d_blocks _). cbn [find_block b_id].
    repeat match goal with |- context [N.eqb ?x ?y] => destruct (N.eqb x y) end; intros [= <-]; try discriminate; cbn [b_list]; intros [= <-]; vm_compute; discriminate. }
  split; [vm_compute; repeat eexists|].
  eexists _, _, _. split; [vm_compute; reflexivity|]. split; [vm_compute; reflexivity|]. split; [vm_compute; reflexivity|].
  split; [vm_compute; reflexivity|]. split; [vm_compute; reflexivity|]. split; [vm_compute; reflexivity|].
  split; vm_compute; intros H; discriminate H.
Qed.

(** Make a list, change its style, undo both, redo both: the second redo fails,
    because the list has a new number; it fails for ever, and the style is
    lost. *)
Theorem redo_list_format_refuted : exists L s1 s2, lreach L
  /\ r_run (L, rich_history) [RCreateList 0 0 Disc; RListFormat 1%N numbered_req] = Ok (s1, [true; true])
  /\ r_run s1 [RUndo; RUndo; RRedo; RRedo] = Ok (s2, [true; true; true; false])
  /\ all_markers (fst s2) <> all_markers (fst s1)
  /\ (forall n, r_run s2 (repeat RRedo n) = Ok (s2, repeat false n)).
Proof. exact redo_format_refuted_w. Qed.
Print Assumptions redo_list_format_refuted.

(** The same when a paragraph is split and the new paragraph joins a list. *)
Theorem redo_join_list_refuted : exists L i l s1 s2, lreach L
  /\ r_run (L, rich_history) [RCreateList 0 0 Disc; RBreak 4 4; RJoinList i l] = Ok (s1, [true; true; true])
  /\ r_run s1 [RUndo; RUndo; RRedo; RRedo] = Ok (s2, [true; true; true; false])
  /\ all_markers (fst s2) <> all_markers (fst s1)
  /\ (forall n, r_run s2 (repeat RRedo n) = Ok (s2, repeat false n)).
Proof. exact redo_join_refuted_w. Qed.
Print Assumptions redo_join_list_refuted.

(** Replace a selection by an image of width 0: an error is returned, the
    selected text is gone, and neither that nor any later edit can be undone. *)
Theorem failed_group_refuted : exists L s1 s2, lreach L
  /\ r_step (L, rich_history) (RImage 0 1 a_picture 0 5) = Ok (s1, false)
  /\ r_step s1 (RBreak 0 0) = Ok (s2, true)
  /\ export_plain_text (l_doc L) = Ok [97; 98; 10; 99; 100]%N
  /\ export_plain_text (l_doc (fst s2)) = Ok [10; 98; 10; 99; 100]%N
  /\ (forall n, r_run s2 (repeat RUndo n) = Ok (s2, repeat true n)).
Proof. exact failed_group_refuted_w. Qed.
Print Assumptions failed_group_refuted.
