(** A history that cannot be redone after inserting a list. *)
From Verif Require Import Base FormatRunsModel RopeModel DocModel DocSpec HistModel UndoModel SessionModel PropSpec DocTheorems DocRefuted FragmentRefuted ListModel ListDocModel
  FragmentModel FragmentSpec ImportModel MdInsertModel MdInsertSpec MdInsertRefuted HtmlInsertModel HtmlInsertSpec RichModel RichSpec RichFacts RichTheorems InsertUndoSpec.

Lemma no_lists_exist : lists_exist (no_lists two_paras).
Proof.
  intros i l f H. exfalso. unfold attr in H. destruct (get_block (l_doc (no_lists two_paras)) i) as [b|] eqn:E; [|discriminate].
  cbn [option_map] in H. injection H as H _. revert E H. unfold get_block. vm_compute (d_blocks _). cbn [find_block b_id].
  repeat match goal with |- context [N.eqb ?x ?y] => destruct (N.eqb x y) end; intros [= <-]; discriminate.
Qed.

(** "x" and the item "y" in "ab", then the heading "z" before "cd", then a
    break in "cd", a list of "ax", "d" centered, and "1" and "2" pasted
    after it. *)
Definition insertions : list rcall :=
  [RMarkdown 1 1 [PBlock (bare_block [120%N]); PBlock (item_block [121%N])]; RHtml 7 7 [PBlock (heading_block [122%N])];
   RBreak 10 10; RCreateList 0 1 Disc; RBlockFormat center_req 11 12;
   RPaste 12 12 (mk_dfrag (Some [centered [49%N]; plain_fblock [50%N]]) [])].

Lemma redo_inserted_list_w : exists L s1 s2, tidy (l_doc L) /\ lists_numbered L /\ lists_exist L
  /\ r_run (L, rich_history) [RMarkdown 1 1 [PBlock (item_block [121%N])]; RListFormat 1%N numbered_req] = Ok (s1, [true; true])
  /\ r_run s1 [RUndo; RUndo; RRedo; RRedo] = Ok (s2, [true; true; true; false])
  /\ all_markers (fst s2) <> all_markers (fst s1)
  /\ (forall n, r_run s2 (repeat RRedo n) = Ok (s2, repeat false n)).
Proof.
  exists (no_lists two_paras). eexists _, _. split; [apply two_paras_tidy|]. split; [easy|]. split; [apply no_lists_exist|].
  split; [vm_compute; reflexivity|]. split; [vm_compute; reflexivity|].
  split; [vm_compute; intros H; discriminate H|]. apply stuck. vm_compute. reflexivity.
Qed.
