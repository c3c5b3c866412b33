(** Cases in which a DOCX file does not show the document, and concrete cases of the
    theorems. *)
From Coq Require Import Sorting.Permutation.
From Verif Require Import Base FormatRunsModel FormatRunsSpec RopeModel DocModel DocSpec HistModel QueryModel PropSpec DocRefuted ListDocModel
  ExportSpec TableModel TableSpec TableFacts TablePlaces TableTheorems DocxModel DocxSpec DocxFacts DocxTable.
Local Open Scope Z_scope.

(** Stored positions that are right ascend. *)
Lemma fresh_lower d : forall l pos, fresh_from d pos l -> forall n i b, nth_error l n = Some i -> get_block d i = Some b -> Z.of_nat pos <= b_pos b.
Proof.
  induction l as [|j l IH]; intros pos F n i b Hn Hb; [now destruct n|]. destruct F as (c & t & E1 & E2 & E3 & F).
  destruct n as [|n]; cbn in Hn; [injection Hn as ->; rewrite Hb in E1; injection E1 as ->; lia|].
  pose proof (IH _ F _ _ _ Hn Hb). lia.
Qed.
Lemma fresh_ascending d : fresh_positions d -> ascending_positions d.
Proof.
  unfold fresh_positions, ascending_positions. generalize 0%nat as pos. generalize (d_order d) as l.
  induction l as [|x l IH]; intros pos F k m i j b c L Hk Hm Hb Hc; [now destruct k|]. destruct F as (y & t & E1 & E2 & E3 & F).
  destruct m as [|m]; [lia|]. cbn in Hm. destruct k as [|k]; cbn in Hk.
  - injection Hk as ->. rewrite Hb in E1. injection E1 as ->. pose proof (fresh_lower d _ _ F _ _ _ Hm Hc). lia.
  - eapply (IH _ F k m); eauto. lia.
Qed.
Lemma docx_fresh_theorem d its atts : reach d -> fresh_positions d -> doc_items d = Ok its -> para_attrs d = map Some atts -> Forall proper_heading atts ->
  exists ps, export_docx true (fun _ => false) d = (Some ps, Ok (Z.of_nat (length (paragraphs its)))) /\ all_faithful ps atts (paragraphs its).
Proof. intros R F E A H. apply docx_theorem; try easy. now apply fresh_ascending. Qed.

(** "XYZUVWab" / "cd" with stored positions 0 and 4, then a break inside the first. *)
Definition written (r : option (list dpara) * res Z) : list (list str) :=
  match fst r with Some ps => map (fun p => map dr_text (dp_runs p)) ps | None => [] end.
Definition long_first : doc := match insert_text_simple two_paras 0 [85; 86; 87; 88; 89; 90]%N with Ok (d, _, _) => d | _ => new_document end.
Lemma long_first_reach : reach long_first.
Proof. eapply (reach_insert two_paras 0 [85; 86; 87; 88; 89; 90]%N); [apply two_paras_reach|vm_compute; reflexivity]. Qed.
Definition split_long : doc := match insert_block long_first 5 with Ok (d, _, _) => d | _ => new_document end.
Lemma split_long_reach : reach split_long.
Proof. eapply (reach_break long_first 5); [apply long_first_reach|vm_compute; reflexivity]. Qed.
Lemma order_fail : exists d, reach d /\ export_plain_text d = Ok [85; 86; 87; 88; 89; 10; 90; 97; 98; 10; 99; 100]%N
  /\ written (export_docx true (fun _ => false) d) = [[[85; 86; 87; 88; 89]]; [[99; 100]]; [[90; 97; 98]]]%N.
Proof. exists split_long. split; [apply split_long_reach|]. split; vm_compute; reflexivity. Qed.

(** A paragraph with heading level 0. *)
Definition heading_req (h : Z) : bfmt_req := mk_breq None (Some h) None None None None None None None None None None None None None.
Lemma heading_fail : exists d p a d' l f ps n, tidy d /\ set_block_format (heading_req 0) d p a = Ok d' /\ para_attrs d' = [Some (l, f); Some (None, bfmt_default)]
  /\ f_heading_level f = Some 0 /\ export_docx true (fun _ => false) d' = (Some ps, n) /\ map dp_heading ps = [Some 1; None].
Proof.
  exists two_paras, 0, 1. do 5 eexists. split; [apply two_paras_tidy|]. split; [vm_compute; reflexivity|]. split; [vm_compute; reflexivity|].
  split; [vm_compute; reflexivity|]. split; vm_compute; reflexivity.
Qed.
(** List membership is not in the file. *)
Lemma list_fail : exists d i l, reach d /\ reach (set_block_list d i l) /\ para_attrs (set_block_list d i l) <> para_attrs d
  /\ export_docx true (fun _ => false) (set_block_list d i l) = export_docx true (fun _ => false) d.
Proof.
  exists two_paras, 2%N, (Some 7%N). split; [apply two_paras_reach|]. split; [apply reach_list, two_paras_reach|].
  split; [vm_compute; discriminate|]. vm_compute. reflexivity.
Qed.
(** Links are not in the file. *)
Definition link_fmt : cfmt := mk_cfmt None None None None None None None None None None (Some [104]%N) [] (Some true) None None None.
Lemma link_fail : exists d d1 d2 np1 np2 u1 u2 its1 its2, tidy d
  /\ insert_formatted_simple d 1 [120]%N cfmt_default = Ok (d1, np1, u1) /\ insert_formatted_simple d 1 [120]%N link_fmt = Ok (d2, np2, u2)
  /\ doc_items d1 = Ok its1 /\ doc_items d2 = Ok its2 /\ nth_error its1 1 = Some (Chr 120%N cfmt_default) /\ nth_error its2 1 = Some (Chr 120%N link_fmt)
  /\ flat_map para_shown (match fst (export_docx true (fun _ => false) d1) with Some ps => ps | None => [] end)
     = flat_map para_shown (match fst (export_docx true (fun _ => false) d2) with Some ps => ps | None => [] end)
  /\ fst (export_docx true (fun _ => false) d2) <> None.
Proof.
  exists two_paras. do 8 eexists. split; [apply two_paras_tidy|].
  split; [vm_compute; reflexivity|]. split; [vm_compute; reflexivity|]. split; [vm_compute; reflexivity|]. split; [vm_compute; reflexivity|].
  split; [vm_compute; reflexivity|]. split; [vm_compute; reflexivity|]. split; [vm_compute; reflexivity|]. vm_compute. discriminate.
Qed.
(** ** Tables *)
Lemma docx_table_history {A} (para : tblock -> A) (empty : A) d : table_history d -> (forall c, In c (t_cells d) -> tc_rs c = 1 \/ tc_cs c = 1) ->
  length (docx_table para empty d) = Z.to_nat (t_rows d)
  /\ Forall (fun x => row_width x = t_cols d) (docx_table para empty d)
  /\ forall r k c, slot d r k -> In c (t_cells d) -> covers c r k = true ->
     slot_shown (docx_table para empty d) r k = Some (map para (sort_tblocks (tc_blocks c))).
Proof. intros H. apply docx_table_theorem. now apply table_grid_theorem. Qed.
(** Four cells merged into one, and a third column. *)
Definition square_sample : tdoc := Eval vm_compute in got (tstep sample (Merge 0 0 1 1)).
Lemma square_history : table_history square_sample.
Proof.
  apply (table_step sample (Merge 0 0 1 1)); [apply sample_history| |vm_compute; reflexivity].
  intros (c & r & k & Hc & N & V & I). apply covers_iff in V. unfold in_rect in *. cbn in Hc. each_cell; lia.
Qed.
Lemma merged_fail : exists d c, table_history d /\ t_cols d = 3 /\ In c (t_cells d) /\ covers c 1 2 = true /\ length (tc_blocks c) = 1%nat
  /\ map row_width (docx_table tb_id 0%N d) = [3; 2] /\ slot_shown (docx_table tb_id 0%N d) 1 2 = None
  /\ slot_shown (docx_table tb_id 0%N d) 1 1 = Some (map tb_id (tc_blocks c)) /\ covers c 1 1 = false.
Proof.
  exists square_sample, (nth 2 (t_cells square_sample) (mk_tcell 0%N 0 0 0 0 0%N [])). split; [apply square_history|].
  vm_compute. intuition.
Qed.
(** A table between two paragraphs comes after them. *)
Lemma place_fail : exists d a b c, placed_history d /\ t_others d = [a; b] /\ In c (t_cells d)
  /\ (forall x, In x (tc_blocks c) -> tb_pos a < tb_pos x < tb_pos b)
  /\ docx_with_table tb_id 0%N d = [DPara (tb_id a); DPara (tb_id b); DTable (docx_table tb_id 0%N d)].
Proof.
  exists merged_sample. do 3 eexists. split; [apply merged_sample_placed|]. split; [reflexivity|]. split; [left; reflexivity|].
  split; [|vm_compute; reflexivity]. intros x H. cbn in H. destruct H as [<-|[]]. cbn. lia.
Qed.
