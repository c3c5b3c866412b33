(** Concrete documents with a table. *)
From Verif Require Import Base RopeModel TableModel TableSpec TableFacts TableTextModel TableTextSpec.
From Verif Require Import DocModel DocSpec PropSpec.
From Verif Require TablePlaces TableTextTheorems.
Local Open Scope Z_scope.

Definition got (r : res xdoc) : xdoc := match r with Ok x => x | _ => mk_xdoc (mk_tdoc 0 0 [] [] [] 0 0 0 0%N 0%N) (mk_rstore [] (mk_oindex [] 0 (fun _ => None) 0)) 0%N end.
Definition stored (x : xdoc) (r : res rstore) : xdoc := match r with Ok st => mk_xdoc (x_table x) st (x_tid x) | _ => x end.
Definition fine {A} (r : res A) : bool := match r with Ok _ => true | _ => false end.
Lemma got_ok r : fine r = true -> r = Ok (got r). Proof. now destruct r. Qed.
Lemma stored_ok x r : fine r = true -> r = Ok (x_store (stored x r)). Proof. now destruct r. Qed.
Definition left_over (x : xdoc) : list tblock * Z * Z * rstore := match x_remove_table x with Ok y => y | _ => ([], 0, 0, x_store x) end.
Lemma left_ok x : fine (x_remove_table x) = true -> x_remove_table x = Ok (left_over x). Proof. unfold left_over. now destruct (x_remove_table x). Qed.
Lemma same_blocks_refl d : same_blocks d d.
Proof. repeat split. apply N.le_refl. Qed.
Definition has_block (x : xdoc) (b : id) : bool := existsb (N.eqb b) (block_ids (t_others (x_table x)) ++ cell_ids (t_cells (x_table x))).
Lemma has_in x b : has_block x b = true -> block_in x b.
Proof. unfold has_block, block_in. rewrite existsb_exists. intros (i & H & E). apply N.eqb_eq in E. subst i. now apply in_app_iff in H. Qed.
Lemma stored_history x r : (forall st, r = Ok st -> xhistory (mk_xdoc (x_table x) st (x_tid x))) -> xhistory x -> xhistory (stored x r).
Proof. intros H Hx. destruct r as [st| |]; cbn; [now apply H|exact Hx|exact Hx]. Qed.
Lemma erased_history x b k n : xhistory x -> block_in x b -> xhistory (stored x (erase_in (x_store x) b k n)).
Proof. intros H Hb. apply stored_history; [|exact H]. intros st E. exact (x_erase x b k n st (x_table x) H Hb E (same_blocks_refl _)). Qed.
Lemma typed_history x b k text : xhistory x -> block_in x b -> xhistory (stored x (type_in (x_store x) b k text)).
Proof. intros H Hb. apply stored_history; [|exact H]. intros st E. exact (x_type x b k text st (x_table x) H Hb E (same_blocks_refl _)). Qed.

(** "abcdef" and "x"; a table of two cells at the end; then "x" is erased. *)
Definition page : doc := import_plain_text new_document [97; 98; 99; 100; 101; 102; 10; 120]%N.
Lemma page_counted : counted page. Proof. repeat constructor. Qed.
Lemma page_reach : reach page. Proof. repeat constructor. Qed.
Definition with_table : xdoc := got (x_insert_table page 8 8 1 2 70%N 80%N).
Lemma with_table_history : xhistory with_table.
Proof. apply (x_new page 8 8 1 2 70%N 80%N); [exact page_reach|apply got_ok; vm_compute; reflexivity]. Qed.
Definition emptied : xdoc := stored with_table (erase_in (x_store with_table) 3%N 0 1).
Lemma emptied_history : xhistory emptied.
Proof.
  unfold emptied. refine (erased_history with_table 3%N 0 1 with_table_history _). apply has_in. vm_compute. reflexivity.
Qed.
Lemma removal_refuted : exists x others n ch st, xhistory x /\ outside_text x = [Ok [97; 98; 99; 100; 101; 102]%N; Ok []]
  /\ x_remove_table x = Ok (others, n, ch, st)
  /\ map (fun b => block_content st (tb_id b)) others = [Ok [97; 98]%N; Ok [100; 101; 102; 10]%N].
Proof.
  exists emptied, (fst (fst (fst (left_over emptied)))), (snd (fst (fst (left_over emptied)))), (snd (fst (left_over emptied))), (snd (left_over emptied)). split; [exact emptied_history|]. split; [vm_compute; reflexivity|].
  split; [rewrite left_ok by (vm_compute; reflexivity); now destruct (left_over emptied) as [[[? ?] ?] ?]|]. vm_compute. reflexivity.
Qed.
(** "a" and "x" instead. *)
Definition short_page : doc := import_plain_text new_document [97; 10; 120]%N.
Definition short_table : xdoc := got (x_insert_table short_page 3 3 1 2 70%N 80%N).
Lemma short_table_history : xhistory short_table.
Proof. apply (x_new short_page 3 3 1 2 70%N 80%N); [repeat constructor|apply got_ok; vm_compute; reflexivity]. Qed.
Definition short_emptied : xdoc := stored short_table (erase_in (x_store short_table) 3%N 0 1).
Lemma short_emptied_history : xhistory short_emptied.
Proof.
  unfold short_emptied. refine (erased_history short_table 3%N 0 1 short_table_history _). apply has_in. vm_compute. reflexivity.
Qed.
Lemma removal_panic_refuted : exists x, xhistory x /\ outside_text x = [Ok [97]%N; Ok []] /\ x_remove_table x = Panic.
Proof. exists short_emptied. split; [exact short_emptied_history|]. split; vm_compute; reflexivity. Qed.

(** Two columns, "p" and "q" typed into the two cells. *)
Definition one_cell : xdoc := stored with_table (type_in (x_store with_table) 4%N 0 [112]%N).
Lemma one_cell_history : xhistory one_cell.
Proof.
  unfold one_cell. refine (typed_history with_table 4%N 0 [112]%N with_table_history _). apply has_in. vm_compute. reflexivity.
Qed.
Definition filled : xdoc := stored one_cell (type_in (x_store one_cell) 5%N 0 [113]%N).
Lemma filled_history : xhistory filled.
Proof.
  unfold filled. refine (typed_history one_cell 5%N 0 [113]%N one_cell_history _). apply has_in. vm_compute. reflexivity.
Qed.
Lemma filled_texts : shows filled 0 0 [Ok [112]%N] /\ shows filled 0 1 [Ok [113]%N]
  /\ outside_text filled = [Ok [97; 98; 99; 100; 101; 102]%N; Ok [120]%N].
Proof. split; [|split]; [eexists; split; vm_compute; reflexivity..|vm_compute; reflexivity]. Qed.
(** Merging them. *)
Definition merged : xdoc := got (x_step filled (Merge 0 0 0 1)).
Lemma filled_clean : ~ reached (x_table filled) 0 0 0 1.
Proof.
  intros (c & r & k & Hc & N & V & I). apply covers_iff in V. unfold in_rect in *. vm_compute in Hc. destruct Hc as [<-|[<-|[]]]; cbn in *; lia.
Qed.
Lemma merged_history : xhistory merged.
Proof. apply (x_op filled (Merge 0 0 0 1)); [exact filled_history|exact filled_clean|apply got_ok; vm_compute; reflexivity]. Qed.
Definition absent (x : xdoc) (t : str) : bool :=
  forallb (fun b => match text_of x b with Ok u => negb (if list_eq_dec N.eq_dec u t then true else false) | _ => true end) (block_ids (t_others (x_table x)) ++ cell_ids (t_cells (x_table x))).
Lemma nowhere x t : absent x t = true -> forall b, block_in x b -> text_of x b <> Ok t.
Proof.
  unfold absent. rewrite forallb_forall. intros H b Hb E. assert (X := H b). rewrite E in X. unfold block_in in Hb. rewrite <- in_app_iff in Hb. specialize (X Hb).
  destruct (list_eq_dec N.eq_dec t t) in X; [discriminate X|easy].
Qed.
Lemma merge_refuted : exists x r k x', xhistory x /\ shows x r k [Ok [113]%N] /\ clean (x_table x) (Merge 0 0 0 1)
  /\ x_step x (Merge 0 0 0 1) = Ok x' /\ forall b, block_in x' b -> text_of x' b <> Ok [113]%N.
Proof.
  exists filled, 0, 1, merged. split; [exact filled_history|]. split; [apply filled_texts|]. split; [exact filled_clean|]. split; [apply got_ok; vm_compute; reflexivity|].
  apply nowhere. vm_compute. reflexivity.
Qed.

(** A break in the first paragraph, before the table. *)
Definition broken : xdoc := got (x_insert_block filled 2%N 2).
Lemma broken_history : xhistory broken.
Proof. apply (x_break filled 2%N 2); [exact filled_history|vm_compute; auto|apply got_ok; vm_compute; reflexivity]. Qed.
(** A break before the "q" of the second cell. *)
Lemma breaking_refuted : exists x b x', xhistory x /\ shows x 0 1 [Ok [113]%N] /\ In b (cell_ids (t_cells (x_table x))) /\ text_of x b = Ok [113]%N
  /\ x_insert_block x b 0 = Ok x' /\ shows x' 0 1 [Ok []] /\ outside_text x' = outside_text x ++ [Ok [113]%N].
Proof.
  exists filled, 5%N, (got (x_insert_block filled 5%N 0)). split; [exact filled_history|]. split; [apply filled_texts|]. split; [vm_compute; auto|].
  split; [vm_compute; reflexivity|]. split; [apply got_ok; vm_compute; reflexivity|]. split; [eexists; split; vm_compute; reflexivity|vm_compute; reflexivity].
Qed.

(** The table between "abcdef" and "x", then "p" typed into its first cell; every
    block is where it should be and every character counted. *)
Definition halved : xdoc := got (x_insert_table page 6 6 1 2 70%N 80%N).
Lemma halved_history : xhistory halved.
Proof. apply (x_new page 6 6 1 2 70%N 80%N); [exact page_reach|apply got_ok; vm_compute; reflexivity]. Qed.
Definition typed_table : tdoc :=
  let d := x_table halved in
  mk_tdoc (t_rows d) (t_cols d) (t_widths d)
    (map (fun c => TableModel.set_blocks c (map (fun b => if N.eqb (tb_id b) 4 then mk_tblock 4%N 7 1 else mk_tblock (tb_id b) 9 0) (tc_blocks c))) (t_cells d))
    (map (fun b => if N.eqb (tb_id b) 3 then mk_tblock 3%N 10 1 else b) (t_others d)) (t_at d) (t_count d) 8 (t_next d) (t_nextb d).
Definition halved_p : xdoc := mk_xdoc typed_table (x_store (stored halved (type_in (x_store halved) 4%N 0 [112]%N))) (x_tid halved).
Lemma halved_p_history : xhistory halved_p.
Proof.
  unfold halved_p. apply (x_type halved 4%N 0 [112]%N); [exact halved_history|apply has_in; vm_compute; reflexivity|apply stored_ok; vm_compute; reflexivity|].
  split; [|repeat split]. repeat split. vm_compute. discriminate.
Qed.
Lemma typed_table_right : placed typed_table /\ counted_right typed_table /\ own_blocks typed_table.
Proof.
  split; [|split].
  - exists (t_cells typed_table). split; [easy|]. split; [|vm_compute; repeat split]. unfold reads. vm_compute t_cells.
    repeat constructor; cbn; lia.
  - split; vm_compute; reflexivity.
  - split; [|split].
    + intros b Hb. vm_compute in Hb. destruct Hb as [<-|[<-|[]]]; cbn; lia.
    + vm_compute. repeat constructor; cbn; intuition discriminate.
    + intros b Hb. vm_compute in Hb. destruct Hb as [<-|[<-|[]]]; vm_compute; (split; [discriminate|reflexivity]).
Qed.
Lemma removal_places_refuted : exists x others n ch st, xhistory x /\ placed (x_table x) /\ counted_right (x_table x) /\ own_blocks (x_table x)
  /\ x_remove_table x = Ok (others, n, ch, st) /\ ~ in_place 0 others /\ ch <> fold_right (fun b m => tb_len b + m) 0 others.
Proof.
  exists halved_p, (fst (fst (fst (left_over halved_p)))), (snd (fst (fst (left_over halved_p)))), (snd (fst (left_over halved_p))), (snd (left_over halved_p)).
  split; [exact halved_p_history|]. split; [apply typed_table_right|]. split; [apply typed_table_right|]. split; [apply typed_table_right|].
  split; [rewrite left_ok by (vm_compute; reflexivity); now destruct (left_over halved_p) as [[[? ?] ?] ?]|].
  assert (E : map (fun b => (tb_pos b, tb_len b)) (fst (fst (fst (left_over halved_p)))) = [(0, 6); (8, 1)]) by (vm_compute; reflexivity).
  assert (C : snd (fst (left_over halved_p)) = 8) by (vm_compute; reflexivity). rewrite C. clear C.
  destruct (fst (fst (fst (left_over halved_p)))) as [|b [|c [|]]]; try discriminate E. injection E as E1 E2 E3 E4. cbn [in_place fold_right]. rewrite E1, E2, E3, E4. split; lia.
Qed.
(** A break before the table, positions. *)
Lemma break_places_case : exists y x', xhistory with_table /\ placed (x_table with_table) /\ counted_right (x_table with_table)
  /\ In y (t_others (x_table with_table)) /\ tb_id y = 2%N /\ x_insert_block with_table 2%N 2 = Ok x'
  /\ map tb_pos (t_others (x_table x')) = [0; 3; 8]%Z.
Proof.
  assert (P : placed_history (x_table with_table)) by (apply (TableTextTheorems.new_placed page 8 8 1 2 70%N 80%N); [exact page_counted|apply got_ok; vm_compute; reflexivity]).
  exists (mk_tblock 2%N 0 6), (got (x_insert_block with_table 2%N 2)). split; [exact with_table_history|]. split; [now apply TablePlaces.placed_history_all|].
  split; [now apply TablePlaces.placed_history_all|]. split; [vm_compute; auto|]. split; [reflexivity|]. split; [apply got_ok; vm_compute; reflexivity|vm_compute; reflexivity].
Qed.
