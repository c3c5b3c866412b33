(** Facts about tables exported as Markdown. *)
From Coq Require Import String Sorting.Permutation.
From Verif Require Import Base FormatRunsModel RopeModel TableModel TableSpec TableFacts TablePlaces QueryModel EscapeModel ExportModel MdModel TableExportModel TableExportSpec TableExportFacts.
Local Open Scope Z_scope.

(** ** Reading lines *)
Ltac letters c := destruct c as [|p]; [try reflexivity|repeat (destruct p as [p|p|]; try reflexivity; try easy)].
Lemma bars_other c cur s : c <> 92%N -> c <> 124%N -> bars cur (c :: s) = bars (c :: cur) s.
Proof. intros A B. letters c. Qed.
Lemma bars_bar cur s : bars cur (124%N :: s) = rev cur :: bars [] s.
Proof. reflexivity. Qed.
Lemma bars_back c cur s : bars cur (92%N :: c :: s) = bars (c :: 92%N :: cur) s.
Proof. reflexivity. Qed.
Lemma barred_other c s : c <> 92%N -> c <> 124%N -> barred (c :: s) = barred s.
Proof. intros A B. letters c. Qed.
Lemma barred_ind (P : str -> Prop) : P [] -> (forall c s, c <> 92%N -> c <> 124%N -> barred s -> P s -> P (c :: s)) ->
  (forall c s, barred s -> P s -> P (92%N :: c :: s)) -> forall s, barred s -> P s.
Proof.
  intros P0 P1 P2. enough (Q : forall n s, (List.length s <= n)%nat -> barred s -> P s) by (intros s; now apply (Q (List.length s))).
  induction n as [|n IH]; intros s L B; [destruct s; [easy|cbn in L; lia]|]. destruct s as [|c s]; [easy|]. cbn [List.length] in L.
  destruct (N.eq_dec c 92) as [->|N1]; [destruct s as [|c' s]; [easy|]; cbn [List.length] in L; cbn [barred] in B; apply P2; [easy|]; apply IH; [lia|easy]|].
  destruct (N.eq_dec c 124) as [->|N2]; [easy|]. rewrite barred_other in B by easy. apply P1; auto. apply IH; [lia|easy].
Qed.
Lemma barred_app a b : barred a -> barred b -> barred (a ++ b).
Proof.
  intros A B. revert a A. apply barred_ind; [easy| |].
  - intros c s N1 N2 _ IH. cbn [app]. now rewrite barred_other.
  - intros c s _ IH. exact IH.
Qed.
Lemma bars_barred a : barred a -> forall cur s, bars cur (a ++ 124%N :: s) = (rev cur ++ a) :: bars [] s.
Proof.
  revert a. apply (barred_ind (fun a => forall cur s, bars cur (a ++ 124%N :: s) = (rev cur ++ a) :: bars [] s)).
  - intros cur s. cbn [app]. now rewrite bars_bar, app_nil_r.
  - intros c a N1 N2 _ IH cur s. cbn [app]. rewrite bars_other, IH by easy. cbn [rev]. now rewrite <- app_assoc.
  - intros c a _ IH cur s. cbn [app]. rewrite bars_back, IH. cbn [rev]. now rewrite <- !app_assoc.
Qed.
Lemma bars_line ts : Forall barred ts -> bars [] (flat_map (fun t => t ++ lit "|") ts) = ts ++ [[]].
Proof.
  induction ts as [|t ts IH]; intros F; [easy|]. inversion F; subst. cbn [flat_map]. rewrite <- app_assoc. change (lit "|" ++ ?x) with (124%N :: x).
  rewrite bars_barred by easy. cbn [rev app]. now rewrite IH.
Qed.
Lemma skip_other c s : c <> 32%N -> skip_spaces (c :: s) = c :: s.
Proof. intros A. letters c. Qed.
Lemma skip_end s : skip_spaces (s ++ [32%N]) = match skip_spaces s with [] => [] | x => x ++ [32%N] end.
Proof.
  induction s as [|c s IH]; [easy|]. destruct (N.eq_dec c 32) as [->|N1]; [exact IH|]. cbn [app]. now rewrite !skip_other.
Qed.
Lemma trimmed_padded t : trimmed (32%N :: t ++ [32%N]) = trimmed t.
Proof.
  unfold trimmed. change (skip_spaces (32%N :: t ++ [32%N])) with (skip_spaces (t ++ [32%N])). rewrite skip_end. destruct (skip_spaces t) as [|c x]; [easy|].
  now rewrite rev_app_distr.
Qed.
Lemma line_read ts : Forall barred ts -> line_cells (124%N :: flat_map (fun t => t ++ lit "|") ts) = Some (map trimmed ts).
Proof. intros F. unfold line_cells. rewrite bars_line by easy. rewrite rev_app_distr. cbn [rev app]. now rewrite rev_involutive. Qed.
Lemma split_other c cur s : c <> 10%N -> split_lines cur (c :: s) = split_lines (c :: cur) s.
Proof. intros A. letters c. Qed.
Lemma split_line a : ~ In 10%N a -> forall cur s, split_lines cur (a ++ 10%N :: s) = (rev cur ++ a) :: split_lines [] s.
Proof.
  induction a as [|c a IH]; intros N1 cur s; [cbn [app]; now rewrite app_nil_r|]. cbn [app]. rewrite split_other by (intros ->; apply N1; now left).
  rewrite IH by (intros H; apply N1; now right). cbn [rev]. now rewrite <- app_assoc.
Qed.
Lemma split_last a : ~ In 10%N a -> forall cur, split_lines cur a = [rev cur ++ a].
Proof.
  induction a as [|c a IH]; intros N1 cur; [cbn; now rewrite app_nil_r|]. rewrite split_other by (intros ->; apply N1; now left).
  rewrite IH by (intros H; apply N1; now right). cbn [rev]. now rewrite <- app_assoc.
Qed.
Lemma split_all ls : ls <> [] -> Forall (fun a => ~ In 10%N a) ls -> split_lines [] (drop_last_lf (flat_map (fun a => a ++ [10%N]) ls)) = ls.
Proof.
  intros Ne F. destruct (exists_last Ne) as (l & x & ->). apply Forall_app in F. destruct F as [Fl Fx]. inversion Fx; subst.
  assert (E : drop_last_lf (flat_map (fun a => a ++ [10%N]) (l ++ [x])) = flat_map (fun a => a ++ [10%N]) l ++ x).
  { unfold drop_last_lf. rewrite flat_map_app. cbn [flat_map]. rewrite app_nil_r, app_assoc, rev_app_distr. cbn [rev app]. now rewrite rev_involutive. }
  rewrite E. clear E Ne Fx. induction l as [|a l IH]; [cbn [flat_map app]; now rewrite split_last|]. inversion Fl; subst. cbn [flat_map app].
  rewrite <- !app_assoc. cbn [app]. rewrite split_line by easy. cbn [rev app]. now rewrite IH.
Qed.
Lemma all_some_map {A} (l : list A) : all_some (map Some l) = Some l.
Proof. induction l as [|x l IH]; [easy|]. cbn. now rewrite IH. Qed.

(** ** The texts of the table *)
Section Grid.
Variable d : tdoc.
Hypothesis G : grid d.
Variable inline : id -> str.
Lemma md_put_at g c r k : In c (t_cells d) -> md_put inline d g c r k = if starts_at r k c then md_text inline c else g r k.
Proof.
  intros H. destruct (starts_slot d G c H) as [A B]. unfold md_put, starts_at.
  replace ((tc_row c <? 0) || (t_rows d <=? tc_row c) || (tc_col c <? 0) || (t_cols d <=? tc_col c))%bool with false by lia.
  now rewrite (Z.eqb_sym r), (Z.eqb_sym k).
Qed.
Lemma md_fold l : (forall c, In c l -> In c (t_cells d)) -> forall g r k,
  fold_left (md_put inline d) l g r k = match find (starts_at r k) l with Some c => md_text inline c | None => g r k end.
Proof.
  induction l as [|c l IH]; intros I g r k; [easy|]. cbn [fold_left find]. rewrite IH by (intros; apply I; now right).
  assert (Hc := I c (or_introl eq_refl)). rewrite md_put_at by easy. destruct (find (starts_at r k) l) as [c'|] eqn:F; [|now destruct (starts_at r k c)].
  destruct (starts_at r k c) eqn:E; [|easy]. apply find_some in F. destruct F as [Hc' E']. unfold starts_at in E, E'.
  f_equal. apply (start_unique d); auto; [apply I; now right|lia|lia].
Qed.
Lemma md_grid_is r k : md_grid inline d r k = match found d r k with Some c => md_text inline c | None => [] end.
Proof. apply md_fold. intros c. apply Permutation_in, sort_cells_perm. Qed.

Hypothesis Hb : forall b, barred (inline b).
Hypothesis Hl : forall b, ~ In 10%N (inline b).
Lemma join_barred ts : Forall barred ts -> barred (join_with (lit " ") ts).
Proof.
  induction ts as [|t ts IH]; intros F; [easy|]. inversion F; subst. cbn [join_with]. destruct ts; [easy|]. apply barred_app; [easy|]. now apply (barred_app (lit " ")); [|apply IH].
Qed.
Lemma join_lf ts : Forall (fun t => ~ In 10%N t) ts -> ~ In 10%N (join_with (lit " ") ts).
Proof.
  induction ts as [|t ts IH]; intros F; [easy|]. inversion F; subst. cbn [join_with]. destruct ts; [easy|]. rewrite !in_app_iff. intros [H|[[H|[]]|H]]; [easy|discriminate|now apply IH].
Qed.
Lemma shown_all (P : str -> Prop) bs : (forall b, P (inline b)) -> Forall P (shown_parts inline bs).
Proof. intros H. apply Forall_forall. intros t I. apply filter_In in I. destruct I as [I _]. apply in_map_iff in I. destruct I as (b & <- & _). apply H. Qed.
Lemma grid_barred r k : barred (md_grid inline d r k).
Proof. rewrite md_grid_is. destruct (found d r k); [|easy]. now apply join_barred, shown_all. Qed.
Lemma grid_lf r k : ~ In 10%N (md_grid inline d r k).
Proof. rewrite md_grid_is. destruct (found d r k); [|easy]. now apply join_lf, (shown_all (fun t => ~ In 10%N t)). Qed.

Definition md_row (r : Z) : str := 124%N :: flat_map (fun t => t ++ lit "|") (map (fun k => 32%N :: md_grid inline d r k ++ [32%N]) (zrange (t_cols d))).
Definition md_dashes : str := 124%N :: flat_map (fun t => t ++ lit "|") (map (fun _ => lit "---") (zrange (t_cols d))).
Lemma flat_map_map {A B C} (f : A -> B) (g : B -> list C) l : flat_map g (map f l) = flat_map (fun x => g (f x)) l.
Proof. induction l as [|x l IH]; [easy|]. cbn. now rewrite IH. Qed.
Lemma flat_map_same {A B} (f g : A -> list B) l : (forall x, f x = g x) -> flat_map f l = flat_map g l.
Proof. intros H. induction l as [|x l IH]; [easy|]. cbn. now rewrite H, IH. Qed.
Lemma md_line_is r : md_line d (md_grid inline d) r = flat_map (fun a => a ++ [10%N]) (md_row r :: if r =? 0 then [md_dashes] else []).
Proof.
  unfold md_line, md_row, md_dashes. cbn [flat_map].
  assert (A : flat_map (fun k => lit " " ++ md_grid inline d r k ++ lit " |") (zrange (t_cols d))
    = flat_map (fun t => t ++ lit "|") (map (fun k => 32%N :: md_grid inline d r k ++ [32%N]) (zrange (t_cols d)))).
  { rewrite flat_map_map. apply flat_map_same. intros k. cbn [app]. rewrite <- app_assoc. reflexivity. }
  rewrite A. change (lit "|" ++ ?x) with (124%N :: x). cbn [app]. f_equal. rewrite <- app_assoc. f_equal. cbn [app]. f_equal.
  destruct (r =? 0); [|easy]. cbn [flat_map app]. rewrite app_nil_r. f_equal. f_equal. now rewrite flat_map_map.
Qed.
Definition md_lines : list str := flat_map (fun r => md_row r :: if r =? 0 then [md_dashes] else []) (zrange (t_rows d)).
Lemma md_table_is : md_table inline d = drop_last_lf (flat_map (fun a => a ++ [10%N]) md_lines).
Proof.
  unfold md_table, md_lines. f_equal. induction (zrange (t_rows d)) as [|r l IH]; [easy|]. change (flat_map (md_line d (md_grid inline d)) (r :: l)) with (md_line d (md_grid inline d) r ++ flat_map (md_line d (md_grid inline d)) l).
  rewrite IH, md_line_is, <- flat_map_app. reflexivity.
Qed.
Lemma md_lines_first : md_lines = md_row 0 :: md_dashes :: map md_row (zseq 1 (Z.to_nat (t_rows d - 1))).
Proof.
  unfold md_lines. rewrite zrange_zseq. destruct G as (R & _). replace (Z.to_nat (t_rows d)) with (S (Z.to_nat (t_rows d - 1))) by lia. cbn [zseq flat_map]. cbn [app]. do 2 f_equal.
  change (0 + 1) with 1.
  assert (Q : forall n z, 0 < z -> flat_map (fun r => md_row r :: if r =? 0 then [md_dashes] else []) (zseq z n) = map md_row (zseq z n)); [|rewrite Q by lia; reflexivity].
  induction n as [|n IH]; intros z P; [easy|]. cbn [zseq flat_map map]. rewrite IH by lia. now replace (z =? 0) with false by lia.
Qed.
Lemma row_lf r : ~ In 10%N (md_row r).
Proof.
  intros [H|H]; [discriminate|]. apply in_flat_map in H. destruct H as (t & I & H). apply in_map_iff in I. destruct I as (k & <- & _). apply in_app_iff in H.
  destruct H as [[H|H]|[H|[]]]; try discriminate. apply in_app_iff in H. destruct H as [H|[H|[]]]; [now apply grid_lf in H|discriminate].
Qed.
Lemma dashes_lf : ~ In 10%N md_dashes.
Proof.
  intros [H|H]; [discriminate|]. apply in_flat_map in H. destruct H as (t & I & H). apply in_map_iff in I. destruct I as (k & <- & _). cbn in H.
  repeat (destruct H as [H|H]; [discriminate|]). easy.
Qed.
Lemma row_read r : line_cells (md_row r) = Some (map (fun k => trimmed (md_grid inline d r k)) (zrange (t_cols d))).
Proof.
  unfold md_row. rewrite line_read.
  - rewrite map_map. f_equal. apply map_ext. intros k. apply trimmed_padded.
  - apply Forall_forall. intros t I. apply in_map_iff in I. destruct I as (k & <- & _). apply (barred_app (lit " ")); [easy|]. apply barred_app; [apply grid_barred|easy].
Qed.
Lemma dashes_read : line_cells md_dashes = Some (map (fun _ => lit "---") (zrange (t_cols d))).
Proof.
  unfold md_dashes. rewrite line_read.
  - now rewrite map_map.
  - apply Forall_forall. intros t I. apply in_map_iff in I. destruct I as (k & <- & _). now cbn.
Qed.
Lemma md_read : read_pipes (md_table inline d) = Some (map (fun r => map (fun k => trimmed (md_grid inline d r k)) (zrange (t_cols d))) (zrange (t_rows d))).
Proof.
  unfold read_pipes. rewrite md_table_is, split_all.
  - rewrite md_lines_first. cbn [map]. rewrite row_read, dashes_read, map_map. rewrite (map_ext _ _ row_read). rewrite <- (map_map _ Some). cbn [all_some]. rewrite all_some_map. cbn [option_map].
    replace (forallb (str_eqb (lit "---")) (map (fun _ : Z => lit "---") (zrange (t_cols d)))) with true.
    + rewrite !map_length, Nat.eqb_refl. cbn [andb]. f_equal. rewrite (zrange_zseq (t_rows d)). destruct G as (R & _).
      replace (Z.to_nat (t_rows d)) with (S (Z.to_nat (t_rows d - 1))) by lia. reflexivity.
    + symmetry. apply forallb_forall. intros x I. apply in_map_iff in I. destruct I as (? & <- & _). reflexivity.
  - rewrite md_lines_first. easy.
  - rewrite md_lines_first. constructor; [apply row_lf|]. constructor; [exact dashes_lf|]. apply Forall_forall. intros x I. apply in_map_iff in I. destruct I as (r & <- & _). apply row_lf.
Qed.
Lemma md_theorem : exists rows, read_pipes (md_table inline d) = Some rows /\ Z.of_nat (List.length rows) = t_rows d
  /\ (forall row, In row rows -> Z.of_nat (List.length row) = t_cols d)
  /\ (forall c, In c (t_cells d) -> pipe_at rows (tc_row c) (tc_col c) = Some (trimmed (join_with (lit " ") (texts inline (sort_tblocks (tc_blocks c))))))
  /\ forall r k, slot d r k -> (forall c, In c (t_cells d) -> tc_row c = r -> tc_col c <> k) -> pipe_at rows r k = Some [].
Proof.
  eexists. split; [exact md_read|]. assert (R := rows_nat d G). assert (C := cols_nat d G). split; [rewrite map_length, length_zrange; lia|]. split.
  { intros row I. apply in_map_iff in I. destruct I as (r & <- & _). rewrite map_length, length_zrange. lia. }
  assert (N : forall n x, 0 <= x < n -> nth_error (zrange n) (Z.to_nat x) = Some x).
  { intros n x H. unfold zrange. rewrite nth_error_map, (nth_error_nth' _ 0%nat) by (rewrite seq_length; lia). rewrite seq_nth by lia. cbn [option_map]. f_equal. lia. }
  assert (Q : forall r k, slot d r k -> pipe_at (map (fun r => map (fun k => trimmed (md_grid inline d r k)) (zrange (t_cols d))) (zrange (t_rows d))) r k = Some (trimmed (md_grid inline d r k))).
  { intros r k [A B]. unfold pipe_at. rewrite nth_error_map, N by easy. cbn [option_map]. now rewrite nth_error_map, N. }
  split.
  - intros c Hc. rewrite Q by (now apply starts_slot). rewrite md_grid_is. replace (found d (tc_row c) (tc_col c)) with (Some c) by (symmetry; now apply found_spec). reflexivity.
  - intros r k Hs Nc. rewrite Q, md_grid_is by easy. destruct (found d r k) as [c|] eqn:F; [|easy]. apply found_spec in F; [|easy]. destruct F as (A & B & E). now destruct (Nc c A B).
Qed.
End Grid.

(** ** What the exporter writes for text *)
Lemma escaped_barred t : barred (escape_markdown t).
Proof.
  induction t as [|c t IH]; [easy|]. unfold escape_markdown, escape_by in *. cbn [flat_map]. destruct (existsb (N.eqb c) md_export_escaped) eqn:E; [exact IH|].
  cbn [app]. rewrite barred_other; [exact IH| |]; intros ->; now cbn in E.
Qed.
Lemma escaped_lf t : ~ In 10%N t -> ~ In 10%N (escape_markdown t).
Proof.
  intros N H. apply in_flat_map in H. destruct H as (c & I & H). destruct (existsb (N.eqb c) md_export_escaped) eqn:E.
  - destruct H as [H|[H|[]]]; [discriminate|]. subst c. easy.
  - destruct H as [H|[]]. now subst c.
Qed.
Lemma wordy_barred s : wordy s -> barred (md_segment s) /\ ~ In 10%N (md_segment s).
Proof.
  destruct s as [t f|i]; [|easy]. intros (M & A & L). unfold md_segment. rewrite M. assert (B := escaped_barred t). assert (E := escaped_lf t L).
  destruct (escape_markdown t) as [|c u] eqn:Es; [easy|]. rewrite A. rewrite <- Es in *. clear Es c u L. cbv zeta.
  assert (W : forall w x, (w = lit "~~" \/ w = lit "***" \/ w = lit "**" \/ w = lit "*") -> barred x /\ ~ In 10%N x -> barred (w ++ x ++ w) /\ ~ In 10%N (w ++ x ++ w)).
  { intros w x Hw [Bx Lx]. assert (BL : barred w /\ ~ In 10%N w) by (destruct Hw as [-> | [-> | [-> | ->]]]; cbn; firstorder discriminate). destruct BL as [Bw Lw].
    split; [now repeat apply barred_app|]. rewrite !in_app_iff. tauto. }
  set (x := if is_on (font_strikeout f) then _ else _). assert (X : barred x /\ ~ In 10%N x) by (subst x; destruct (is_on (font_strikeout f)); [apply W; auto|easy]).
  destruct (is_on (font_bold f)), (is_on (font_italic f)); cbn [andb]; try (apply W; auto); exact X.
Qed.
Lemma segments_barred ss : Forall wordy ss -> barred (flat_map md_segment ss) /\ ~ In 10%N (flat_map md_segment ss).
Proof.
  induction ss as [|s ss IH]; intros F; [easy|]. inversion F as [|? ? Fs Fr]; subst. destruct (wordy_barred s Fs). destruct (IH Fr). cbn [flat_map]. split; [now apply barred_app|]. rewrite in_app_iff. tauto.
Qed.
