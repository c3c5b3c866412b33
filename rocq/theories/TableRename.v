(** Table operations do not depend on the numbers of blocks, cells and tables. *)
From Verif Require Import Base RopeModel TableModel TableSpec TableTextModel.
Local Open Scope Z_scope.

(** ** Related outcomes *)
Definition both {A B} (R : A -> B -> Prop) (a : res A) (b : res B) : Prop :=
  match a, b with Ok x, Ok y => R x y | Err, Err => True | Panic, Panic => True | _, _ => False end.
Lemma both_bind {A B C D} (R : A -> B -> Prop) (Q : C -> D -> Prop) a b k k' :
  both R a b -> (forall x y, R x y -> both Q (k x) (k' y)) -> both Q (bind a k) (bind b k').
Proof. destruct a, b; cbn; try easy. auto. Qed.
Lemma both_same {A C D} (Q : C -> D -> Prop) (a : res A) k k' : (forall x, both Q (k x) (k' x)) -> both Q (bind a k) (bind a k').
Proof. intros H. destruct a; cbn; easy. Qed.

(** [f]: from the counter [n] on, number [n + j] becomes [f n + j]; those before
    stay below. *)
Definition tracks (f : id -> id) (n : id) : Prop := (forall j, f (n + j) = f n + j)%N /\ forall i, (i < n)%N -> (f i < f n)%N.
Lemma tracks_succ f n : tracks f n -> f (N.succ n) = N.succ (f n) /\ tracks f (N.succ n).
Proof.
  intros [A B]. assert (E : f (N.succ n) = N.succ (f n)) by (rewrite <- !N.add_1_r; apply A). split; [easy|]. split.
  - intros j. rewrite E. replace (N.succ n + j)%N with (n + (1 + j))%N by (unfold id in *; lia). rewrite A. unfold id in *. lia.
  - intros i H. rewrite E. destruct (N.eq_dec i n) as [->|]; [unfold id in *; lia|]. assert (f i < f n)%N by (apply B; unfold id in *; lia). unfold id in *. lia.
Qed.
Lemma tracks_leb f n i : tracks f n -> N.leb (f n) (f i) = N.leb n i.
Proof.
  intros [A B]. destruct (N.leb_spec n i).
  - apply N.leb_le. replace i with (n + (i - n))%N by (unfold id in *; lia). rewrite A. unfold id in *. lia.
  - apply N.leb_gt. now apply B.
Qed.

Section Rename.
Variable f : id -> id. (* blocks *)
Variable g : id -> id. (* cells *)
Variable h : id -> id. (* tables *)
Hypothesis f_inj : forall a b, f a = f b -> a = b.
Hypothesis g_inj : forall a b, g a = g b -> a = b.
Hypothesis h_inj : forall a b, h a = h b -> a = b.
Lemma f_eqb a b : N.eqb (f a) (f b) = N.eqb a b.
Proof. destruct (N.eqb_spec a b) as [->|H]; [apply N.eqb_refl|]. apply N.eqb_neq. auto. Qed.
Lemma g_eqb a b : N.eqb (g a) (g b) = N.eqb a b.
Proof. destruct (N.eqb_spec a b) as [->|H]; [apply N.eqb_refl|]. apply N.eqb_neq. auto. Qed.
Lemma h_eqb a b : N.eqb (h a) (h b) = N.eqb a b.
Proof. destruct (N.eqb_spec a b) as [->|H]; [apply N.eqb_refl|]. apply N.eqb_neq. auto. Qed.

(** ** The rope *)
Definition rm (m : marker) : marker := match m with MBlock b => MBlock (f b) | MAnchor t => MAnchor (h t) end.
Lemma rm_eqb a b : marker_eqb (rm a) (rm b) = marker_eqb a b.
Proof. destruct a, b; cbn; auto using f_eqb, h_eqb. Qed.
Lemma rm_anchor m : is_anchor_marker (rm m) = is_anchor_marker m.
Proof. now destruct m. Qed.
Definition re (e : marker * nat) : marker * nat := (rm (fst e), snd e).
Record ix_ren (a b : oindex) : Prop := {
  ren_entries : entries b = map re (entries a); ren_total : total b = total a; ren_anchors : anchor_count b = anchor_count a;
  ren_midx : forall m, midx b (rm m) = midx a m
}.
Record st_ren (a b : rstore) : Prop := { ren_rope : rope b = rope a; ren_index : ix_ren (index a) (index b) }.

Lemma ren_succ a b m : ix_ren a b -> range_with_successor b (rm m) = range_with_successor a m.
Proof.
  intros [E T _ M]. unfold range_with_successor. rewrite M, T, E. destruct (midx a m) as [i|]; [|easy].
  rewrite !nth_error_map. destruct (nth_error (entries a) i) as [[k s]|]; [|easy]. cbn [option_map re snd].
  now destruct (nth_error (entries a) (S i)) as [[k' s']|].
Qed.
Lemma ren_range a b m : ix_ren a b -> range_of b (rm m) = range_of a m.
Proof. intros R. unfold range_of. now rewrite (ren_succ _ _ _ R). Qed.
Lemma ren_content a b i : st_ren a b -> block_content b (f i) = block_content a i.
Proof. intros [R I]. unfold block_content. change (MBlock (f i)) with (rm (MBlock i)). now rewrite (ren_succ _ _ _ I), R. Qed.
Lemma ren_pos m l : entry_pos (rm m) (map re l) = entry_pos m l.
Proof. induction l as [|[k n] l IH]; [easy|]. cbn. rewrite rm_eqb. now rewrite IH. Qed.
Lemma ren_shift_up l thr n : shift_up (map re l) thr n = map re (shift_up l thr n).
Proof.
  induction l as [|[k s] l IH]; [easy|]. cbn [map shift_up re fst snd]. destruct (s <? thr)%nat; [cbn [map]; now rewrite IH|]. cbn [map re fst snd]. f_equal. rewrite !map_map. apply map_ext. intros [k' s']. reflexivity.
Qed.
Lemma ren_up a b thr n : ix_ren a b -> ix_ren (shift_after_up a thr n) (shift_after_up b thr n).
Proof. intros [E T A M]. constructor; cbn; [now rewrite E, ren_shift_up|now rewrite T|easy|easy]. Qed.
Lemma ren_sub_all l n : sub_all (map re l) n = let! r := sub_all l n in Ok (map re r).
Proof. induction l as [|[k s] l IH]; [easy|]. cbn [map sub_all re fst snd]. destruct (n <=? s)%nat; [|easy]. rewrite IH. now destruct (sub_all l n). Qed.
Lemma ren_shift_down l thr n : shift_down (map re l) thr n = let! r := shift_down l thr n in Ok (map re r).
Proof.
  induction l as [|[k s] l IH]; [easy|]. cbn [map shift_down re fst snd]. destruct (s <? thr)%nat.
  - rewrite IH. now destruct (shift_down l thr n).
  - exact (ren_sub_all ((k, s) :: l) n).
Qed.
Lemma ren_down a b thr n : ix_ren a b -> both ix_ren (shift_after_down a thr n) (shift_after_down b thr n).
Proof.
  intros [E T A M]. unfold shift_after_down. rewrite E, ren_shift_down, T. destruct (shift_down (entries a) thr n); cbn; try easy.
  destruct (n <=? total a)%nat; [|easy]. cbn. constructor; cbn; easy.
Qed.
Lemma ren_insert a b p m s : ix_ren a b -> both ix_ren (insert_at a p m s) (insert_at b p (rm m) s).
Proof.
  intros [E T A M]. unfold insert_at. rewrite E, map_length. destruct (p <=? length (entries a))%nat; [|easy]. cbn. constructor; cbn.
  - rewrite map_app, firstn_map, skipn_map. reflexivity.
  - easy.
  - unfold bump_anchor. now rewrite rm_anchor, A.
  - intros k. now rewrite rm_eqb, M.
Qed.
Lemma ren_remove a b p : ix_ren a b -> both ix_ren (remove_at a p) (remove_at b p).
Proof.
  intros [E T A M]. unfold remove_at. rewrite E, nth_error_map. destruct (nth_error (entries a) p) as [[m s]|]; [|easy]. cbn [option_map re fst snd].
  constructor; cbn [entries total anchor_count midx].
  - rewrite map_app, firstn_map. f_equal. exact (skipn_map re (S p) (entries a)).
  - easy.
  - now rewrite rm_anchor, A.
  - intros k. now rewrite rm_eqb, M.
Qed.
Lemma first_past_ren l byte : first_past (map re l) byte = first_past l byte.
Proof. induction l as [|[k s] l IH]; [easy|]. cbn [map first_past re fst snd]. destruct (byte <? s)%nat; [easy|]. now rewrite IH. Qed.
Lemma ren_insert_block a b pos i t : st_ren a b -> both st_ren (rope_insert_block_at a pos i t) (rope_insert_block_at b pos (f i) t).
Proof.
  intros [R I]. unfold rope_insert_block_at. rewrite R. rewrite (ren_entries _ _ I), first_past_ren. apply both_same. intros ci. apply both_same. intros rp.
  eapply both_bind; [exact (ren_insert _ _ _ (MBlock i) _ (ren_up _ _ _ _ I))|]. intros x y Hxy. now constructor.
Qed.
Lemma ren_remove_block a b i : st_ren a b -> both st_ren (rope_remove_block a i) (rope_remove_block b (f i)).
Proof.
  intros Se. assert (Q := Se). destruct Q as [R I]. unfold rope_remove_block. change (MBlock (f i)) with (rm (MBlock i)). rewrite (ren_range _ _ _ I). apply both_same.
  intros [[s e]|]; [|exact Se]. rewrite R, (ren_entries _ _ I), map_length. rewrite ren_pos. apply both_same. intros k.
  destruct (e <=? _)%nat.
  - eapply both_bind; [exact (ren_remove _ _ _ I)|]. intros x y Hxy. now constructor.
  - do 3 (apply both_same; intros ?). eapply both_bind; [exact (ren_remove _ _ _ I)|]. intros u1 v1 Hxy.
    eapply both_bind; [exact (ren_down _ _ _ _ Hxy)|]. intros u2 v2 Hx'. now constructor.
Qed.
Lemma ren_insert_anchor a b t i after : st_ren a b -> both st_ren (rope_insert_table_anchor a t i after) (rope_insert_table_anchor b (h t) (f i) after).
Proof.
  intros Se. assert (Q := Se). destruct Q as [R I]. unfold rope_insert_table_anchor. change (MBlock (f i)) with (rm (MBlock i)). rewrite (ren_range _ _ _ I). apply both_same.
  intros [[s e]|]; [|exact Se]. rewrite R, (ren_entries _ _ I), map_length. rewrite ren_pos. apply both_same. intros k.
  destruct (if negb after then _ else _) as [[txt ms] ep]. do 2 (apply both_same; intros ?).
  eapply both_bind; [exact (ren_insert _ _ _ (MAnchor t) _ (ren_up _ _ _ _ I))|]. intros u1 v1 Hxy. now constructor.
Qed.
Lemma ren_remove_anchor a b t : st_ren a b -> both st_ren (rope_remove_table_anchor a t) (rope_remove_table_anchor b (h t)).
Proof.
  intros Se. assert (Q := Se). destruct Q as [R I]. unfold rope_remove_table_anchor. change (MAnchor (h t)) with (rm (MAnchor t)). rewrite (ren_range _ _ _ I). apply both_same.
  intros [[s e]|]; [|exact Se]. rewrite R, (ren_entries _ _ I), map_length. rewrite ren_pos. apply both_same. intros k.
  apply both_same. intros [x y]. do 3 (apply both_same; intros ?). eapply both_bind; [exact (ren_remove _ _ _ I)|]. intros u2 v2 Hxy.
  eapply both_bind; [exact (ren_down _ _ _ _ Hxy)|]. intros u3 v3 Hx3. now constructor.
Qed.
Lemma ren_walk a b ms : ix_ren a b -> forall n, walk_end b (map rm ms) n = walk_end a ms n.
Proof. intros I. induction ms as [|m ms IH]; intros n; [easy|]. cbn. rewrite (ren_range _ _ _ I). destruct (range_of a m); cbn; auto. Qed.
Lemma ren_mirror_new ids : forall a b byte, st_ren a b -> both st_ren (mirror_new a byte ids) (mirror_new b byte (map f ids)).
Proof. induction ids as [|i ids IH]; intros a b byte R; [exact R|]. cbn. eapply both_bind; [exact (ren_insert_block _ _ _ _ _ R)|]. intros x y Hxy. now apply IH. Qed.
Lemma ren_mirror_gone ids : forall a b, st_ren a b -> both st_ren (mirror_gone a ids) (mirror_gone b (map f ids)).
Proof. induction ids as [|i ids IH]; intros a b R; [exact R|]. cbn. eapply both_bind; [exact (ren_remove_block _ _ _ R)|]. intros x y Hxy. now apply IH. Qed.

(** ** The structure *)
Definition rb (b : tblock) : tblock := mk_tblock (f (tb_id b)) (tb_pos b) (tb_len b).
Definition rc (c : tcell) : tcell := mk_tcell (g (tc_id c)) (tc_row c) (tc_col c) (tc_rs c) (tc_cs c) (tc_fmt c) (map rb (tc_blocks c)).
Definition rt (d : tdoc) : tdoc :=
  mk_tdoc (t_rows d) (t_cols d) (t_widths d) (map rc (t_cells d)) (map rb (t_others d)) (t_at d) (t_count d) (t_chars d) (g (t_next d)) (f (t_nextb d)).
Definition tracked (d : tdoc) : Prop := tracks g (t_next d) /\ tracks f (t_nextb d).

Lemma ren_block_ids bs : block_ids (map rb bs) = map f (block_ids bs).
Proof. unfold block_ids. now rewrite !map_map. Qed.
Lemma ren_flat cs : flat_map tc_blocks (map rc cs) = map rb (flat_map tc_blocks cs).
Proof. induction cs as [|c cs IH]; [easy|]. cbn. now rewrite IH, map_app. Qed.
Lemma ren_cell_ids cs : cell_ids (map rc cs) = map f (cell_ids cs).
Proof. unfold cell_ids. now rewrite ren_flat, ren_block_ids. Qed.
Lemma ren_new_cell d r c rs cs : tracked d -> new_cell (rt d) r c rs cs = rt (new_cell d r c rs cs) /\ tracked (new_cell d r c rs cs).
Proof.
  intros [G F]. destruct (tracks_succ _ _ G) as [G1 G2], (tracks_succ _ _ F) as [F1 F2]. split; [|now split].
  unfold new_cell, rt. cbn. now rewrite map_app, G1, F1.
Qed.
Lemma ren_fold {A} (new : tdoc -> A -> tdoc) l : (forall d a, tracked d -> new (rt d) a = rt (new d a) /\ tracked (new d a)) ->
  forall d, tracked d -> fold_left new l (rt d) = rt (fold_left new l d) /\ tracked (fold_left new l d).
Proof.
  intros H. induction l as [|a l IH]; intros d T; [easy|]. cbn. destruct (H d a T) as [E T']. rewrite E. now apply IH.
Qed.
Lemma ren_base d : base_pos (rt d) = base_pos d.
Proof.
  unfold base_pos. cbn [rt t_cells]. rewrite ren_flat.
  assert (E : forall l m, fold_left min_pos (map rb l) m = fold_left min_pos l m) by (induction l as [|b l IH]; intros m; [easy|]; cbn; now rewrite IH).
  now rewrite E.
Qed.
Lemma ren_put_cell c l : put_cell (rc c) (map rc l) = map rc (put_cell c l).
Proof. induction l as [|x l IH]; [easy|]. cbn. change (before_cell (rc c) (rc x)) with (before_cell c x). destruct (before_cell c x); [easy|]. now rewrite IH. Qed.
Lemma ren_sort_cells l : sort_cells (map rc l) = map rc (sort_cells l).
Proof. induction l as [|c l IH]; [easy|]. cbn. unfold sort_cells in *. rewrite IH. apply ren_put_cell. Qed.
Lemma ren_put_block c l : put_block (rb c) (map rb l) = map rb (put_block c l).
Proof. induction l as [|x l IH]; [easy|]. cbn. destruct (_ <=? _); [easy|]. now rewrite IH. Qed.
Lemma ren_sort_blocks l : sort_tblocks (map rb l) = map rb (sort_tblocks l).
Proof. induction l as [|c l IH]; [easy|]. cbn. unfold sort_tblocks in *. rewrite IH. apply ren_put_block. Qed.
Definition ra (x : id * Z) : id * Z := (f (fst x), snd x).
Lemma ren_number l : forall p, number_from p (map rb l) = map ra (number_from p l).
Proof. induction l as [|b l IH]; intros p; [easy|]. cbn. now rewrite IH. Qed.
Lemma ren_assignments d base : assignments (rt d) base = map ra (assignments d base).
Proof.
  unfold assignments. cbn [rt t_cells]. rewrite ren_sort_cells, <- ren_number. f_equal.
  induction (sort_cells (t_cells d)) as [|c l IH]; [easy|]. cbn. now rewrite IH, map_app, ren_sort_blocks.
Qed.
Lemma ren_assigned l b : assigned (map ra l) (rb b) = rb (assigned l b).
Proof.
  induction l as [|[i p] l IH]; [easy|]. revert IH. unfold assigned. cbn. rewrite f_eqb. now destruct (N.eqb i (tb_id b)).
Qed.
Lemma ren_assign_cells l cs : map (fun c => TableModel.set_blocks c (map (assigned (map ra l)) (tc_blocks c))) (map rc cs)
  = map rc (map (fun c => TableModel.set_blocks c (map (assigned l) (tc_blocks c))) cs).
Proof.
  rewrite !map_map. apply map_ext. intros c. unfold TableModel.set_blocks, rc. cbn. f_equal. rewrite !map_map. apply map_ext. intros b. apply ren_assigned.
Qed.
Lemma ren_moved base n b : moved base n (rb b) = rb (moved base n b).
Proof. unfold moved. cbn. now destruct (base <=? tb_pos b). Qed.
Lemma ren_move_all base n bs : map (moved base n) (map rb bs) = map rb (map (moved base n) bs).
Proof. rewrite !map_map. apply map_ext. intros b. apply ren_moved. Qed.
Lemma ren_settle d base n : settle (rt d) base n = rt (settle d base n).
Proof.
  unfold settle, add_count, shift_others, reassign. rewrite ren_assignments. unfold set_cells, set_others, rt. cbn. rewrite ren_move_all, ren_assign_cells. reflexivity.
Qed.
Lemma tracked_settle d base n : tracked d -> tracked (settle d base n).
Proof. easy. Qed.

Lemma ren_insert_row d i : tracked d -> both (fun a b => b = rt a /\ tracked a) (insert_row d i) (insert_row (rt d) i).
Proof.
  intros T. unfold insert_row. cbn [rt t_rows t_cols t_widths]. destruct (_ || _); [easy|].
  set (d1 := set_cells d _). assert (E1 : set_cells (rt d) (map (row_inserted i) (t_cells (rt d))) = rt d1).
  { unfold d1, set_cells, rt. cbn. f_equal. rewrite !map_map. apply map_ext. intros c. unfold row_inserted, rc. cbn. destruct (i <=? tc_row c); [easy|]. now destruct (i <? _). }
  rewrite ren_base. change (map rc (t_cells d)) with (t_cells (rt d)). fold (rt d). rewrite E1.
  destruct (ren_fold (fun d c => new_cell d i c 1 1) (zrange (t_cols d)) ltac:(intros; now apply ren_new_cell) d1 T) as [E2 T2].
  rewrite E2. set (d2 := fold_left _ _ d1) in *. split; [|now apply tracked_settle].
  change (set_size (rt d2) (t_rows d + 1) (t_cols d) (t_widths d)) with (rt (set_size d2 (t_rows d + 1) (t_cols d) (t_widths d))). apply ren_settle.
Qed.
Lemma ren_insert_column d i : tracked d -> both (fun a b => b = rt a /\ tracked a) (insert_column d i) (insert_column (rt d) i).
Proof.
  intros T. unfold insert_column. cbn [rt t_rows t_cols t_widths]. destruct (_ || _); [easy|].
  set (d1 := set_cells d _). assert (E1 : set_cells (rt d) (map (column_inserted i) (t_cells (rt d))) = rt d1).
  { unfold d1, set_cells, rt. cbn. f_equal. rewrite !map_map. apply map_ext. intros c. unfold column_inserted, rc. cbn. destruct (i <=? tc_col c); [easy|]. now destruct (i <? _). }
  rewrite ren_base. change (map rc (t_cells d)) with (t_cells (rt d)). fold (rt d). rewrite E1.
  destruct (ren_fold (fun d r => new_cell d r i 1 1) (zrange (t_rows d)) ltac:(intros; now apply ren_new_cell) d1 T) as [E2 T2].
  rewrite E2. set (d2 := fold_left _ _ d1) in *. split; [|now apply tracked_settle]. set (ws := put_at _ _ _).
  change (set_size (rt d2) (t_rows d) (t_cols d + 1) ws) with (rt (set_size d2 (t_rows d) (t_cols d + 1) ws)). apply ren_settle.
Qed.
Lemma ren_filter p q cs : (forall c, q (rc c) = p c) -> filter q (map rc cs) = map rc (filter p cs).
Proof. intros H. induction cs as [|c cs IH]; [easy|]. cbn. rewrite H, IH. now destruct (p c). Qed.
Lemma ren_map_cells F G cs : (forall c, G (rc c) = rc (F c)) -> map G (map rc cs) = map rc (map F cs).
Proof. intros H. rewrite !map_map. now apply map_ext. Qed.
Lemma ren_remove_row d i : tracked d -> both (fun a b => b = rt a /\ tracked a) (remove_row d i) (remove_row (rt d) i).
Proof.
  intros T. unfold remove_row. cbn [rt t_rows t_cols t_widths t_cells]. destruct (_ || _); [easy|]. destruct (_ <=? 1); [easy|]. split; [|easy].
  fold (rt d). rewrite ren_base. rewrite (ren_filter (row_goes i) (row_goes i)) by easy. rewrite map_length.
  rewrite (ren_filter (fun c => negb (row_goes i c)) (fun c => negb (row_goes i c))) by easy.
  rewrite (ren_map_cells (row_removed i) (row_removed i)) by (intros c; unfold row_removed, rc; cbn; repeat destruct (_ && _); try easy; now destruct (i <? _)).
  exact (ren_settle (set_size (set_cells d (map (row_removed i) (filter (fun c => negb (row_goes i c)) (t_cells d)))) (t_rows d - 1) (t_cols d) (t_widths d)) _ _).
Qed.
Lemma ren_remove_column d i : tracked d -> both (fun a b => b = rt a /\ tracked a) (remove_column d i) (remove_column (rt d) i).
Proof.
  intros T. unfold remove_column. cbn [rt t_rows t_cols t_widths t_cells]. destruct (_ <=? 1); [easy|]. destruct (_ || _); [easy|]. split; [|easy].
  fold (rt d). rewrite ren_base. rewrite (ren_filter (column_goes i) (column_goes i)) by easy. rewrite map_length.
  rewrite (ren_filter (fun c => negb (column_goes i c)) (fun c => negb (column_goes i c))) by easy.
  rewrite (ren_map_cells (column_removed i) (column_removed i)) by (intros c; unfold column_removed, rc; cbn; repeat destruct (_ && _); try easy; now destruct (i <? _)).
  exact (ren_settle (set_size (set_cells d (map (column_removed i) (filter (fun c => negb (column_goes i c)) (t_cells d)))) (t_rows d) (t_cols d - 1) (drop_at (t_widths d) (Z.to_nat i))) _ _).
Qed.
Lemma ren_find p q cs : (forall c, q (rc c) = p c) -> find q (map rc cs) = option_map rc (find p cs).
Proof. intros H. induction cs as [|c cs IH]; [easy|]. cbn. rewrite H, IH. now destruct (p c). Qed.
Lemma ren_exists p q cs : (forall c, q (rc c) = p c) -> existsb q (map rc cs) = existsb p cs.
Proof. intros H. induction cs as [|c cs IH]; [easy|]. cbn. now rewrite H, IH. Qed.
Lemma ren_merge d r0 c0 r1 c1 : tracked d ->
  both (fun a b => fst b = rt (fst a) /\ snd b = g (snd a) /\ tracked (fst a)) (merge_cells d r0 c0 r1 c1) (merge_cells (rt d) r0 c0 r1 c1).
Proof.
  intros T. unfold merge_cells. cbn [rt t_rows t_cols t_cells]. destruct (_ <? _); [easy|]. destruct (_ <? _); [easy|]. destruct (_ || _); [easy|].
  fold (rt d). rewrite ren_base. rewrite (ren_filter (starts_in r0 c0 r1 c1) (starts_in r0 c0 r1 c1)) by easy.
  set (inside := filter _ (t_cells d)). rewrite (ren_exists (fun c => (1 <? tc_rs c) || (1 <? tc_cs c))) by easy.
  destruct (existsb _ inside); [easy|]. rewrite (ren_find (fun c => (tc_row c =? r0) && (tc_col c =? c0))) by easy.
  destruct (find _ inside) as [s|]; [|easy]. cbn [option_map ok_or bind both fst snd]. split; [|easy].
  rewrite (ren_filter (fun c => starts_in r0 c0 r1 c1 c && negb (N.eqb (tc_id c) (tc_id s))) (fun c => starts_in r0 c0 r1 c1 c && negb (N.eqb (tc_id c) (tc_id (rc s))))) by (intros c; change (tc_id (rc c)) with (g (tc_id c)); change (tc_id (rc s)) with (g (tc_id s)); rewrite g_eqb; reflexivity). rewrite map_length.
  rewrite (ren_filter (fun c => negb (starts_in r0 c0 r1 c1 c && negb (N.eqb (tc_id c) (tc_id s)))) (fun c => negb (starts_in r0 c0 r1 c1 c && negb (N.eqb (tc_id c) (tc_id (rc s)))))) by (intros c; change (tc_id (rc c)) with (g (tc_id c)); change (tc_id (rc s)) with (g (tc_id s)); rewrite g_eqb; reflexivity).
  set (gone := length _). set (kept := filter _ (t_cells d)).
  rewrite (ren_map_cells (fun c => if N.eqb (tc_id c) (tc_id s) then set_spans s (r1 - r0 + 1) (c1 - c0 + 1) else c))
    by (intros c; cbn; rewrite g_eqb; now destruct (N.eqb (tc_id c) (tc_id s))).
  exact (ren_settle (set_cells d (map (fun c => if N.eqb (tc_id c) (tc_id s) then set_spans s (r1 - r0 + 1) (c1 - c0 + 1) else c) kept)) _ _).
Qed.
Lemma ren_split d i sr sc : tracked d -> both (fun a b => b = rt a /\ tracked a) (split_cell d i sr sc) (split_cell (rt d) (g i) sr sc).
Proof.
  intros T. unfold split_cell. cbn [rt t_cells]. fold (rt d). destruct (_ || _); [easy|]. rewrite (ren_find (fun c => N.eqb (tc_id c) i)) by (intros c; cbn; apply g_eqb).
  destruct (find _ (t_cells d)) as [c|]; [|easy]. cbn [option_map ok_or bind]. change (tc_rs (rc c)) with (tc_rs c). change (tc_cs (rc c)) with (tc_cs c).
  change (sub_cells (rc c) sr sc) with (sub_cells c sr sc). destruct (_ <? _); [easy|]. destruct (_ <? _); [easy|]. destruct (_ && _); [easy|].
  destruct (sub_cells c sr sc) as [|[[[r k] rs0] cs0] rest]; [easy|]. rewrite ren_base.
  rewrite (ren_map_cells (fun x => if N.eqb (tc_id x) i then set_spans x rs0 cs0 else x)) by (intros x; cbn; rewrite g_eqb; now destruct (N.eqb (tc_id x) i)).
  set (d1 := set_cells d (map (fun x => if N.eqb (tc_id x) i then set_spans x rs0 cs0 else x) (t_cells d))).
  change (set_cells (rt d) (map rc (map (fun x => if N.eqb (tc_id x) i then set_spans x rs0 cs0 else x) (t_cells d)))) with (rt d1).
  destruct (ren_fold (fun d '(r, k, rs, cs) => new_cell d r k rs cs) rest ltac:(intros ? [[[? ?] ?] ?] ?; now apply ren_new_cell) d1 T) as [E2 T2].
  rewrite E2. split; [apply ren_settle|now apply tracked_settle].
Qed.

(** ** Both *)
Record alike (x y : xdoc) : Prop := {
  alike_table : x_table y = rt (x_table x); alike_store : st_ren (x_store x) (x_store y); alike_tid : x_tid y = h (x_tid x)
}.
Lemma ren_frame_end a b d tid : st_ren a b -> frame_end b (rt d) (h tid) = frame_end a d tid.
Proof.
  intros [_ I]. unfold frame_end. rewrite <- (ren_walk _ _ _ I). cbn [rt t_others t_cells]. rewrite ren_block_ids, ren_cell_ids, map_app. cbn [map rm].
  rewrite !map_map. reflexivity.
Qed.
Definition ro (o : top) : top := match o with Split i sr sc => Split (g i) sr sc | _ => o end.
Definition next_alike (x y : xdoc) : Prop := alike x y /\ tracked (x_table x).
Lemma ren_with_new x y d' : alike x y -> tracked (x_table x) -> tracked d' -> both next_alike (with_new x d') (with_new y (rt d')).
Proof.
  intros [A B C] T T'. unfold with_new. rewrite C, (ren_frame_end _ _ d' (x_tid x) B). apply both_same. intros byte.
  assert (E : new_blocks (x_table y) (rt d') = map f (new_blocks (x_table x) d')).
  { unfold new_blocks. rewrite A. cbn [rt t_cells t_nextb]. rewrite ren_cell_ids. induction (cell_ids (t_cells d')) as [|i l IH]; [easy|].
    cbn [map filter]. rewrite (tracks_leb f (t_nextb (x_table x)) i (proj2 T)). destruct (N.leb _ i); cbn [map]; now rewrite IH. }
  rewrite E. eapply both_bind; [exact (ren_mirror_new _ _ _ _ B)|]. intros st st' R. split; [|easy]. now constructor.
Qed.
Lemma ren_without x y goes goes' d' : alike x y -> tracked d' -> (forall c, goes' (rc c) = goes c) -> both next_alike (without x goes d') (without y goes' (rt d')).
Proof.
  intros [A B C] T' Hg. unfold without. rewrite A. cbn [rt t_cells]. rewrite (ren_filter goes goes') by easy. rewrite ren_cell_ids.
  eapply both_bind; [exact (ren_mirror_gone _ _ _ B)|]. intros st st' R. split; [|easy]. now constructor.
Qed.
Lemma ren_step x y o : alike x y -> tracked (x_table x) -> both next_alike (x_step x o) (x_step y (ro o)).
Proof.
  intros A T. destruct o; cbn [x_step ro]; rewrite (alike_table _ _ A).
  - eapply both_bind; [exact (ren_insert_row _ _ T)|]. intros d d' [-> T']. now apply ren_with_new.
  - eapply both_bind; [exact (ren_insert_column _ _ T)|]. intros d d' [-> T']. now apply ren_with_new.
  - eapply both_bind; [exact (ren_remove_row _ _ T)|]. intros d d' [-> T']. now apply ren_without.
  - eapply both_bind; [exact (ren_remove_column _ _ T)|]. intros d d' [-> T']. now apply ren_without.
  - eapply both_bind; [exact (ren_merge _ _ _ _ _ T)|]. intros [d s] [d' s'] (E & E' & T'). cbn [fst snd] in *. subst d' s'.
    apply ren_without; try easy. intros c. cbn. now rewrite g_eqb.
  - eapply both_bind; [exact (ren_split _ _ _ _ T)|]. intros d d' [-> T']. now apply ren_with_new.
Qed.
Lemma ren_remove_table x y : alike x y ->
  both (fun a b => let '(o, n, ch, st) := a in let '(o', n', ch', st') := b in o' = map rb o /\ n' = n /\ ch' = ch /\ st_ren st st')
    (x_remove_table x) (x_remove_table y).
Proof.
  intros [A B C]. unfold x_remove_table. rewrite A, C. cbn [rt t_cells t_others t_count t_chars]. fold (rt (x_table x)). rewrite ren_cell_ids, map_length.
  eapply both_bind; [exact (ren_mirror_gone _ _ _ B)|]. intros st st' R. eapply both_bind; [exact (ren_remove_anchor _ _ _ R)|]. intros st2 st2' R2.
  cbn [both]. split; [|easy]. rewrite ren_base. destruct (cell_ids (t_cells (x_table x))) as [|i l]; [easy|]. cbn [map]. apply ren_move_all.
Qed.
Lemma ren_insert_table others at_ start rows cols count chars next nextb : tracks g next -> tracks f nextb ->
  both (fun a b => b = rt a /\ tracked a) (insert_table others at_ start rows cols count chars next nextb)
    (insert_table (map rb others) at_ start rows cols count chars (g next) (f nextb)).
Proof.
  intros G F. unfold insert_table. destruct (_ || _); [easy|].
  set (d0 := mk_tdoc rows cols (repeat 0 (Z.to_nat cols)) [] others at_ count chars next nextb).
  change (mk_tdoc rows cols (repeat 0 (Z.to_nat cols)) [] (map rb others) at_ count chars (g next) (f nextb)) with (rt d0).
  destruct (ren_fold (fun d r => fold_left (fun d c => new_cell d r c 1 1) (zrange cols) d) (zrange rows)
    ltac:(intros; apply (ren_fold (fun d c => new_cell d a c 1 1)); [intros; now apply ren_new_cell|easy]) d0 (conj G F)) as [E T].
  rewrite E. set (d1 := fold_left _ _ d0) in *. split; [|easy]. unfold add_count, shift_others, set_others, set_cells, rt. cbn.
  rewrite ren_move_all. f_equal. rewrite ren_flat, ren_number. now rewrite ren_assign_cells.
Qed.
End Rename.
