(** Facts about edits at positions of a document with a table. *)
From Coq Require Import Sorting.Permutation.
From Verif Require Import Base RopeModel RopeSpec RopeFacts TableModel TableSpec TableFacts TablePlaces TableTheorems TableTextModel TableTextSpec TableTextFacts TableTextEdits TableTextTheorems TableEditModel TableEditSpec PropSpec FlowSpec.

(** ** Text with breaks *)
Definition lead (ts : list str) : str := flat_map (fun t => t ++ [NL]) ts.
Definition trail (ts : list str) : str := flat_map (fun t => NL :: t) ts.
Lemma joined_mid ts1 t ts2 : joined (ts1 ++ t :: ts2) = lead ts1 ++ t ++ trail ts2.
Proof.
  assert (X : forall ts t, joined (t :: ts) = t ++ trail ts).
  { induction ts as [|u ts IH]; intros t'; [cbn; now rewrite app_nil_r|]. change (joined (t' :: u :: ts)) with (t' ++ NL :: joined (u :: ts)). now rewrite IH. }
  induction ts1 as [|u ts1 IH]; [apply X|]. cbn [app lead flat_map]. fold (lead ts1). rewrite <- app_assoc.
  destruct (ts1 ++ t :: ts2) as [|v l] eqn:E; [now destruct ts1|]. change (joined (u :: v :: l)) with (u ++ NL :: joined (v :: l)). rewrite IH, <- app_assoc. reflexivity.
Qed.
Lemma lead_length ts : length (lead ts) = starts ts.
Proof. induction ts as [|t ts IH]; [easy|]. cbn [lead flat_map starts fold_right]. fold (lead ts) (starts ts). rewrite !app_length, IH. cbn. lia. Qed.
Lemma splice ts1 t ts2 k : k <= length t ->
  firstn (starts ts1 + k) (joined (ts1 ++ t :: ts2)) = lead ts1 ++ firstn k t /\ skipn (starts ts1 + k) (joined (ts1 ++ t :: ts2)) = skipn k t ++ trail ts2.
Proof.
  intros K. rewrite joined_mid, <- lead_length, firstn_app, skipn_app. replace (length (lead ts1) + k - length (lead ts1)) with k by lia.
  rewrite firstn_all2, skipn_all2 by lia. cbn [app]. rewrite firstn_app, skipn_app. replace (k - length t) with 0 by lia. cbn [firstn skipn]. now rewrite app_nil_r.
Qed.
Lemma joined_length ts1 t : length (joined (ts1 ++ [t])) = starts ts1 + length t.
Proof. rewrite joined_mid. cbn [trail flat_map]. now rewrite app_nil_r, app_length, lead_length. Qed.
Lemma start_mid ts1 (t : str) ts2 : start_of (length ts1) (ts1 ++ t :: ts2) = starts ts1.
Proof. unfold start_of. now rewrite firstn_app, Nat.sub_diag, firstn_all, app_nil_r. Qed.

(** ** The order of the paragraphs *)
Lemma set_blocks_before f a b : before_cell (TableModel.set_blocks a (f a)) (TableModel.set_blocks b (f b)) = before_cell a b.
Proof. reflexivity. Qed.
Lemma sort_set_blocks (f : tcell -> list tblock) l : sort_cells (map (fun c => TableModel.set_blocks c (f c)) l) = map (fun c => TableModel.set_blocks c (f c)) (sort_cells l).
Proof.
  assert (P : forall c l, put_cell (TableModel.set_blocks c (f c)) (map (fun c => TableModel.set_blocks c (f c)) l) = map (fun c => TableModel.set_blocks c (f c)) (put_cell c l)).
  { clear. intros c. induction l as [|x l IH]; [easy|]. cbn [map put_cell]. rewrite set_blocks_before. destruct (before_cell c x); [easy|]. cbn [map]. now rewrite IH. }
  induction l as [|c l IH]; [easy|]. cbn [map sort_cells fold_right]. fold (sort_cells (map (fun c => TableModel.set_blocks c (f c)) l)) (sort_cells l). rewrite IH. apply P.
Qed.
Lemma flow_edit d f n : flow_blocks (edit_blocks d f n) = map f (flow_blocks d).
Proof.
  unfold flow_blocks, edit_blocks. cbn [t_at t_others t_cells]. rewrite sort_set_blocks, !map_app, firstn_map, skipn_map. do 2 f_equal.
  induction (sort_cells (t_cells d)) as [|c l IH]; [easy|]. cbn [map flat_map]. rewrite map_app, IH. reflexivity.
Qed.
Lemma edit_same d f n : (forall y, tb_id (f y) = tb_id y) -> same_blocks d (edit_blocks d f n).
Proof.
  intros K. assert (I : forall bs, block_ids (map f bs) = block_ids bs) by (intros bs; unfold block_ids; rewrite map_map; now apply map_ext).
  split; [|split; [|split; [|split]]]; cbn [edit_blocks t_others t_at t_cells t_nextb]; try easy.
  - repeat split; cbn [edit_blocks t_cells t_next]; [|lia]. rewrite map_map. apply map_ext. reflexivity.
  - rewrite map_map. apply map_ext. intros c. unfold block_shape. cbn. apply I.
Qed.
Lemma flow_flow d : flow_blocks d = flow d (sort_cells (t_cells d)).
Proof. reflexivity. Qed.
Lemma history_order x l : xhistory x -> Permutation l (t_cells (x_table x)) -> reads l -> l = sort_cells (t_cells (x_table x)).
Proof.
  intros H P R. destruct (x_history _ H) as [_ T]. destruct (history_grid _ T) as [G O]. apply reads_unique; [easy|now apply sort_cells_reads|]. rewrite P. symmetry. apply sort_cells_perm.
Qed.
Lemma history_reads x : xhistory x -> reads (sort_cells (t_cells (x_table x))).
Proof. intros H. destruct (x_history _ H) as [_ T]. destruct (history_grid _ T) as [G O]. now apply sort_cells_reads. Qed.
Lemma order_flow x bs : xhistory x -> document_order x bs <-> bs = flow_blocks (x_table x).
Proof.
  intros H. split.
  - intros (l & P & R & ->). rewrite (history_order _ _ H P R). reflexivity.
  - intros ->. exists (sort_cells (t_cells (x_table x))). split; [apply sort_cells_perm|]. split; [now apply history_reads|easy].
Qed.
Lemma placed_flow x : xhistory x -> placed (x_table x) <-> in_place 0 (flow_blocks (x_table x)).
Proof.
  intros H. split.
  - intros (l & P & R & I). rewrite (history_order _ _ H P R) in I. exact I.
  - intros I. exists (sort_cells (t_cells (x_table x))). split; [apply sort_cells_perm|]. split; [now apply history_reads|exact I].
Qed.
Lemma flow_all d : Permutation (flow_blocks d) (t_others d ++ flat_map tc_blocks (t_cells d)).
Proof. apply (flow_perm d (sort_cells (t_cells d))), sort_cells_perm. Qed.
Lemma counted_flow d : counted_right d <-> t_count d = Z.of_nat (length (flow_blocks d)) /\ t_chars d = TableTextTheorems.lengths (flow_blocks d).
Proof.
  unfold counted_right, blocks_of, chars_of. rewrite (Permutation_length (flow_all d)), app_length, (lengths_perm _ _ (flow_all d)). reflexivity.
Qed.
Lemma flow_ids_nodup x : xhistory x -> NoDup (block_ids (flow_blocks (x_table x))).
Proof. intros H. apply (flow_nodup x (sort_cells (t_cells (x_table x))) H), sort_cells_perm. Qed.
Lemma flow_block_in x b : In b (flow_blocks (x_table x)) -> block_in x (tb_id b).
Proof.
  intros H. apply (Permutation_in b (flow_all _)) in H. apply in_app_iff in H. destruct H as [H|H]; [left|right; unfold cell_ids]; unfold block_ids; now apply in_map.
Qed.
Lemma chars_known x b t : xhistory x -> block_in x b -> text_of x b = Ok t -> block_char_length (x_store x) b = Ok (length t).
Proof.
  intros H Hb E. destruct (x_history _ H) as [(la & lb & lc & L) _]. destruct (layout_in _ _ _ _ _ L Hb) as (u & Hu & Eu).
  assert (u = t) by congruence. subst u. destruct L as (R & _). apply in_split in Hu. destruct Hu as (pre & post & Hu). rewrite Hu in R. exact (rep_char_length _ _ _ _ _ R).
Qed.

(** ** What is known about an edited document *)
Definition known (x : xdoc) (b : tblock) (t : str) : Prop :=
  text_of x (tb_id b) = Ok t /\ block_char_length (x_store x) (tb_id b) = Ok (length t) /\ tb_len b = Z.of_nat (length t).
Definition seen (x : xdoc) (bs : list tblock) (ts : list str) : Prop := Forall2 (known x) bs ts.
Record inv (x : xdoc) : Prop := mk_inv {
  inv_history : xhistory x; inv_placed : in_place 0 (flow_blocks (x_table x));
  inv_count : t_count (x_table x) = Z.of_nat (length (flow_blocks (x_table x)));
  inv_chars : t_chars (x_table x) = TableTextTheorems.lengths (flow_blocks (x_table x));
  inv_single : forall c, In c (t_cells (x_table x)) -> length (tc_blocks c) = 1;
  inv_seen : exists ts, seen x (flow_blocks (x_table x)) ts }.
Lemma seen_texts x bs ts : seen x bs ts -> map (fun b => text_of x (tb_id b)) bs = map Ok ts.
Proof. induction 1 as [|b t bs ts (E & _) _ IH]; [easy|]. cbn. now rewrite E, IH. Qed.
Lemma Ok_inj (a b : list str) : map (@Ok str) a = map Ok b -> a = b.
Proof. revert b. induction a as [|x a IH]; intros [|y b] E; try discriminate; [easy|]. cbn in E. injection E as -> E. f_equal. now apply IH. Qed.
Lemma texts_seen x ts : inv x -> document_texts x ts <-> seen x (flow_blocks (x_table x)) ts.
Proof.
  intros I. split.
  - intros (bs & O & E). apply (order_flow _ _ (inv_history _ I)) in O. subst bs. destruct (inv_seen _ I) as [us S]. rewrite (seen_texts _ _ _ S) in E. apply Ok_inj in E. now subst us.
  - intros S. exists (flow_blocks (x_table x)). split; [now apply order_flow; [apply (inv_history _ I)|]|now apply seen_texts].
Qed.
Lemma seen_intro x bs ts : xhistory x -> (forall b, In b bs -> In b (flow_blocks (x_table x))) ->
  Forall2 (fun b t => text_of x (tb_id b) = Ok t /\ tb_len b = Z.of_nat (length t)) bs ts -> seen x bs ts.
Proof.
  intros H I F. induction F as [|b t bs ts (E1 & E2) F IH]; constructor; [|apply IH; intros; apply I; now right].
  split; [easy|]. split; [|easy]. apply chars_known; [easy| |easy]. apply flow_block_in, I. now left.
Qed.
Lemma seen_lens x bs ts : seen x bs ts -> forall b, In b bs -> (0 <= tb_len b)%Z.
Proof. induction 1 as [|b t bs ts (_ & _ & E) _ IH]; intros y [<-|Hy] || intros y []; [lia|now apply IH]. Qed.
Lemma seen_app x a b ts : seen x (a ++ b) ts -> exists t1 t2, ts = t1 ++ t2 /\ seen x a t1 /\ seen x b t2.
Proof. intros S. apply Forall2_app_inv_l in S. destruct S as (t1 & t2 & S1 & S2 & E). now exists t1, t2. Qed.
Lemma seen_width x bs ts : seen x bs ts -> width bs = Z.of_nat (starts ts).
Proof. induction 1 as [|b t bs ts (_ & _ & E) _ IH]; [easy|]. cbn [width fold_right starts]. fold (width bs) (starts ts). rewrite IH, E. lia. Qed.
Lemma flow_nonempty x : xhistory x -> flow_blocks (x_table x) <> [].
Proof.
  intros H E. destruct (x_history _ H) as [(la & lb & lc & L) _]. destruct L as (_ & _ & _ & _ & _ & N). apply N.
  assert (P := flow_all (x_table x)). rewrite E in P. apply Permutation_nil in P. apply app_eq_nil in P. apply P.
Qed.

(** ** Finding a position *)
Local Open Scope Z_scope.
Lemma find_split x bs : forall ts r p, seen x bs ts -> bs <> [] -> r <= p ->
  exists pre b post ts1 t ts2 k, bs = pre ++ b :: post /\ ts = ts1 ++ t :: ts2 /\ length pre = length ts1 /\ seen x pre ts1 /\ known x b t /\ seen x post ts2
   /\ seq_find (x_store x) bs r p = Ok (b, r + Z.of_nat (starts ts1)) /\ (in_place r bs -> find_stored (x_store x) bs p = Ok (b, Z.of_nat k))
   /\ (k <= length t)%nat /\ Z.max 0 (Z.min (Z.of_nat (length t)) (p - (r + Z.of_nat (starts ts1)))) = Z.of_nat k
   /\ (p = r + Z.of_nat (starts ts1 + k) \/ ts2 = [] /\ k = length t /\ r + Z.of_nat (starts ts1 + k) < p).
Proof.
  induction bs as [|b bs IH]; intros ts r p Se N Hp; [easy|]. inversion Se as [|b' t bs' ts' K S']; subst. assert (K0 := K). destruct K as (_ & K2 & K3).
  cbn [seq_find find_stored]. unfold len_in. rewrite K2. cbn [bind].
  assert (D : p <= r + Z.of_nat (length t) \/ r + Z.of_nat (length t) < p) by lia. destruct D as [D|D].
  - exists [], b, bs, [], t, ts', (Z.to_nat (p - r)). cbn [starts fold_right app length]. do 3 (split; [easy|]). split; [constructor|]. split; [easy|]. split; [easy|].
    replace (r + Z.of_nat 0) with r by lia. destruct (Z.leb_spec r p); [|lia]. destruct (Z.leb_spec p (r + Z.of_nat (length t))); [|lia]. cbn [andb].
    split; [easy|]. split; [|split; [lia|split; [lia|left; lia]]]. cbn [in_place]. intros [-> _]. destruct (Z.leb_spec r p); [|lia].
    destruct (Z.leb_spec p (r + Z.of_nat (length t))); [|lia]. cbn [andb]. do 2 f_equal. lia.
  - destruct (Z.leb_spec r p); [|lia]. destruct (Z.leb_spec p (r + Z.of_nat (length t))); [lia|]. cbn [andb].
    destruct bs as [|b2 bs].
    + inversion S'; subst. exists [], b, [], [], t, [], (length t). cbn [starts fold_right app length]. do 3 (split; [easy|]). split; [constructor|]. split; [easy|]. split; [constructor|].
      replace (r + Z.of_nat 0) with r by lia. split; [easy|]. split; [|split; [lia|split; [lia|right; repeat split; lia]]].
      intros [-> _]. destruct (Z.leb_spec r p); [|lia]. destruct (Z.leb_spec p (r + Z.of_nat (length t))); [lia|]. cbn [andb]. reflexivity.
    + destruct (IH ts' (r + Z.of_nat (length t) + 1) p S' ltac:(easy) ltac:(lia)) as (pre & c & post & ts1 & u & ts2 & k & E1 & E2 & E3 & S1 & Kc & S2 & F1 & F2 & Hk & M & W).
      exists (b :: pre), c, post, (t :: ts1), u, ts2, k. cbn [app length]. split; [now rewrite E1|]. split; [now rewrite E2|]. split; [now rewrite E3|]. split; [now constructor|]. split; [easy|]. split; [easy|].
      cbn [starts fold_right]. fold (starts ts1).
      replace (r + Z.of_nat (S (length t + starts ts1))) with (r + Z.of_nat (length t) + 1 + Z.of_nat (starts ts1)) by lia.
      replace (r + Z.of_nat (S (length t + starts ts1) + k)) with (r + Z.of_nat (length t) + 1 + Z.of_nat (starts ts1 + k)) by lia.
      split; [exact F1|]. split; [|now split].
      intros I. assert (I' := I). cbn [in_place] in I. destruct I as [Eb I]. rewrite K3 in I. rewrite Eb. destruct (Z.leb_spec r p); [|lia].
      destruct (Z.leb_spec p (r + Z.of_nat (length t))); [lia|]. cbn [andb]. apply F2. exact I.
Qed.
Definition later (n : Z) (y : tblock) : tblock := mk_tblock (tb_id y) (tb_pos y + n) (tb_len y).
Lemma in_place_later n bs : forall p, in_place p bs -> in_place (p + n) (map (later n) bs).
Proof.
  induction bs as [|y bs IH]; intros p; [easy|]. cbn [in_place map later tb_pos tb_len]. intros [E H]. split; [lia|].
  replace (p + n + tb_len y + 1) with (p + tb_len y + 1 + n) by lia. now apply IH.
Qed.
Lemma lengths_shift n bs : TableTextTheorems.lengths (map (later n) bs) = TableTextTheorems.lengths bs.
Proof. induction bs as [|y bs IH]; [easy|]. cbn [map TableTextTheorems.lengths fold_right later tb_len]. fold (TableTextTheorems.lengths (map (later n) bs)) (TableTextTheorems.lengths bs). now rewrite IH. Qed.
(** Positions rise along the document. *)
Lemma in_place_split r pre b post : (forall y, In y (pre ++ b :: post) -> 0 <= tb_len y) -> in_place r (pre ++ b :: post) ->
  (forall y, In y pre -> tb_pos y + tb_len y < tb_pos b) /\ (forall y, In y post -> tb_pos b + tb_len b < tb_pos y).
Proof.
  intros L I. apply in_place_app in I. destruct I as [I1 I2]. cbn [in_place] in I2. destruct I2 as [Eb I2]. split; intros y Hy.
  - clear I2. apply in_split in Hy. destruct Hy as (u & v & ->). rewrite in_place_app in I1. cbn [in_place] in I1. destruct I1 as (_ & Ey & I1).
    assert (W : 0 <= width v).
    { assert (Q : forall z, In z v -> 0 <= tb_len z) by (intros z Hz; apply L; rewrite !in_app_iff; cbn [In]; tauto). clear -Q.
      induction v as [|z v IH]; cbn [width fold_right]; [lia|]. fold (width v). assert (0 <= tb_len z) by (apply Q; now left). assert (0 <= width v) by (apply IH; intros; apply Q; now right). lia. }
    rewrite Eb, Ey. assert (X : width (u ++ y :: v) = width u + (tb_len y + 1 + width v)).
    { clear. induction u as [|z u IH]; cbn [app width fold_right]; fold (width (u ++ y :: v)) || fold (width v); [lia|]. fold (width u). rewrite IH. lia. }
    rewrite X. lia.
  - assert (Q : forall z, In z post -> 0 <= tb_len z) by (intros z Hz; apply L; apply in_app_iff; right; now right).
    assert (B := in_place_bounds post Q _ I2 y Hy). lia.
Qed.

(** ** Changing one block and moving those behind it *)
Lemma edit_split (f : tblock -> tblock) (n : Z) pre b post :
  (forall y, In y pre -> f y = y) -> (forall y, In y post -> f y = later n y) -> map f (pre ++ b :: post) = pre ++ f b :: map (later n) post.
Proof.
  intros F1 F2. rewrite map_app. cbn [map]. f_equal; [|f_equal; now apply map_ext_in]. rewrite (map_ext_in f (fun y => y)), map_id; easy.
Qed.
Lemma nodup_split pre b post : NoDup (block_ids (pre ++ b :: post)) ->
  (forall y, In y pre -> tb_id y <> tb_id b) /\ (forall y, In y post -> tb_id y <> tb_id b).
Proof.
  intros N. unfold block_ids in N. rewrite map_app in N. cbn [map] in N. apply NoDup_remove_2 in N. rewrite in_app_iff in N.
  split; intros y Hy E; apply N; [left|right]; rewrite <- E; now apply in_map.
Qed.
(** The invariant after the text of block [b] has become [u]: the blocks before it stay,
    those behind move by the difference. *)
Lemma inv_edited x st f chars pre b post ts1 t ts2 u :
  inv x -> flow_blocks (x_table x) = pre ++ b :: post -> seen x pre ts1 -> known x b t -> seen x post ts2 ->
  let n := Z.of_nat (length u) - Z.of_nat (length t) in
  (forall y, tb_id (f y) = tb_id y) -> (forall y, In y pre -> f y = y) -> (forall y, In y post -> f y = later n y) -> f b = mk_tblock (tb_id b) (tb_pos b) (tb_len b + n) ->
  chars = t_chars (x_table x) + n ->
  let x' := mk_xdoc (edit_blocks (x_table x) f chars) st (x_tid x) in
  xhistory x' -> text_of x' (tb_id b) = Ok u -> (forall i, block_in x i -> i <> tb_id b -> text_of x' i = text_of x i) ->
  inv x' /\ seen x' (flow_blocks (x_table x')) (ts1 ++ u :: ts2).
Proof.
  intros I Ef S1 K S2 n Fi F1 F2 Fb Ec x' H' Tb To. assert (H := inv_history _ I). assert (N := flow_ids_nodup _ H). rewrite Ef in N. destruct (nodup_split _ _ _ N) as [D1 D2].
  assert (Ef' : flow_blocks (x_table x') = pre ++ mk_tblock (tb_id b) (tb_pos b) (tb_len b + n) :: map (later n) post).
  { cbn [x' x_table]. rewrite flow_edit, Ef, (edit_split f n) by easy. now rewrite Fb. }
  assert (Kb : tb_len b = Z.of_nat (length t)) by apply K.
  assert (S' : seen x' (flow_blocks (x_table x')) (ts1 ++ u :: ts2)).
  { apply seen_intro; [easy|easy|]. rewrite Ef'. apply Forall2_app; [|constructor].
    - assert (G : forall y, In y pre -> block_in x (tb_id y) /\ tb_id y <> tb_id b).
      { intros y Hy. split; [apply flow_block_in; rewrite Ef; apply in_app_iff; now left|now apply D1]. }
      clear -S1 G To. induction S1 as [|y v ys vs (E1 & _ & E2) _ IH]; constructor; [|apply IH; intros; apply G; now right].
      split; [|easy]. rewrite To; [easy| |]; apply G; now left.
    - split; [exact Tb|]. cbn [tb_len]. lia.
    - assert (G : forall y, In y post -> block_in x (tb_id y) /\ tb_id y <> tb_id b).
      { intros y Hy. split; [apply flow_block_in; rewrite Ef; apply in_app_iff; right; now right|now apply D2]. }
      clear -S2 G To. induction S2 as [|y v ys vs (E1 & _ & E2) _ IH]; constructor; [|apply IH; intros; apply G; now right].
      split; [|easy]. cbn [later tb_id]. rewrite To; [easy| |]; apply G; now left. }
  split; [|exact S']. constructor.
  - exact H'.
  - rewrite Ef'. assert (P := inv_placed _ I). rewrite Ef in P. apply in_place_app in P. destruct P as [P1 P2]. apply in_place_app. split; [easy|].
    cbn [in_place tb_pos tb_len] in *. destruct P2 as [P2 P3]. split; [easy|]. replace (0 + width pre + (tb_len b + n) + 1) with (0 + width pre + tb_len b + 1 + n) by lia. now apply in_place_later.
  - rewrite Ef'. cbn [x' x_table edit_blocks t_count]. rewrite (inv_count _ I), Ef, !app_length. cbn [length]. now rewrite map_length.
  - rewrite Ef'. cbn [x' x_table edit_blocks t_chars]. rewrite Ec, (inv_chars _ I), Ef, !lengths_app. cbn [TableTextTheorems.lengths fold_right tb_len].
    fold (TableTextTheorems.lengths post) (TableTextTheorems.lengths (map (later n) post)). rewrite lengths_shift. lia.
  - intros c Hc. cbn [x' x_table edit_blocks t_cells] in Hc. apply in_map_iff in Hc. destruct Hc as (c0 & <- & Hc). cbn. rewrite map_length. now apply (inv_single _ I).
  - eexists. exact S'.
Qed.

(** ** Typing *)
Lemma type_inv x ts p text : inv x -> seen x (flow_blocks (x_table x)) ts ->
  exists x' ts1 t ts2 k, ts = ts1 ++ t :: ts2 /\ (k <= length t)%nat
   /\ (p = starts ts1 + k \/ ts2 = [] /\ k = length t /\ starts ts1 + k < p)%nat
   /\ x_insert_text x (Z.of_nat p) text = Ok (x', Z.of_nat (starts ts1 + k + length text))
   /\ inv x' /\ seen x' (flow_blocks (x_table x')) (ts1 ++ (firstn k t ++ text ++ skipn k t) :: ts2) /\ same_blocks (x_table x) (x_table x').
Proof.
  intros I Se. assert (H := inv_history _ I).
  destruct (find_split x _ ts 0 (Z.of_nat p) Se (flow_nonempty _ H) ltac:(lia)) as (pre & b & post & ts1 & t & ts2 & k & Ef & Et & _ & S1 & K & S2 & F1 & _ & Hk & M & W).
  assert (Hb : block_in x (tb_id b)) by (apply flow_block_in; rewrite Ef; apply in_app_iff; right; now left).
  destruct (text_type x (tb_id b) k text H Hb) as (t' & st & E1 & E2 & X). assert (t' = t) by (destruct K as (K & _); congruence). subst t'.
  set (m := Z.of_nat (length text)).
  set (f := fun y => if N.eqb (tb_id y) (tb_id b) then mk_tblock (tb_id y) (tb_pos y) (tb_len y + m) else if (tb_pos b <? tb_pos y) then mk_tblock (tb_id y) (tb_pos y + m) (tb_len y) else y).
  set (d' := edit_blocks (x_table x) f (t_chars (x_table x) + m)).
  assert (Fi : forall y, tb_id (f y) = tb_id y) by (intros y; unfold f; destruct (N.eqb _ _); [easy|]; destruct (_ <? _); easy).
  assert (Sb : same_blocks (x_table x) d') by (apply edit_same; exact Fi). destruct (X d' Sb) as [X1 X2].
  exists (mk_xdoc d' st (x_tid x)), ts1, t, ts2, k. split; [easy|]. split; [easy|]. split; [destruct W as [W|(W1 & W2 & W3)]; [left|right]; repeat split; try easy; lia|].
  assert (Eu : Z.of_nat (length (firstn k t ++ text ++ skipn k t)) - Z.of_nat (length t) = m) by (rewrite !app_length, firstn_length_le, skipn_length by easy; unfold m; lia).
  assert (No := flow_ids_nodup _ H). rewrite Ef in No. destruct (nodup_split _ _ _ No) as [D1 D2].
  assert (P := inv_placed _ I). rewrite Ef in P. assert (Le := seen_lens _ _ _ Se). rewrite Ef in Le. destruct (in_place_split _ _ _ _ Le P) as [Q1 Q2].
  assert (Lb : 0 <= tb_len b) by (apply Le; apply in_app_iff; right; now left).
  split; [|].
  { unfold x_insert_text. rewrite F1. cbn [bind]. unfold len_in. destruct K as (_ & K2 & _). rewrite K2. cbn [bind]. rewrite M, Nat2Z.id, E2. cbn [bind].
    replace (0 + Z.of_nat (starts ts1) + Z.of_nat k + Z.of_nat (length text)) with (Z.of_nat (starts ts1 + k + length text)) by lia. reflexivity. }
  destruct (inv_edited x st f (t_chars (x_table x) + m) pre b post ts1 t ts2 (firstn k t ++ text ++ skipn k t)) as [I' S']; try easy.
  - intros y Hy. unfold f. destruct (N.eqb_spec (tb_id y) (tb_id b)) as [e|_]; [now apply D1 in Hy|]. destruct (Z.ltb_spec (tb_pos b) (tb_pos y)); [|easy].
    assert (0 <= tb_len y) by (apply Le; apply in_app_iff; now left). specialize (Q1 y Hy). lia.
  - intros y Hy. rewrite Eu. unfold f. destruct (N.eqb_spec (tb_id y) (tb_id b)) as [e|_]; [now apply D2 in Hy|]. destruct (Z.ltb_spec (tb_pos b) (tb_pos y)); [easy|]. specialize (Q2 y Hy). lia.
  - rewrite Eu. unfold f. now rewrite N.eqb_refl.
  - now rewrite Eu.
  - exact (x_type x (tb_id b) k text st d' H Hb E2 Sb).
Qed.
