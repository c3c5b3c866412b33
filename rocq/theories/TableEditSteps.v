(** Breaks, deletions, table operations and new tables keep the invariant. *)
From Coq Require Import Sorting.Permutation.
From Verif Require Import Base RopeModel RopeSpec RopeFacts TableModel TableSpec TableFacts TablePlaces TableTheorems TableTextModel TableTextSpec TableTextFacts TableTextEdits TableTextInsert TableTextTheorems TableEditModel TableEditSpec TableEditFacts PropSpec FlowSpec.
From Verif Require DocModel DocSpec DocInv DocReach QueryTheorems.
Local Open Scope Z_scope.

(** ** Breaks *)
Lemma split_unique (b : tblock) : forall pre post pre' post', NoDup (block_ids (pre ++ b :: post)) -> pre ++ b :: post = pre' ++ b :: post' -> pre = pre' /\ post = post'.
Proof.
  intros pre post pre' post' N E. assert (N' := N). rewrite E in N'. destruct (nodup_split _ _ _ N) as [D1 D2]. destruct (nodup_split _ _ _ N') as [D3 D4]. clear N N'.
  revert pre' E D3. induction pre as [|y pre IH]; intros [|z pre'] E D3; cbn [app] in E.
  - now injection E as ->.
  - injection E as Ez _. exfalso. apply (D3 z); [now left|now rewrite Ez].
  - injection E as Ez _. exfalso. apply (D1 y); [now left|now rewrite Ez].
  - injection E as -> E. destruct (IH (fun w Hw => D1 w (or_intror Hw)) pre' E (fun w Hw => D3 w (or_intror Hw))) as [-> ->]. easy.
Qed.
Lemma holds_here ts1 (t : str) ts2 k p j : (k <= length t)%nat -> (p = starts ts1 + k \/ ts2 = [] /\ k = length t /\ starts ts1 + k < p)%nat ->
  holds (ts1 ++ t :: ts2) j p -> j = length ts1.
Proof.
  intros Hk W (u & Hu & Lo & Hi). destruct (Nat.lt_trichotomy j (length ts1)) as [D|[D|D]]; [exfalso|easy|exfalso].
  - rewrite nth_error_app1 in Hu by easy. apply nth_error_split in Hu. destruct Hu as (a & c & -> & La). subst j.
    assert (X : starts (a ++ u :: c) = (starts a + S (length u) + starts c)%nat).
    { clear. induction a as [|v a IH]; cbn [app starts fold_right]; fold (starts c) || fold (starts a) (starts (a ++ u :: c)); lia. }
    assert (Y : start_of (length a) ((a ++ u :: c) ++ t :: ts2) = starts a) by (rewrite <- app_assoc; cbn [app]; apply start_mid).
    rewrite Y in *. rewrite !app_length in Hi. cbn [length] in Hi. rewrite X in W. lia.
  - assert (J : (starts ts1 + S (length t) <= start_of j (ts1 ++ t :: ts2))%nat).
    { unfold start_of. rewrite firstn_app. rewrite firstn_all2 by lia. replace (j - length ts1)%nat with (S (j - length ts1 - 1)) by lia. cbn [firstn].
      generalize (firstn (j - length ts1 - 1) ts2). clear. intros l. induction ts1 as [|v a IH]; cbn [app starts fold_right].
      - fold (starts l). lia.
      - fold (starts a) (starts (a ++ t :: l)). lia. }
    destruct W as [W|(-> & _)]; [lia|]. assert (nth_error (ts1 ++ [t]) j = None) by (apply nth_error_None; rewrite app_length; cbn; lia). congruence.
Qed.
Lemma break_inv x ts p j : inv x -> seen x (flow_blocks (x_table x)) ts -> holds ts j p -> outside x j ->
  exists x' ts1 t ts2 k, ts = ts1 ++ t :: ts2 /\ length ts1 = j /\ (k <= length t)%nat
   /\ (p = starts ts1 + k \/ ts2 = [] /\ k = length t /\ starts ts1 + k < p)%nat
   /\ x_break_at x (Z.of_nat p) = Ok x'
   /\ inv x' /\ seen x' (flow_blocks (x_table x')) (ts1 ++ firstn k t :: skipn k t :: ts2).
Proof.
  intros I Se Ho (bs & b0 & Or & Nb & Hb0). assert (H := inv_history _ I). apply (order_flow _ _ H) in Or. subst bs.
  destruct (find_split x _ ts 0 (Z.of_nat p) Se (flow_nonempty _ H) ltac:(lia)) as (pre & b & post & ts1 & t & ts2 & k & Ef & Et & Ln & S1 & K & S2 & _ & F2 & Hk & M & W).
  assert (W' : (p = starts ts1 + k \/ ts2 = [] /\ k = length t /\ starts ts1 + k < p)%nat) by (destruct W as [W|(W1 & W2 & W3)]; [left|right]; repeat split; try easy; lia).
  rewrite Et in Ho. assert (Ej := holds_here _ _ _ _ _ _ Hk W' Ho). subst j. rewrite Ef, <- Ln, nth_error_app2, Nat.sub_diag in Nb by lia. injection Nb as <-.
  rewrite <- Et in *. specialize (F2 (inv_placed _ I)).
  assert (Hb : In (tb_id b) (block_ids (t_others (x_table x)))) by (unfold block_ids; now apply in_map).
  destruct (text_break x (tb_id b) k H Hb) as (t' & x' & E1 & E2 & Om & T1 & T2 & To). assert (t' = t) by (destruct K as (K & _); congruence). subst t'.
  assert (H' : xhistory x') by exact (x_break x (tb_id b) k x' H Hb E2).
  destruct (break_flow x (tb_id b) k x' b _ H (sort_cells_perm _) (history_reads _ H) Hb0 eq_refl E2) as (l' & pre' & post' & Ef' & Eq & Pc & Rl & Ec & Eh & El).
  rewrite <- flow_flow, Ef in Ef'. assert (No := flow_ids_nodup _ H). rewrite Ef in No. destruct (split_unique _ _ _ _ _ No Ef') as [<- <-].
  rewrite (history_order _ _ H' Pc Rl), <- flow_flow in Eq. destruct (nodup_split _ _ _ No) as [D1 D2].
  exists x', ts1, t, ts2, k. split; [easy|]. split; [easy|]. split; [easy|]. split; [easy|].
  split; [unfold x_break_at; rewrite F2; cbn [bind]; now rewrite Nat2Z.id|].
  assert (Lf : length (firstn k t) = k) by now apply firstn_length_le.
  assert (Kb : tb_len b = Z.of_nat (length t)) by apply K.
  assert (S' : seen x' (flow_blocks (x_table x')) (ts1 ++ firstn k t :: skipn k t :: ts2)).
  { apply seen_intro; [easy|easy|]. rewrite Eq. apply Forall2_app; [|constructor; [|constructor]].
    - assert (G : forall y, In y pre -> block_in x (tb_id y) /\ tb_id y <> tb_id b).
      { intros y Hy. split; [apply flow_block_in; rewrite Ef; apply in_app_iff; now left|now apply D1]. }
      clear -S1 G To. induction S1 as [|y v ys vs (E1 & _ & E2) _ IH]; constructor; [|apply IH; intros; apply G; now right].
      split; [|easy]. rewrite To; [easy| |]; apply G; now left.
    - split; [exact T1|]. cbn [tb_len]. lia.
    - split; [exact T2|]. cbn [tb_len]. rewrite skipn_length. lia.
    - assert (G : forall y, In y post -> block_in x (tb_id y) /\ tb_id y <> tb_id b).
      { intros y Hy. split; [apply flow_block_in; rewrite Ef; apply in_app_iff; right; now right|now apply D2]. }
      clear -S2 G To. induction S2 as [|y v ys vs (E1 & _ & E2) _ IH]; constructor; [|apply IH; intros; apply G; now right].
      split; [|easy]. cbn [one_later tb_id]. rewrite To; [easy| |]; apply G; now left. }
  split; [|exact S'].
  assert (Pl : placed (x_table x)) by (apply placed_flow; [easy|apply (inv_placed _ I)]).
  assert (Cr : counted_right (x_table x)) by (apply counted_flow; split; [apply (inv_count _ I)|apply (inv_chars _ I)]).
  destruct (break_places x (tb_id b) k x' b H Pl Cr Hb0 eq_refl E2) as [Pl' Cr']. apply counted_flow in Cr'. destruct Cr' as [C1 C2].
  constructor; [easy|now apply placed_flow|easy|easy| |eexists; exact S'].
  intros c Hc. assert (X : In (length (tc_blocks c)) (map (fun c => length (tc_blocks c)) (t_cells (x_table x')))) by (now apply (in_map (fun c => length (tc_blocks c)))).
  rewrite El in X. apply in_map_iff in X. destruct X as (c0 & <- & Hc0). now apply (inv_single _ I).
Qed.

(** ** Deletions *)
Lemma refresh_id x bs : forall ts r, seen x bs ts -> in_place r bs -> refresh_others (x_store x) bs r = Ok bs.
Proof.
  induction bs as [|b bs IH]; intros ts r Se P; [easy|]. inversion Se as [|b' t bs' ts' K Se']; subst. destruct K as (_ & K2 & K3). cbn [in_place] in P. destruct P as [Eb P].
  cbn [refresh_others]. unfold len_in. rewrite K2. cbn [bind]. rewrite K3 in P. rewrite (IH ts' _ Se' P). cbn [bind]. rewrite <- Eb. now destruct b.
Qed.
Lemma sort_id bs : forall r, (forall y, In y bs -> 0 <= tb_len y) -> in_place r bs -> sort_tblocks bs = bs.
Proof.
  induction bs as [|b bs IH]; intros r L P; [easy|]. cbn [in_place] in P. destruct P as [Eb P]. cbn [sort_tblocks fold_right]. fold (sort_tblocks bs).
  rewrite (IH _ (fun y Hy => L y (or_intror Hy)) P). destruct bs as [|c bs]; [easy|]. cbn [put_block]. cbn [in_place] in P. destruct P as [Ec _]. assert (0 <= tb_len b) by (apply L; now left).
  destruct (Z.leb_spec (tb_pos b) (tb_pos c)); [easy|lia].
Qed.
Lemma behind_blocks pre b post : NoDup (block_ids (pre ++ b :: post)) -> behind (tb_id b) (block_ids (pre ++ b :: post)) = block_ids post.
Proof.
  intros N. destruct (nodup_split _ _ _ N) as [D1 _]. unfold block_ids. rewrite map_app. cbn [map]. apply behind_split. intros X. apply in_map_iff in X. destruct X as (y & E & Hy). exact (D1 y Hy E).
Qed.
Lemma cross_none x d bs : forall ts s e f, seen x bs ts -> (forall y, In y bs -> tb_pos y + tb_len y < s \/ e < tb_pos y) -> cross_cell (x_store x) d bs s e f = Ok false.
Proof.
  induction bs as [|b bs IH]; intros ts s e f Se F; [easy|]. inversion Se as [|b' t bs' ts' K Se']; subst. destruct K as (_ & K2 & K3). cbn [cross_cell]. unfold len_in. rewrite K2. cbn [bind]. rewrite <- K3.
  assert (X : (tb_pos b + tb_len b <? s) || (e <? tb_pos b) = true).
  { destruct (F b (or_introl eq_refl)) as [G|G]; [destruct (Z.ltb_spec (tb_pos b + tb_len b) s); [easy|lia]|]. destruct (Z.ltb_spec e (tb_pos b)); [now rewrite orb_true_r|lia]. }
  rewrite X. apply (IH ts'); [easy|]. intros; apply F; now right.
Qed.
Lemma cross_one x d pre b post ts s e : seen x (pre ++ b :: post) ts -> (forall y, In y pre \/ In y post -> tb_pos y + tb_len y < s \/ e < tb_pos y) ->
  cross_cell (x_store x) d (pre ++ b :: post) s e None = Ok false.
Proof.
  revert ts. induction pre as [|a pre IH]; intros ts Se F.
  - cbn [app] in *. inversion Se as [|b' t bs' ts' K Se']; subst. destruct K as (_ & K2 & K3). cbn [cross_cell]. unfold len_in. rewrite K2. cbn [bind].
    destruct (_ || _); apply (cross_none x d post ts'); (easy || intros; apply F; now right).
  - cbn [app] in *. inversion Se as [|b' t bs' ts' K Se']; subst. destruct K as (_ & K2 & K3). cbn [cross_cell]. unfold len_in. rewrite K2. cbn [bind]. rewrite <- K3.
    assert (X : (tb_pos a + tb_len a <? s) || (e <? tb_pos a) = true).
    { destruct (F a (or_introl (or_introl eq_refl))) as [G|G]; [destruct (Z.ltb_spec (tb_pos a + tb_len a) s); [easy|lia]|]. destruct (Z.ltb_spec e (tb_pos a)); [now rewrite orb_true_r|lia]. }
    rewrite X. apply (IH ts'); [easy|]. intros y [Hy|Hy]; apply F; [left; now right|now right].
Qed.
Lemma starts_app a b : starts (a ++ b) = (starts a + starts b)%nat.
Proof. induction a as [|t a IH]; [easy|]. cbn [app starts fold_right]. fold (starts (a ++ b)) (starts a). rewrite IH. lia. Qed.
Lemma delete_inv x ts p a : inv x -> table_last x -> seen x (flow_blocks (x_table x)) ts -> (p <= length (joined ts) /\ a <= length (joined ts))%nat -> p <> a ->
  (exists ts1 t ts2 k n x', ts = ts1 ++ t :: ts2 /\ (k + n <= length t /\ Nat.min p a = starts ts1 + k /\ Nat.max p a = starts ts1 + k + n)%nat
    /\ x_delete x (Z.of_nat p) (Z.of_nat a) = Ok (Some x') /\ inv x' /\ table_last x'
    /\ seen x' (flow_blocks (x_table x')) (ts1 ++ (firstn k t ++ skipn (k + n) t) :: ts2) /\ same_blocks (x_table x) (x_table x'))
  \/ (exists i j, (i < j)%nat /\ holds ts i (Nat.min p a) /\ holds ts j (Nat.max p a)) /\ x_delete x (Z.of_nat p) (Z.of_nat a) = Ok None.
Proof.
  intros I TL Se [Hp Ha] Ne. assert (H := inv_history _ I). set (s := Nat.min p a). set (e := Nat.max p a).
  assert (Es : Z.min (Z.of_nat p) (Z.of_nat a) = Z.of_nat s) by lia. assert (Ee : Z.max (Z.of_nat p) (Z.of_nat a) = Z.of_nat e) by lia.
  assert (Lt : (s < e)%nat) by lia. assert (Le : (e <= length (joined ts))%nat) by lia.
  assert (Fl : flow_blocks (x_table x) = t_others (x_table x) ++ flat_map tc_blocks (sort_cells (t_cells (x_table x)))).
  { unfold flow_blocks. rewrite firstn_all2, skipn_all2 by exact TL. now rewrite app_nil_r. }
  assert (Rf : refresh_others (x_store x) (t_others (x_table x)) 0 = Ok (t_others (x_table x))).
  { assert (P := inv_placed _ I). rewrite Fl in P, Se. apply in_place_app in P. apply seen_app in Se. destruct Se as (t1 & t2 & _ & S1 & _). exact (refresh_id x _ t1 0 S1 (proj1 P)). }
  assert (Sd : set_others (x_table x) (t_others (x_table x)) = x_table x) by now destruct (x_table x).
  assert (So := sort_id _ 0 (seen_lens _ _ _ Se) (inv_placed _ I)).
  destruct (find_split x _ ts 0 (Z.of_nat s) Se (flow_nonempty _ H) ltac:(lia)) as (pre & b & post & ts1 & t & ts2 & k & Ef & Et & Ln & S1 & K & S2 & _ & F1 & Hk & M & W).
  destruct (find_split x _ ts 0 (Z.of_nat e) Se (flow_nonempty _ H) ltac:(lia)) as (pre' & b' & post' & ts1' & t' & ts2' & k' & Ef' & Et' & Ln' & S1' & K' & S2' & _ & F1' & Hk' & M' & W').
  specialize (F1 (inv_placed _ I)). specialize (F1' (inv_placed _ I)).
  assert (Ws : s = (starts ts1 + k)%nat).
  { destruct W as [W|(-> & -> & W)]; [lia|]. rewrite Et, joined_length in Le. lia. }
  assert (We : e = (starts ts1' + k')%nat).
  { destruct W' as [W'|(-> & -> & W')]; [lia|]. rewrite Et', joined_length in Le. lia. }
  clear W W' M M'. assert (No := flow_ids_nodup _ H). assert (P := inv_placed _ I). assert (Lens := seen_lens _ _ _ Se).
  assert (Hol : forall a1 u a2 m, ts = a1 ++ u :: a2 -> (m <= length u)%nat -> holds ts (length a1) (starts a1 + m)).
  { intros a1 u a2 m -> Hm. exists u. split; [now rewrite nth_error_app2, Nat.sub_diag by lia|]. rewrite start_mid. split; [lia|left; lia]. }
  unfold x_delete. destruct (Z.eqb_spec (Z.of_nat p) (Z.of_nat a)) as [X|_]; [lia|]. rewrite Es, Ee, Rf. cbn [bind]. rewrite Sd, So, F1. cbn [bind]. rewrite F1'.
  destruct (N.eq_dec (tb_id b') (tb_id b)) as [Eb|Nb].
  - left. assert (b' = b).
    { apply (StateFacts.NoDup_map_inj tb_id (flow_blocks (x_table x))); try easy; [rewrite Ef'|rewrite Ef]; apply in_app_iff; right; now left. }
    subst b'. assert (No2 := No). rewrite Ef in No2. rewrite Ef in Ef'. destruct (split_unique _ _ _ _ _ No2 Ef') as [<- <-]. clear Ef'.
    assert (Ets : ts1' = ts1 /\ t' = t /\ ts2' = ts2).
    { rewrite Et in Et'. assert (Q : length ts1 = length ts1') by congruence. clear -Et' Q. revert ts1' Et' Q. induction ts1 as [|u l IH]; intros [|v l'] E Q; try discriminate; cbn [app] in E.
      - injection E as -> ->. easy.
      - injection E as -> E. injection Q as Q. destruct (IH l' E Q) as (-> & -> & ->). easy. }
    destruct Ets as (-> & -> & ->). clear Et' Ln' S1' K' S2'.
    assert (Kk : (k < k')%nat) by lia. rewrite Ef in P, Lens. destruct (in_place_split _ _ _ _ Lens P) as [Q1 Q2].
    assert (Pb : tb_pos b = Z.of_nat (starts ts1)).
    { apply in_place_app in P. destruct P as [_ P]. cbn [in_place] in P. destruct P as [P _]. rewrite P, (seen_width _ _ _ S1). lia. }
    assert (Kb : tb_len b = Z.of_nat (length t)) by apply K.
    rewrite Ef, (cross_one x _ pre b post ts).
    2:{ now rewrite <- Ef. }
    2:{ intros y [Hy|Hy]; [left; specialize (Q1 y Hy)|right; specialize (Q2 y Hy)]; lia. }
    cbn [bind]. rewrite N.eqb_refl, (behind_blocks _ _ _ No2).
    assert (Hb : block_in x (tb_id b)) by (apply flow_block_in; rewrite Ef; apply in_app_iff; right; now left).
    rewrite !Nat2Z.id. destruct (text_erase x (tb_id b) k (k' - k) H Hb) as (t' & st & E1 & E2 & X). assert (t' = t) by (destruct K as (K & _); congruence). subst t'. rewrite E2. cbn [bind].
    match goal with |- context [edit_blocks (x_table x) ?g _] => set (f := g) end. set (d' := edit_blocks (x_table x) f _).
    assert (Fi : forall y, tb_id (f y) = tb_id y) by (intros y; unfold f; match goal with |- context [N.eqb ?u ?v] => destruct (N.eqb u v); [easy|] end; match goal with |- context [if ?c then _ else _] => destruct c end; easy).
    assert (Sb : same_blocks (x_table x) d') by (apply edit_same; exact Fi). destruct (X d' Sb) as [X1 X2].
    assert (Eu : Z.of_nat (length (firstn k t ++ skipn (k + (k' - k)) t)) - Z.of_nat (length t) = - (Z.of_nat e - Z.of_nat s)).
    { rewrite app_length, firstn_length_le, skipn_length by lia. lia. }
    destruct (nodup_split _ _ _ No2) as [D1 D2].
    exists ts1, t, ts2, k, (k' - k)%nat, (mk_xdoc d' st (x_tid x)). split; [easy|]. split; [lia|]. split; [reflexivity|].
    destruct (inv_edited x st f (t_chars (x_table x) - (Z.of_nat e - Z.of_nat s)) pre b post ts1 t ts2 (firstn k t ++ skipn (k + (k' - k)) t)) as [I' S']; try easy.
    + intros y Hy. unfold f. destruct (N.eqb_spec (tb_id y) (tb_id b)) as [w|_]; [now apply D1 in Hy|].
      destruct (existsb (N.eqb (tb_id y)) (block_ids post)) eqn:Xb; [|easy]. exfalso. apply existsb_exists in Xb. destruct Xb as (i & Hi & w). apply N.eqb_eq in w. subst i.
      unfold block_ids in Hi. apply in_map_iff in Hi. destruct Hi as (z & Ez & Hz). assert (z = y).
      { apply (StateFacts.NoDup_map_inj tb_id (pre ++ b :: post)); try easy; apply in_app_iff; [right; now right|now left]. }
      subst z. specialize (Q1 y Hy). specialize (Q2 y Hz). assert (0 <= tb_len y) by (apply Lens; apply in_app_iff; now left). assert (0 <= tb_len b) by lia. lia.
    + intros y Hy. rewrite Eu. unfold f. destruct (N.eqb_spec (tb_id y) (tb_id b)) as [w|_]; [now apply D2 in Hy|].
      assert (Xb : existsb (N.eqb (tb_id y)) (block_ids post) = true) by (apply existsb_exists; exists (tb_id y); split; [unfold block_ids; now apply in_map|apply N.eqb_refl]). rewrite Xb. unfold later. f_equal; lia.
    + rewrite Eu. unfold f. rewrite N.eqb_refl. f_equal. lia.
    + rewrite Eu. lia.
    + exact (x_erase x (tb_id b) k (k' - k) st d' H Hb E2 Sb).
    + split; [easy|]. split; [|split; [easy|exact Sb]]. unfold table_last in *. cbn [x_table d' edit_blocks t_others t_at]. now rewrite map_length.
  - right. assert (Hij : (length ts1 < length ts1')%nat).
    { destruct (Nat.lt_trichotomy (length ts1) (length ts1')) as [D|[D|D]]; [easy|exfalso|exfalso].
      - apply Nb. assert (X : nth_error (pre ++ b :: post) (length pre) = Some b) by (now rewrite nth_error_app2, Nat.sub_diag by lia).
        rewrite <- Ef, Ef' in X. rewrite Ln, D, <- Ln', nth_error_app2, Nat.sub_diag in X by lia. now injection X as ->.
      - rewrite Et in Et'. assert (X : exists c, ts1 = ts1' ++ t' :: c).
        { exists (firstn (length ts1 - length ts1' - 1) ts2'). assert (Y : ts1 = firstn (length ts1) (ts1' ++ t' :: ts2')) by (now rewrite <- Et', firstn_app, Nat.sub_diag, firstn_all, app_nil_r).
          rewrite Y at 1. rewrite firstn_app, firstn_all2 by lia. f_equal. destruct (length ts1 - length ts1')%nat as [|m] eqn:Q; [lia|]. cbn [firstn]. now rewrite Nat.sub_succ, Nat.sub_0_r. }
        destruct X as [c X]. rewrite X, starts_app in Ws. cbn [starts fold_right] in Ws. lia. }
    split.
    + exists (length ts1), (length ts1'). split; [easy|]. split; [rewrite Ws; now apply (Hol _ t ts2)|rewrite We; now apply (Hol _ t' ts2')].
    + assert (X : exists c, cross_cell (x_store x) (x_table x) (flow_blocks (x_table x)) (Z.of_nat s) (Z.of_nat e) None = Ok c).
      { generalize (@None (option id)). clear -Se. induction Se as [|y v ys vs (_ & K2 & _) _ IH]; intros fi; [now exists false|]. cbn [cross_cell]. unfold len_in. rewrite K2. cbn [bind].
        destruct (_ || _); [apply IH|]. destruct fi as [fc|]; [|apply IH]. destruct (same_owner _ _); [apply IH|now exists true]. }
      destruct X as [c X]. rewrite X. cbn [bind]. destruct c; [easy|]. cbn [bind].
      match goal with |- context [N.eqb ?u ?v] => destruct (N.eqb_spec u v) as [w|_]; [easy|reflexivity] end.
Qed.

(** ** Table operations while the cells are empty *)
Lemma seen_each x : xhistory x -> (forall b, In b (flow_blocks (x_table x)) -> exists t, text_of x (tb_id b) = Ok t /\ tb_len b = Z.of_nat (length t)) ->
  exists ts, seen x (flow_blocks (x_table x)) ts.
Proof.
  intros H F. assert (G : exists ts, Forall2 (fun b t => text_of x (tb_id b) = Ok t /\ tb_len b = Z.of_nat (length t)) (flow_blocks (x_table x)) ts).
  { revert F. generalize (flow_blocks (x_table x)). induction l as [|b l IH]; intros F; [exists []; constructor|]. destruct (F b (or_introl eq_refl)) as [t Ht].
    destruct (IH (fun y Hy => F y (or_intror Hy))) as [ts Hts]. exists (t :: ts). now constructor. }
  destruct G as [ts G]. exists ts. now apply seen_intro.
Qed.
Lemma seen_in x bs ts b : seen x bs ts -> In b bs -> exists t, known x b t.
Proof. induction 1 as [|y v ys vs K _ IH]; intros [<-|Hb] || intros []; [now exists v|now apply IH]. Qed.
Lemma others_flow d b : In b (t_others d) -> In b (flow_blocks d).
Proof. intros H. apply (Permutation_in b (Permutation_sym (flow_all d))), in_app_iff. now left. Qed.
Lemma cells_flow d c b : In c (t_cells d) -> In b (tc_blocks c) -> In b (flow_blocks d).
Proof. intros Hc Hb. apply (Permutation_in b (Permutation_sym (flow_all d))), in_app_iff. right. apply in_flat_map. now exists c. Qed.
Lemma unfilled_single d : unfilled d -> forall c, In c (t_cells d) -> length (tc_blocks c) = 1%nat.
Proof. intros U c Hc. destruct (U c Hc) as (b & E & _). now rewrite E. Qed.
Lemma inv_own x : inv x -> own_blocks (x_table x).
Proof.
  intros I. assert (H := inv_history _ I). destruct (inv_seen _ I) as [ts Se]. assert (L := seen_lens _ _ _ Se). destruct (x_history _ H) as [(la & lb & lc & La) _].
  destruct La as (_ & _ & _ & _ & F & _). split; [intros b Hb; apply L; now apply others_flow|]. split.
  - assert (N := flow_ids_nodup _ H). unfold block_ids in N. apply (Permutation_NoDup (Permutation_map tb_id (flow_all _))) in N. rewrite map_app in N. now apply NoDup_app_parts in N.
  - intros b Hb. apply in_flat_map in Hb. destruct Hb as (c & Hc & Hb). split; [apply L; now apply (cells_flow _ c)|]. apply F. right. unfold cell_ids, block_ids. apply in_map, in_flat_map. now exists c.
Qed.
Lemma step_inv x o x' : inv x -> unfilled (x_table x) -> clean (x_table x) o -> x_step x o = Ok x' -> inv x' /\ unfilled (x_table x').
Proof.
  intros I U Cl E. assert (H := inv_history _ I). assert (H' : xhistory x') by exact (x_op x o x' H Cl E). destruct (x_history _ H) as [(la & lb & lc & La) T]. destruct (history_grid _ T) as [G O].
  destruct (x_step_structure _ _ _ E) as [d' D]. destruct (x_step_layout _ _ _ _ _ _ La O D) as (y & c' & Ey & Ed & _ & L' & Kt & Nt). rewrite E in Ey. injection Ey as <-.
  assert (Pl : placed (x_table x)) by (apply placed_flow; [easy|apply (inv_placed _ I)]).
  destruct (step_placed _ _ _ G O U (inv_own _ I) Pl Cl D) as (U' & B' & P' & C'). rewrite <- Ed in U', B', P', C'.
  assert (Cr : counted_right (x_table x)) by (apply counted_flow; split; [apply (inv_count _ I)|apply (inv_chars _ I)]). specialize (C' Cr). apply counted_flow in C'.
  destruct (inv_seen _ I) as [ts Se]. destruct (step_form _ _ _ G O D) as (d1 & n & Es & (Po & _)).
  split; [|easy]. constructor; [easy|now apply placed_flow|easy|easy|now apply unfilled_single|]. apply seen_each; [easy|]. intros b Hb. assert (Bi := flow_block_in _ _ Hb).
  apply (Permutation_in b (flow_all _)) in Hb. apply in_app_iff in Hb. destruct Hb as [Hb|Hb].
  - rewrite Ed, Es in Hb. cbn [settle add_count shift_others set_others reassign set_cells t_others] in Hb. rewrite Po in Hb. apply in_map_iff in Hb. destruct Hb as (b0 & Eb & Hb).
    destruct (seen_in _ _ _ _ Se (others_flow _ _ Hb)) as (t & K1 & _ & K3). exists t.
    assert (Ei : tb_id b = tb_id b0 /\ tb_len b = tb_len b0) by (rewrite <- Eb; unfold moved; destruct (_ <=? _); easy). destruct Ei as [Ei El]. rewrite El. split; [|easy].
    rewrite Ei in *. rewrite Kt; [easy|apply flow_block_in; now apply others_flow|easy].
  - apply in_flat_map in Hb. destruct Hb as (c & Hc & Hb). destruct (U' c Hc) as (b0 & Ec & E0). assert (b0 = b) by (rewrite Ec in Hb; destruct Hb as [Hb|[]]; easy). subst b0. exists []. rewrite E0. split; [|easy].
    assert (Ch : exists p, changed (x_table x) p d') by (destruct (x_step_form x o d' O D) as [(_ & Ch)|(goes & _ & Ch & _)]; eexists; exact Ch). destruct Ch as (pp & Ch). rewrite Ed in Hc.
    destruct (changed_cell _ _ _ _ Ch Hc) as [(c0 & Hc0 & _ & _ & Ei)|(i & Ei & Hi & _)].
    + destruct (U c0 Hc0) as (b1 & Ec1 & E1). rewrite Ec, Ec1 in Ei. cbn in Ei. injection Ei as Ei.
      assert (F1 : In b1 (flow_blocks (x_table x))) by (apply (cells_flow _ c0); [easy|rewrite Ec1; now left]). destruct (seen_in _ _ _ _ Se F1) as (t & K1 & _ & K3).
      assert (t = []) by (destruct t; [easy|cbn in K3; lia]). subst t. rewrite Ei in *. rewrite Kt; [easy|now apply flow_block_in|easy].
    + rewrite Ec in Ei. cbn in Ei. injection Ei as Ei. apply Nt; [|easy]. unfold id in *. lia.
Qed.

(** ** A new table *)
Lemma new_inv d p a rows cols tid next x : DocSpec.reach d -> counted d -> x_insert_table d p a rows cols tid next = Ok x -> inv x /\ unfilled (x_table x).
Proof.
  intros R C E. assert (H : xhistory x) by exact (x_new d p a rows cols tid next x R E).
  destruct (placed_history_all _ (new_placed _ _ _ _ _ _ _ _ C E)) as (U & B & P & Cr). apply counted_flow in Cr.
  destruct (QueryTheorems.counted_facts _ C) as (ps & W & _). destruct (x_insert_sizes _ _ _ _ _ _ _ _ E) as [Hr Hc].
  destruct (insert_layout d ps p a rows cols tid next W Hr Hc) as (y & start & Ey & _ & _ & Et & _ & (_ & _ & P3 & P4)). rewrite E in Ey. injection Ey as <-.
  split; [|easy]. constructor; [easy|now apply placed_flow|easy|easy|now apply unfilled_single|]. apply seen_each; [easy|]. intros b Hb.
  apply (Permutation_in b (flow_all _)) in Hb. apply in_app_iff in Hb. destruct Hb as [Hb|Hb].
  - assert (Eo : exists s n, t_others (x_table x) = map (moved s n) (at_places 0 ps)).
    { clear -Et. revert Et. unfold insert_table. destruct ((rows <? 1) || (cols <? 1)); [easy|]. rewrite table_fold. fold (table_quads rows cols). set (d0 := mk_tdoc _ _ _ _ _ _ _ _ _ _).
      destruct (add_cells_spec (table_quads rows cols) d0) as (_ & _ & _ & _ & H5 & _). intros [= <-]. cbn [add_count shift_others set_others set_cells t_others]. rewrite H5. now eexists _, _. }
    destruct Eo as (s & n & Eo). rewrite Eo in Hb. apply in_map_iff in Hb. destruct Hb as (b0 & <- & Hb).
    assert (X : exists t, In (tb_id b0, t) ps /\ tb_len b0 = Z.of_nat (length t)).
    { clear -Hb. revert Hb. generalize 0%nat. induction ps as [|[i t] ps IH]; intros m Hb; [easy|]. destruct Hb as [<-|Hb]; [exists t; split; [now left|easy]|].
      destruct (IH _ Hb) as (u & Hu & Eu). exists u. split; [now right|easy]. }
    destruct X as (t & Hin & El). exists t. assert (Ei : tb_id (moved s n b0) = tb_id b0 /\ tb_len (moved s n b0) = tb_len b0) by (unfold moved; destruct (_ <=? _); easy).
    destruct Ei as [-> ->]. split; [now apply P3|easy].
  - apply in_flat_map in Hb. destruct Hb as (c & Hc2 & Hb). destruct (U c Hc2) as (b0 & Ec & E0). assert (b0 = b) by (rewrite Ec in Hb; destruct Hb as [Hb|[]]; easy). subst b0. exists []. rewrite E0. split; [|easy].
    assert (X := P4 c Hc2). unfold cell_text, empty_cell in X. rewrite Ec in X. cbn in X. now injection X.
Qed.
Lemma edited_inv x : edited x -> inv x.
Proof.
  induction 1 as [d p a rows cols tid next x R C E|x o x' H I U Cl E|x p text x' q H I E|x ts k p x' H I Dt Ho Ou E|x ts p a x' H I TL Dt L E].
  - exact (proj1 (new_inv _ _ _ _ _ _ _ _ R C E)).
  - exact (proj1 (step_inv _ _ _ I U Cl E)).
  - destruct (inv_seen _ I) as [ts Se]. destruct (type_inv x ts p text I Se) as (y & ts1 & t & ts2 & k & _ & _ & _ & Ey & I' & _). rewrite E in Ey. injection Ey as -> _. exact I'.
  - apply (texts_seen _ _ I) in Dt. destruct (break_inv x ts p k I Dt Ho Ou) as (y & ts1 & t & ts2 & j & _ & _ & _ & _ & Ey & I' & _). rewrite E in Ey. injection Ey as ->. exact I'.
  - apply (texts_seen _ _ I) in Dt. destruct (Nat.eq_dec p a) as [->|Ne].
    + unfold x_delete in E. rewrite Z.eqb_refl in E. injection E as <-. exact I.
    + destruct (delete_inv x ts p a I TL Dt L Ne) as [(ts1 & t & ts2 & k & n & y & _ & _ & Ey & I' & _)|[_ Ey]]; rewrite E in Ey; [injection Ey as ->; exact I'|discriminate].
Qed.
