(** The rope helpers refine list-of-segments operations. *)
From Verif Require Export BaseFacts RopeModel RopeSpec.

Lemma marker_eqb_true a b : marker_eqb a b = true <-> a = b.
Proof.
  destruct a, b; cbn; split; intros H; try discriminate.
  - apply N.eqb_eq in H. now subst.
  - injection H as ->. apply N.eqb_refl.
  - apply N.eqb_eq in H. now subst.
  - injection H as ->. apply N.eqb_refl.
Qed.

Lemma marker_eqb_refl a : marker_eqb a a = true.
Proof. now apply marker_eqb_true. Qed.

Lemma marker_eqb_neq a b : a <> b -> marker_eqb a b = false.
Proof. intros H. destruct (marker_eqb a b) eqn:E; [|easy]. now apply marker_eqb_true in E. Qed.

Lemma marker_eqb_sym a b : marker_eqb a b = marker_eqb b a.
Proof.
  destruct (marker_eqb a b) eqn:E.
  - apply marker_eqb_true in E. subst. symmetry. apply marker_eqb_refl.
  - symmetry. apply marker_eqb_neq. intros ->. now rewrite marker_eqb_refl in E.
Qed.

(** ** Joined text *)

Lemma blen_NL_cons s : blen (NL :: s) = S (blen s).
Proof. reflexivity. Qed.

Definition jpre (l : list seg) : str := concat (map (fun s => snd s ++ [NL]) l).
Definition jpost (l : list seg) : str := concat (map (fun s => NL :: snd s) l).

Lemma jpre_app a b : jpre (a ++ b) = jpre a ++ jpre b.
Proof. unfold jpre. now rewrite map_app, concat_app. Qed.
Lemma jpost_app a b : jpost (a ++ b) = jpost a ++ jpost b.
Proof. unfold jpost. now rewrite map_app, concat_app. Qed.
Lemma jpre_cons m t l : jpre ((m, t) :: l) = t ++ NL :: jpre l.
Proof. unfold jpre. cbn. now rewrite <- app_assoc. Qed.
Lemma jpost_cons m t l : jpost ((m, t) :: l) = NL :: t ++ jpost l.
Proof. reflexivity. Qed.

Lemma jpre_snoc l m t : blen (jpre (l ++ [(m, t)])) = blen (jpre l) + blen t + 1.
Proof. rewrite jpre_app, jpre_cons, !blen_app, blen_NL_cons. cbn. lia. Qed.

Lemma join_cons_post t l : join (t :: map snd l) = t ++ jpost l.
Proof.
  revert t; induction l as [|[m u] l IH]; intros t.
  - cbn. now rewrite app_nil_r.
  - rewrite jpost_cons. change (map snd ((m, u) :: l)) with (u :: map snd l).
    cbn [join] in *. rewrite IH. reflexivity.
Qed.

Lemma join_mid pre m t post :
  join (map snd (pre ++ (m, t) :: post)) = jpre pre ++ t ++ jpost post.
Proof.
  induction pre as [|[k u] pre IH].
  - cbn [app map jpre]. apply join_cons_post.
  - rewrite jpre_cons, <- app_assoc. cbn [app].
    change (map snd ((k, u) :: pre ++ (m, t) :: post)) with (u :: map snd (pre ++ (m, t) :: post)).
    destruct (pre ++ (m, t) :: post) as [|s l] eqn:E; [destruct pre; discriminate|].
    change (map snd (s :: l)) with (snd s :: map snd l) in *.
    cbn [join] in *. now rewrite IH.
Qed.

(** ** Starts *)

Lemma starts_app off a b :
  starts off (a ++ b) = starts off a ++ starts (off + blen (jpre a)) b.
Proof.
  revert off; induction a as [|[m t] a IH]; intros off; cbn [app starts].
  - f_equal. unfold jpre; cbn. lia.
  - rewrite IH, jpre_cons, blen_app, blen_NL_cons. cbn [app]. do 3 f_equal. lia.
Qed.

Lemma starts_shift off n l :
  starts (off + n) l = map (fun e => (fst e, snd e + n)) (starts off l).
Proof.
  revert off; induction l as [|[m t] l IH]; intros off; cbn [starts map]; [easy|].
  cbn [fst snd]. f_equal. rewrite <- IH. f_equal. lia.
Qed.

Lemma starts_length off l : length (starts off l) = length l.
Proof. revert off; induction l as [|[m t] l IH]; intros off; cbn; [easy|]. now rewrite IH. Qed.

Lemma starts_fst off l : map fst (starts off l) = map fst l.
Proof. revert off; induction l as [|[m t] l IH]; intros off; cbn; [easy|]. now rewrite IH. Qed.

Lemma starts_ge off l e : In e (starts off l) -> off <= snd e.
Proof.
  revert off; induction l as [|[m t] l IH]; intros off; cbn [starts]; [easy|].
  intros [<-|H]; cbn; [lia|]. apply IH in H. lia.
Qed.

Lemma starts_lt off l e : In e (starts off l) -> S (snd e) <= off + blen (jpre l).
Proof.
  revert off; induction l as [|[m t] l IH]; intros off; cbn [starts]; [easy|].
  rewrite jpre_cons, blen_app, blen_NL_cons.
  intros [<-|H]; cbn [snd]; [lia|]. apply IH in H. lia.
Qed.

Lemma starts_nth off pre m t post :
  nth_error (starts off (pre ++ (m, t) :: post)) (length pre) = Some (m, off + blen (jpre pre)).
Proof.
  rewrite starts_app, nth_error_app2; rewrite starts_length; [|lia].
  now rewrite Nat.sub_diag.
Qed.

(** ** Positions *)

Lemma seg_pos_fst m l l' : map fst l = map fst l' -> seg_pos m l = seg_pos m l'.
Proof.
  revert l'; induction l as [|[k t] l IH]; intros [|[k' t'] l']; cbn; try easy.
  intros [= -> H]. now rewrite (IH _ H).
Qed.

Lemma seg_pos_app m a b :
  seg_pos m (a ++ b) = match seg_pos m a with
                       | Some i => Some i
                       | None => option_map (Nat.add (length a)) (seg_pos m b) end.
Proof.
  induction a as [|[k t] a IH]; cbn [app seg_pos length].
  - now destruct (seg_pos m b).
  - destruct (marker_eqb m k); [easy|]. rewrite IH.
    destruct (seg_pos m a); [easy|]. now destruct (seg_pos m b).
Qed.

Lemma seg_pos_none m l : seg_pos m l = None <-> ~ In m (map fst l).
Proof.
  induction l as [|[k t] l IH]; cbn [seg_pos map In fst]; [easy|].
  destruct (marker_eqb m k) eqn:E.
  - apply marker_eqb_true in E. subst. split; [discriminate|]. intros H. exfalso. auto.
  - assert (k <> m) by (intros ->; now rewrite marker_eqb_refl in E).
    destruct (seg_pos m l); cbn; intuition discriminate.
Qed.

Lemma seg_pos_lt m l i : seg_pos m l = Some i -> i < length l.
Proof.
  revert i; induction l as [|[k t] l IH]; intros i; cbn; [easy|].
  destruct (marker_eqb m k); [intros [= <-]; lia|].
  destruct (seg_pos m l); cbn; [|easy]. intros [= <-]. specialize (IH _ eq_refl). lia.
Qed.

Lemma seg_pos_split m l i :
  seg_pos m l = Some i -> exists pre t post, l = pre ++ (m, t) :: post /\ length pre = i.
Proof.
  revert i; induction l as [|[k t] l IH]; intros i; cbn; [easy|].
  destruct (marker_eqb m k) eqn:E.
  - intros [= <-]. apply marker_eqb_true in E. subst. now exists [], t, l.
  - destruct (seg_pos m l); cbn; [|easy]. intros [= <-].
    destruct (IH _ eq_refl) as (pre & u & post & -> & <-).
    now exists ((k, t) :: pre), u, post.
Qed.

Lemma nodup_mid_pre pre (m : marker) (t : str) post :
  NoDup (map fst (pre ++ (m, t) :: post)) -> ~ In m (map fst pre) /\ ~ In m (map fst post).
Proof.
  rewrite map_app. cbn [map fst]. intros H. apply NoDup_remove_2 in H.
  rewrite in_app_iff in H. auto.
Qed.

Lemma seg_pos_mid m pre t post :
  ~ In m (map fst pre) -> seg_pos m (pre ++ (m, t) :: post) = Some (length pre).
Proof.
  intros H. apply seg_pos_none in H. rewrite seg_pos_app, H. cbn.
  rewrite marker_eqb_refl. cbn. f_equal. lia.
Qed.

Lemma entry_pos_starts m off l : entry_pos m (starts off l) = seg_pos m l.
Proof.
  revert off; induction l as [|[k t] l IH]; intros off; cbn; [easy|]. now rewrite IH.
Qed.

Lemma seg_pos_insert k m t a b :
  seg_pos m (a ++ b) = None ->
  seg_pos k (a ++ (m, t) :: b)
  = if marker_eqb k m then Some (length a)
    else match seg_pos k (a ++ b) with
         | Some q => Some (if length a <=? q then S q else q)
         | None => None end.
Proof.
  intros Hm. destruct (marker_eqb k m) eqn:E.
  - apply marker_eqb_true in E. subst. apply seg_pos_mid.
    apply seg_pos_none. rewrite seg_pos_app in Hm. now destruct (seg_pos m a).
  - rewrite !seg_pos_app. destruct (seg_pos k a) eqn:Ea.
    + apply seg_pos_lt in Ea. f_equal. destruct (length a <=? n) eqn:?; lia.
    + cbn [seg_pos]. rewrite E. destruct (seg_pos k b); cbn [option_map]; [|easy]. f_equal.
      destruct (length a <=? length a + n) eqn:?; lia.
Qed.

Lemma seg_pos_remove k m t a b :
  NoDup (map fst (a ++ (m, t) :: b)) ->
  seg_pos k (a ++ b)
  = if marker_eqb k m then None
    else match seg_pos k (a ++ (m, t) :: b) with
         | Some q => Some (if length a <? q then q - 1 else q)
         | None => None end.
Proof.
  intros H. destruct (nodup_mid_pre _ _ _ _ H) as [H1 H2].
  destruct (marker_eqb k m) eqn:E.
  - apply marker_eqb_true in E. subst. apply seg_pos_none. rewrite map_app, in_app_iff. tauto.
  - rewrite !seg_pos_app. destruct (seg_pos k a) eqn:Ea.
    + apply seg_pos_lt in Ea. f_equal. destruct (length a <? n) eqn:?; lia.
    + cbn [seg_pos]. rewrite E. destruct (seg_pos k b); cbn [option_map]; [|easy]. f_equal.
      destruct (length a <? length a + S n) eqn:?; lia.
Qed.

Lemma in_markers_spec k l : in_markers k l = true <-> In k (map fst l).
Proof.
  unfold in_markers. rewrite existsb_exists. rewrite in_map_iff. split.
  - intros (x & H & E). apply marker_eqb_true in E. subst. now exists x.
  - intros (x & <- & H). exists x. split; [easy|apply marker_eqb_refl].
Qed.

Lemma seg_pos_drain k a b c :
  NoDup (map fst (a ++ b ++ c)) -> 0 < length b ->
  seg_pos k (a ++ c)
  = if in_markers k (starts 0 b) then None
    else match seg_pos k (a ++ b ++ c) with
         | Some q => Some (if (length a + length b - 1) <? q then q - length b else q)
         | None => None end.
Proof.
  intros H Hb. destruct (in_markers k (starts 0 b)) eqn:E.
  - apply in_markers_spec in E. rewrite starts_fst in E. apply seg_pos_none.
    rewrite map_app, in_app_iff. rewrite !map_app in H.
    intros [Hi|Hi].
    + apply (nodup_app_disj _ _ _ H) in Hi. rewrite in_app_iff in Hi. tauto.
    + apply nodup_app_r in H. now apply (nodup_app_disj _ _ _ H) in E.
  - assert (Hk: seg_pos k b = None).
    { apply seg_pos_none. intros Hi. rewrite <- (starts_fst 0) in Hi.
      apply in_markers_spec in Hi. congruence. }
    rewrite !seg_pos_app. destruct (seg_pos k a) eqn:Ea.
    + apply seg_pos_lt in Ea. f_equal. destruct (length a + length b - 1 <? n) eqn:?; lia.
    + rewrite Hk. destruct (seg_pos k c); cbn [option_map]; [|easy]. f_equal.
      destruct (length a + length b - 1 <? length a + (length b + n)) eqn:?; lia.
Qed.

(** ** Anchors *)

Lemma count_anchors_app a b : count_anchors (a ++ b) = count_anchors a + count_anchors b.
Proof. unfold count_anchors. now rewrite filter_app, app_length. Qed.

Lemma count_anchors_cons m t l :
  count_anchors ((m, t) :: l) = (if is_anchor_marker m then 1 else 0) + count_anchors l.
Proof. unfold count_anchors. cbn. now destruct (is_anchor_marker m). Qed.

Lemma starts_anchors off l :
  length (filter (fun e => is_anchor_marker (fst e)) (starts off l)) = count_anchors l.
Proof.
  unfold count_anchors.
  revert off; induction l as [|[k t] l IH]; intros off; cbn; [easy|].
  destruct (is_anchor_marker k); cbn; now rewrite IH.
Qed.

(** ** Shifts *)

Lemma shift_up_split a b thr n :
  (forall e, In e a -> snd e < thr) ->
  (forall e, In e b -> thr <= snd e) ->
  shift_up (a ++ b) thr n = a ++ map (fun e => (fst e, snd e + n)) b.
Proof.
  intros Ha Hb. induction a as [|[m x] a IH]; cbn [app].
  - destruct b as [|[m x] b]; [easy|]. cbn [shift_up].
    specialize (Hb (m, x) (or_introl eq_refl)). cbn in Hb.
    destruct (x <? thr) eqn:E; [lia|]. reflexivity.
  - cbn [shift_up]. pose proof (Ha (m, x) (or_introl eq_refl)) as H. cbn in H.
    destruct (x <? thr) eqn:E; [|lia]. f_equal. apply IH. intros e He. apply Ha. now right.
Qed.

Lemma sub_all_ok b n :
  sub_all (map (fun e => (fst e, snd e + n)) b) n = Ok b.
Proof.
  induction b as [|[m x] b IH]; cbn [map sub_all fst snd]; [easy|].
  destruct (n <=? x + n) eqn:E; [|lia]. rewrite IH. cbn [bind]. do 3 f_equal. lia.
Qed.

Lemma shift_down_split a b thr n :
  (forall e, In e a -> snd e < thr) ->
  (forall e, In e b -> thr <= snd e + n) ->
  shift_down (a ++ map (fun e => (fst e, snd e + n)) b) thr n = Ok (a ++ b).
Proof.
  intros Ha Hb. induction a as [|[m x] a IH]; cbn [app].
  - destruct b as [|[m x] b]; [easy|]. cbn [map shift_down fst snd].
    specialize (Hb (m, x) (or_introl eq_refl)). cbn in Hb.
    destruct (x + n <? thr) eqn:E; [lia|]. apply (sub_all_ok ((m, x) :: b)).
  - cbn [shift_down]. pose proof (Ha (m, x) (or_introl eq_refl)) as H. cbn in H.
    destruct (x <? thr) eqn:E; [|lia]. rewrite IH; [easy|]. intros e He. apply Ha. now right.
Qed.

(** ** Lookups *)

Section Lookup.
Variables (st : rstore) (pre : list seg) (m : marker) (t : str) (post : list seg).
Hypothesis R : rep st (pre ++ (m, t) :: post).

Let P := blen (jpre pre).

Lemma rep_rope_mid : rope st = jpre pre ++ t ++ jpost post.
Proof. rewrite (rep_rope _ _ R). apply join_mid. Qed.

Lemma rep_total_mid : total (index st) = P + (blen t + blen (jpost post)).
Proof. rewrite (rep_total _ _ R), rep_rope_mid, !blen_app. reflexivity. Qed.

Lemma rep_midx_mid : midx (index st) m = Some (length pre).
Proof. rewrite (rep_midx _ _ R). apply seg_pos_mid. apply (nodup_mid_pre _ _ _ _ (rep_nodup _ _ R)). Qed.

Lemma rep_entry_pos : entry_pos m (entries (index st)) = Some (length pre).
Proof. rewrite (rep_entries _ _ R), entry_pos_starts, <- (rep_midx _ _ R). apply rep_midx_mid. Qed.

Lemma rep_length : length (entries (index st)) = length pre + S (length post).
Proof. rewrite (rep_entries _ _ R), starts_length, app_length. reflexivity. Qed.

(** End byte of the range, including the trailing newline when there is a successor. *)
Definition range_end : nat :=
  match post with [] => P + blen t | _ => P + blen t + 1 end.
Definition has_succ : bool := match post with [] => false | _ => true end.

Lemma rep_range_succ : range_with_successor (index st) m = Ok (Some (P, range_end, has_succ)).
Proof.
  unfold range_with_successor. rewrite rep_midx_mid, (rep_entries _ _ R), starts_nth. cbn [plus].
  rewrite starts_app, nth_error_app2; rewrite starts_length; [|lia].
  replace (S (length pre) - length pre) with 1 by lia. cbn [starts nth_error].
  pose proof rep_total_mid as T.
  unfold range_end, has_succ. destruct post as [|[k u] post'] eqn:Ep; cbn [starts nth_error].
  - rewrite T. cbn. do 4 f_equal. lia.
  - reflexivity.
Qed.

Lemma rep_range : range_of (index st) m = Ok (Some (P, range_end)).
Proof. unfold range_of. rewrite rep_range_succ. reflexivity. Qed.

Lemma rep_content_end : content_end P range_end has_succ = P + blen t.
Proof.
  unfold content_end, range_end, has_succ. destruct post; cbn [andb]; [easy|].
  destruct (P <? P + blen t + 1) eqn:E; lia.
Qed.

Lemma rep_b2c_start : byte_to_char (rope st) P = Ok (length (jpre pre)).
Proof. rewrite rep_rope_mid. apply byte_to_char_app. Qed.

Lemma rep_b2c_in i : i <= length t -> byte_to_char (rope st) (P + boff t i) = Ok (length (jpre pre) + i).
Proof.
  intros H. rewrite rep_rope_mid. unfold P.
  rewrite <- (boff_app_l t (jpost post)) by easy. rewrite <- boff_app_r.
  apply byte_to_char_boff. rewrite !app_length. lia.
Qed.

Lemma rep_b2c_end : byte_to_char (rope st) (P + blen t) = Ok (length (jpre pre) + length t).
Proof. rewrite <- (boff_all t (length t)) by lia. now apply rep_b2c_in. Qed.

End Lookup.

Lemma rep_range_none st l m : rep st l -> ~ In m (map fst l) -> range_of (index st) m = Ok None.
Proof.
  intros R H. unfold range_of, range_with_successor. rewrite (rep_midx _ _ R).
  apply seg_pos_none in H. now rewrite H.
Qed.

Lemma rep_content st pre b t post :
  rep st (pre ++ (MBlock b, t) :: post) -> block_content st b = Ok t.
Proof.
  intros R. unfold block_content. rewrite (rep_range_succ _ _ _ _ _ R). cbn [bind].
  rewrite (rep_content_end _ _ _ _ _ R), (rep_rope_mid _ _ _ _ _ R). apply byte_slice_app.
Qed.

Lemma rep_char_length st pre b t post :
  rep st (pre ++ (MBlock b, t) :: post) -> block_char_length st b = Ok (length t).
Proof.
  intros R. unfold block_char_length. rewrite (rep_range_succ _ _ _ _ _ R). cbn [bind].
  rewrite (rep_content_end _ _ _ _ _ R), (rep_b2c_start _ _ _ _ _ R), (rep_b2c_end _ _ _ _ _ R).
  cbn [bind]. destruct (length (jpre pre) <=? length (jpre pre) + length t) eqn:E; [|lia].
  f_equal. lia.
Qed.

Lemma rep_doc_position st pre b t post stored :
  rep st (pre ++ (MBlock b, t) :: post) ->
  block_document_position st b stored = Ok (Z.of_nat (length (jpre pre))).
Proof.
  intros R. unfold block_document_position. rewrite (rep_range _ _ _ _ _ R). cbn [bind].
  now rewrite (rep_b2c_start _ _ _ _ _ R).
Qed.

Lemma rep_char_to_byte st pre b t post off :
  rep st (pre ++ (MBlock b, t) :: post) ->
  block_char_to_byte_in_block st b off = Ok (boff t off, blen t).
Proof.
  intros R. unfold block_char_to_byte_in_block. rewrite (rep_range_succ _ _ _ _ _ R). cbn [bind].
  rewrite (rep_content_end _ _ _ _ _ R), (rep_b2c_start _ _ _ _ _ R), (rep_b2c_end _ _ _ _ _ R).
  destruct (blen (jpre pre) <=? blen (jpre pre) + blen t) eqn:E1; [|lia]. cbn [bind].
  destruct (length (jpre pre) <=? length (jpre pre) + length t) eqn:E2; [|lia].
  replace (length (jpre pre) + length t - length (jpre pre)) with (length t) by lia.
  rewrite (rep_rope_mid _ _ _ _ _ R).
  rewrite char_to_byte_ok by (rewrite !app_length; lia). cbn [bind].
  rewrite boff_app_r, boff_app_l by lia.
  assert (Eb: boff t (Nat.min off (length t)) = boff t off).
  { destruct (Nat.le_ge_cases off (length t)).
    - now rewrite Nat.min_l.
    - rewrite Nat.min_r by easy. now rewrite !boff_all by lia. }
  rewrite Eb. destruct (_ <=? blen (jpre pre) + boff t off) eqn:E3; [|lia]. do 2 f_equal; lia.
Qed.

(** [marker_at_byte] *)
Lemma last_at_skip a b byte acc :
  (forall e, In e a -> snd e <= byte) ->
  exists acc', last_at_or_before (a ++ b) byte acc = last_at_or_before b byte acc'.
Proof.
  revert acc; induction a as [|[m x] a IH]; intros acc H; cbn [app last_at_or_before].
  - now exists acc.
  - pose proof (H (m, x) (or_introl eq_refl)) as Hx. cbn in Hx.
    destruct (x <=? byte) eqn:E; [|lia]. apply IH. intros e He. apply H. now right.
Qed.

Lemma rep_marker_at st pre m t post i :
  rep st (pre ++ (m, t) :: post) -> i <= length t ->
  marker_at_byte (index st) (blen (jpre pre) + boff t i) = Some m.
Proof.
  intros R Hi. unfold marker_at_byte. rewrite (rep_total_mid _ _ _ _ _ R).
  pose proof (boff_le t i). destruct (_ <? _) eqn:E; [lia|].
  rewrite (rep_entries _ _ R), starts_app.
  destruct (last_at_skip (starts 0 pre) (starts (0 + blen (jpre pre)) ((m, t) :: post))
              (blen (jpre pre) + boff t i) None) as [acc ->].
  { intros e He. apply starts_lt in He. lia. }
  cbn [starts last_at_or_before plus].
  destruct (_ <=? _) eqn:E2; [|lia].
  destruct (starts (blen (jpre pre) + blen t + 1) post) as [|[k x] l] eqn:Es; [easy|].
  cbn [last_at_or_before].
  assert (Hx: blen (jpre pre) + blen t + 1 <= x).
  { apply (starts_ge _ post (k, x)). rewrite Es. now left. }
  destruct (x <=? _) eqn:E3; [lia|easy].
Qed.

(** Position [length (jpre pre) + i], with [i] inside the block or at its end,
    resolves to that block. *)
Lemma rep_find_block st pre b t post i n :
  rep st (pre ++ (MBlock b, t) :: post) -> count_anchors (pre ++ (MBlock b, t) :: post) = 0 ->
  n = length (pre ++ (MBlock b, t) :: post) -> i <= length t ->
  find_block_at_char_position st n (Z.of_nat (length (jpre pre) + i))
  = Ok (Some (b, i, length (jpre pre))).
Proof.
  intros R HA -> Hi. unfold find_block_at_char_position, positions_match_flow.
  rewrite (rep_anchors _ _ R), HA, (rep_entries _ _ R), starts_length, !Nat.eqb_refl. cbn [andb negb].
  pose proof (rep_rope_mid _ _ _ _ _ R) as Er.
  assert (Hl: length (rope st) = length (jpre pre) + (length t + length (jpost post)))
    by (rewrite Er, !app_length; easy).
  replace (Z.to_nat _) with (length (jpre pre) + i) by lia.
  rewrite char_to_byte_ok by lia. cbn [bind].
  rewrite Er at 1. rewrite boff_app_r, boff_app_l by easy.
  rewrite (rep_marker_at _ _ _ _ _ _ R Hi), (rep_range_succ _ _ _ _ _ R). cbn [bind].
  rewrite (rep_content_end _ _ _ _ _ R), (rep_b2c_start _ _ _ _ _ R). cbn [bind].
  pose proof (boff_le t i). rewrite Nat.min_l.
  2:{ rewrite Er, boff_app_r, boff_app_l by easy. lia. }
  rewrite Er at 2. rewrite boff_app_r, boff_app_l by easy.
  rewrite (rep_b2c_in _ _ _ _ _ R) by easy. cbn [bind].
  destruct (_ <=? _) eqn:E; [|lia]. do 4 f_equal. lia.
Qed.

Lemma rep_find_block_none st l n p :
  rep st l -> 0 < count_anchors l \/ n <> length l -> find_block_at_char_position st n p = Ok None.
Proof.
  intros R H. unfold find_block_at_char_position, positions_match_flow.
  rewrite (rep_anchors _ _ R), (rep_entries _ _ R), starts_length.
  destruct (count_anchors l =? 0) eqn:E1; [|easy]. cbn [andb].
  destruct (length l =? n) eqn:E2; [lia|easy].
Qed.

(** ** Edits *)

Section Edits.
Variables (st : rstore) (pre : list seg) (b : id).

Lemma starts_lt_thr l thr : blen (jpre l) <= thr -> forall e, In e (starts 0 l) -> snd e < thr.
Proof. intros H e He. apply starts_lt in He. lia. Qed.

(** The entries after an in-place text change of one segment. *)
Lemma starts_mid_eq m t post :
  starts 0 (pre ++ (m, t) :: post)
  = (starts 0 pre ++ [(m, blen (jpre pre))]) ++ starts (blen (jpre pre) + blen t + 1) post.
Proof. rewrite starts_app, <- app_assoc. reflexivity. Qed.

Lemma head_lt_thr (m : marker) thr : blen (jpre pre) < thr ->
  forall e, In e (starts 0 pre ++ [(m, blen (jpre pre))]) -> snd e < thr.
Proof.
  intros H e. rewrite in_app_iff. intros [He|[<-|[]]]; [|cbn; lia].
  apply starts_lt in He. lia.
Qed.

Lemma rep_insert_in_block (t1 t2 x : str) (post : list seg) :
  rep st (pre ++ (MBlock b, t1 ++ t2) :: post) ->
  exists st', rope_insert_in_block st b (blen t1) x = Ok st'
           /\ rep st' (pre ++ (MBlock b, t1 ++ x ++ t2) :: post).
Proof.
  intros R. unfold rope_insert_in_block. destruct (blen x =? 0) eqn:E0.
  { apply Nat.eqb_eq, blen_nil_inv in E0. subst. exists st. now split. }
  rewrite (rep_range _ _ _ _ _ R). cbn [bind].
  pose proof (rep_rope_mid _ _ _ _ _ R) as Er.
  assert (Er': rope st = (jpre pre ++ t1) ++ t2 ++ jpost post) by (rewrite Er, <- !app_assoc; easy).
  rewrite <- blen_app. rewrite ?Er'. rewrite byte_to_char_app. cbn [bind].
  rewrite ?Er'. rewrite rope_insert_app. cbn [bind].
  eexists. split; [reflexivity|].
  assert (Ej: (jpre pre ++ t1) ++ x ++ t2 ++ jpost post
              = join (map snd (pre ++ (MBlock b, t1 ++ x ++ t2) :: post)))
    by (rewrite join_mid, <- !app_assoc; easy).
  split; cbn [rope index shift_after_up entries total midx anchor_count].
  - exact Ej.
  - rewrite (rep_entries _ _ R), !starts_mid_eq.
    rewrite shift_up_split.
    + rewrite <- starts_shift. do 2 f_equal. rewrite !blen_app. lia.
    + apply head_lt_thr. lia.
    + intros e He. apply starts_ge in He. lia.
  - rewrite (rep_total _ _ R), Er', !blen_app. lia.
  - intros m. rewrite (rep_midx _ _ R). apply seg_pos_fst. rewrite !map_app. reflexivity.
  - rewrite (rep_anchors _ _ R), !count_anchors_app, !count_anchors_cons. reflexivity.
  - pose proof (rep_nodup _ _ R) as N. rewrite map_app in *. exact N.
Qed.

Lemma rep_delete_in_block (t1 x t2 : str) (post : list seg) :
  rep st (pre ++ (MBlock b, t1 ++ x ++ t2) :: post) ->
  exists st', rope_delete_in_block st b (blen t1) (blen t1 + blen x) = Ok st'
           /\ rep st' (pre ++ (MBlock b, t1 ++ t2) :: post).
Proof.
  intros R. unfold rope_delete_in_block. destruct (_ <=? _) eqn:E0.
  { assert (Hx: blen x = 0) by lia. apply blen_nil_inv in Hx. subst. exists st. now split. }
  rewrite (rep_range _ _ _ _ _ R). cbn [bind].
  pose proof (rep_rope_mid _ _ _ _ _ R) as Er.
  assert (Er': rope st = (jpre pre ++ t1) ++ x ++ t2 ++ jpost post) by (rewrite Er, <- !app_assoc; easy).
  replace (blen (jpre pre) + blen t1) with (blen (jpre pre ++ t1)) by apply blen_app.
  rewrite ?Er'. rewrite byte_to_char_app. cbn [bind].
  replace (blen (jpre pre) + (blen t1 + blen x)) with (blen (jpre pre ++ t1) + blen x) by (rewrite !blen_app; lia).
  rewrite byte_to_char_app2. cbn [bind]. rewrite rope_remove_app. cbn [bind].
  unfold shift_after_down. rewrite (rep_entries _ _ R), starts_mid_eq.
  replace (blen t1 + blen x - blen t1) with (blen x) by lia.
  replace (blen (jpre pre) + blen (t1 ++ x ++ t2) + 1)
    with (blen (jpre pre) + blen (t1 ++ t2) + 1 + blen x) by (rewrite !blen_app; lia).
  rewrite starts_shift, shift_down_split.
  2:{ apply head_lt_thr. lia. }
  2:{ intros e He. apply starts_ge in He. lia. }
  cbn [bind]. rewrite (rep_total _ _ R), Er', !blen_app.
  destruct (blen x <=? _) eqn:E1; [|lia]. cbn [bind].
  eexists. split; [reflexivity|].
  split; cbn [rope index entries total midx anchor_count].
  - rewrite join_mid, <- !app_assoc. easy.
  - rewrite starts_mid_eq, blen_app. reflexivity.
  - rewrite !blen_app. lia.
  - intros m. rewrite (rep_midx _ _ R). apply seg_pos_fst. rewrite !map_app. reflexivity.
  - rewrite (rep_anchors _ _ R), !count_anchors_app, !count_anchors_cons. reflexivity.
  - pose proof (rep_nodup _ _ R) as N. rewrite map_app in *. exact N.
Qed.

Lemma rep_split_block (t1 t2 : str) nb (post : list seg) :
  rep st (pre ++ (MBlock b, t1 ++ t2) :: post) ->
  ~ In (MBlock nb) (map fst (pre ++ (MBlock b, t1 ++ t2) :: post)) ->
  exists st', rope_split_block st b (blen t1) nb = Ok st'
           /\ rep st' (pre ++ (MBlock b, t1) :: (MBlock nb, t2) :: post).
Proof.
  intros R Hn. unfold rope_split_block. rewrite (rep_range _ _ _ _ _ R). cbn [bind].
  rewrite (rep_entry_pos _ _ _ _ _ R). cbn [unwrap bind].
  pose proof (rep_rope_mid _ _ _ _ _ R) as Er.
  assert (Er': rope st = (jpre pre ++ t1) ++ t2 ++ jpost post) by (rewrite Er, <- !app_assoc; easy).
  replace (blen (jpre pre) + blen t1) with (blen (jpre pre ++ t1)) by apply blen_app.
  rewrite ?Er'. rewrite byte_to_char_app. cbn [bind].
  rewrite ?Er'. rewrite rope_insert_app. cbn [bind].
  unfold insert_at. cbn [shift_after_up entries total midx anchor_count].
  assert (Es: shift_up (entries (index st)) (blen (jpre pre ++ t1) + 1) 1
              = (starts 0 pre ++ [(MBlock b, blen (jpre pre))])
                ++ starts (blen (jpre pre) + blen t1 + 1 + blen t2 + 1) post).
  { rewrite (rep_entries _ _ R), starts_mid_eq, shift_up_split.
    - rewrite <- starts_shift. do 2 f_equal. rewrite blen_app. lia.
    - apply head_lt_thr. rewrite blen_app. lia.
    - intros e He. apply starts_ge in He. rewrite !blen_app in *. lia. }
  rewrite Es. assert (Hl: length (starts 0 pre ++ [(MBlock b, blen (jpre pre))]) = S (length pre))
    by (rewrite app_length, starts_length; cbn; lia).
  rewrite app_length, Hl. destruct (_ <=? _) eqn:E; [|lia]. cbn [bind].
  rewrite (firstn_exact _ _ _ Hl), (skipn_exact _ _ _ Hl).
  eexists. split; [reflexivity|].
  split; cbn [rope index entries total midx anchor_count].
  - rewrite join_mid, jpost_cons, <- !app_assoc. easy.
  - rewrite starts_mid_eq. cbn [starts]. now rewrite blen_app.
  - rewrite (rep_total _ _ R), Er', !blen_app. cbn. lia.
  - intros k.
    assert (Hf: map fst (pre ++ (MBlock b, t1 ++ t2) :: post)
                = map fst ((pre ++ [(MBlock b, t1)]) ++ post))
      by (rewrite <- app_assoc; cbn [app]; rewrite !map_app; reflexivity).
    rewrite (rep_midx _ _ R), (seg_pos_fst _ _ _ Hf).
    replace (pre ++ (MBlock b, t1) :: (MBlock nb, t2) :: post)
      with ((pre ++ [(MBlock b, t1)]) ++ (MBlock nb, t2) :: post) by (rewrite <- app_assoc; easy).
    rewrite seg_pos_insert.
    + rewrite app_length. cbn [length]. replace (length pre + 1) with (S (length pre)) by lia. reflexivity.
    + rewrite seg_pos_none, <- Hf. exact Hn.
  - cbn [bump_anchor is_anchor_marker].
    rewrite (rep_anchors _ _ R), !count_anchors_app, !count_anchors_cons. reflexivity.
  - pose proof (rep_nodup _ _ R) as N. rewrite map_app in *. cbn [map fst] in *.
    change (MBlock b :: MBlock nb :: map fst post) with ([MBlock b] ++ MBlock nb :: map fst post).
    rewrite app_assoc. apply NoDup_Add with (a := MBlock nb) (l := (map fst pre ++ [MBlock b]) ++ map fst post).
    + apply Add_app.
    + rewrite <- app_assoc. now split.
Qed.

Lemma rep_merge_range (t1 t2 : str) (mid : list seg) eb (u1 u2 : str) (post : list seg) :
  rep st (pre ++ (MBlock b, t1 ++ t2) :: mid ++ (MBlock eb, u1 ++ u2) :: post) ->
  exists st', rope_merge_block_range st b (blen t1) eb (blen u1) = Ok st'
           /\ rep st' (pre ++ (MBlock b, t1 ++ u2) :: post).
Proof.
  intros R. set (B := mid ++ [(MBlock eb, u1 ++ u2)]).
  assert (El: pre ++ (MBlock b, t1 ++ t2) :: mid ++ (MBlock eb, u1 ++ u2) :: post
              = (pre ++ [(MBlock b, t1 ++ t2)]) ++ B ++ post)
    by (unfold B; rewrite <- !app_assoc; reflexivity).
  assert (El2: pre ++ (MBlock b, t1 ++ t2) :: mid ++ (MBlock eb, u1 ++ u2) :: post
              = (pre ++ (MBlock b, t1 ++ t2) :: mid) ++ (MBlock eb, u1 ++ u2) :: post)
    by (rewrite <- !app_assoc; reflexivity).
  pose proof R as R2. rewrite El2 in R2.
  unfold rope_merge_block_range.
  rewrite (rep_range _ _ _ _ _ R), (rep_range _ _ _ _ _ R2). cbn [bind].
  rewrite (rep_entry_pos _ _ _ _ _ R), (rep_entry_pos _ _ _ _ _ R2). cbn [unwrap bind].
  rewrite app_length. cbn [length]. destruct (_ <=? _) eqn:E0; [lia|].
  rewrite jpre_app, jpre_cons.
  destruct (blen (jpre pre ++ (t1 ++ t2) ++ NL :: jpre mid) + blen u1 <=? blen (jpre pre) + blen t1) eqn:E1.
  { rewrite !blen_app, blen_NL_cons in E1. lia. }
  set (D := t2 ++ NL :: jpre mid ++ u1).
  assert (Er: rope st = (jpre pre ++ t1) ++ D ++ u2 ++ jpost post).
  { rewrite (rep_rope_mid _ _ _ _ _ R2), jpre_app, jpre_cons. unfold D.
    repeat (rewrite <- !app_assoc; cbn [app]). reflexivity. }
  replace (blen (jpre pre) + blen t1) with (blen (jpre pre ++ t1)) by apply blen_app.
  rewrite ?Er. rewrite byte_to_char_app. cbn [bind].
  replace (blen (jpre pre ++ (t1 ++ t2) ++ NL :: jpre mid) + blen u1) with (blen (jpre pre ++ t1) + blen D).
  2:{ unfold D. rewrite !blen_app, !blen_NL_cons, !blen_app. lia. }
  rewrite byte_to_char_app2. cbn [bind]. rewrite rope_remove_app. cbn [bind].
  unfold drain_inclusive. rewrite (rep_entries _ _ R).
  assert (Es: starts 0 (pre ++ (MBlock b, t1 ++ t2) :: mid ++ (MBlock eb, u1 ++ u2) :: post)
              = (starts 0 pre ++ [(MBlock b, blen (jpre pre))])
                ++ starts (blen (jpre pre) + blen (t1 ++ t2) + 1) B
                ++ starts (blen (jpre pre) + blen (t1 ++ t2) + 1 + blen (jpre B)) post).
  { rewrite El, (starts_app 0 (pre ++ _)), (starts_app _ B post), (starts_app 0 pre).
    rewrite jpre_snoc. cbn [starts plus]. reflexivity. }
  rewrite Es.
  assert (Hl: length (starts 0 pre ++ [(MBlock b, blen (jpre pre))]) = S (length pre))
    by (rewrite app_length, starts_length; cbn; lia).
  assert (HB: length B = S (length mid)) by (unfold B; rewrite app_length; cbn; lia).
  set (E := starts (blen (jpre pre) + blen (t1 ++ t2) + 1) B).
  assert (HE: length E = S (length mid)) by (unfold E; rewrite starts_length; easy).
  set (A := starts 0 pre ++ [(MBlock b, blen (jpre pre))]) in *.
  set (C := starts _ post).
  assert (Hc: ((S (length pre) <=? S (length pre + S (length mid)))
               && (length pre + S (length mid) <? length (A ++ E ++ C))) = true).
  { rewrite !app_length, Hl, HE. lia. }
  rewrite Hc.
  assert (HfA: firstn (S (length pre)) (A ++ E ++ C) = A).
  { rewrite <- Hl, firstn_app, Nat.sub_diag, firstn_all. cbn [firstn]. apply app_nil_r. }
  assert (HsA: skipn (S (length pre)) (A ++ E ++ C) = E ++ C).
  { rewrite <- Hl, skipn_app, Nat.sub_diag, skipn_all. reflexivity. }
  assert (HsC: skipn (S (length pre + S (length mid))) (A ++ E ++ C) = C).
  { rewrite app_assoc.
    replace (S (length pre + S (length mid))) with (length (A ++ E)) by (rewrite app_length; lia).
    rewrite skipn_app, Nat.sub_diag, skipn_all. reflexivity. }
  assert (HfE: firstn (S (length pre + S (length mid)) - S (length pre)) (E ++ C) = E).
  { replace (S (length pre + S (length mid)) - S (length pre)) with (length E) by lia.
    rewrite firstn_app, Nat.sub_diag, firstn_all. cbn [firstn]. apply app_nil_r. }
  rewrite HfA, HsA, HsC, HfE. cbn [bind].
  unfold shift_after_down. cbn [entries total midx anchor_count].
  replace (blen (jpre pre ++ t1) + blen D - blen (jpre pre ++ t1)) with (blen D) by lia.
  assert (HC: C = map (fun e => (fst e, snd e + blen D)) (starts (blen (jpre pre) + blen (t1 ++ u2) + 1) post)).
  { unfold C. rewrite <- starts_shift. f_equal. unfold B, D. rewrite jpre_app, jpre_cons.
    unfold jpre at 3. cbn [map concat]. rewrite !blen_app, !blen_NL_cons, !blen_app. cbn [blen]. lia. }
  rewrite HC, shift_down_split.
  2:{ apply head_lt_thr. rewrite blen_app. lia. }
  2:{ intros e He. apply starts_ge in He. rewrite !blen_app in *. lia. }
  cbn [bind]. rewrite (rep_total _ _ R), Er.
  destruct (blen D <=? _) eqn:E2; [|rewrite !blen_app in E2; lia]. cbn [bind].
  eexists. split; [reflexivity|].
  split; cbn [rope index entries total midx anchor_count].
  - rewrite join_mid, <- !app_assoc. easy.
  - unfold A. now rewrite starts_mid_eq.
  - rewrite !blen_app. lia.
  - intros k. rewrite (rep_midx _ _ R), HE.
    pose proof (rep_nodup _ _ R) as N. rewrite El in N.
    transitivity (seg_pos k ((pre ++ [(MBlock b, t1 ++ t2)]) ++ post)).
    2:{ apply seg_pos_fst. rewrite <- app_assoc. cbn [app]. rewrite !map_app. reflexivity. }
    rewrite (seg_pos_drain k _ B post N) by lia.
    replace (in_markers k (starts 0 B)) with (in_markers k E).
    2:{ destruct (in_markers k E) eqn:X, (in_markers k (starts 0 B)) eqn:Y; try easy.
        - apply in_markers_spec in X. unfold E in X. rewrite starts_fst, <- (starts_fst 0) in X.
          apply in_markers_spec in X. congruence.
        - apply in_markers_spec in Y. rewrite starts_fst in Y.
          rewrite <- (starts_fst (blen (jpre pre) + blen (t1 ++ t2) + 1)) in Y. fold E in Y.
          apply in_markers_spec in Y. congruence. }
    rewrite app_length, HB. cbn [length]. rewrite El.
    replace (length pre + 1 + S (length mid) - 1) with (length pre + S (length mid)) by lia.
    reflexivity.
  - rewrite (rep_anchors _ _ R). unfold E. rewrite starts_anchors, El.
    rewrite !count_anchors_app, !count_anchors_cons. cbn [is_anchor_marker].
    change (count_anchors []) with 0. lia.
  - pose proof (rep_nodup _ _ R) as N. rewrite El in N. clear -N. rewrite !map_app in *. cbn [map fst] in *.
    apply nodup_app_mid in N. rewrite <- app_assoc in N. exact N.
Qed.

End Edits.
