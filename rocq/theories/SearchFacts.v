(** Searching a text: the literal and the regex loops. *)
From Verif Require Import Base BaseFacts DocInv DocDelete SearchModel SearchSpec.

(** [char_indices] lists the byte offsets of the characters. *)
Lemma char_indices_length off s : length (char_indices off s) = length s.
Proof. revert off; induction s as [|c s IH]; intros off; cbn; [easy|]. now rewrite IH. Qed.
Lemma char_indices_nth s : forall off i, i < length s -> nth_error (char_indices off s) i = Some (off + boff s i).
Proof.
  induction s as [|c s IH]; intros off [|i] H; cbn [length] in H; [lia|lia| |].
  - cbn [char_indices nth_error]. rewrite boff_0. f_equal. lia.
  - cbn [char_indices nth_error]. rewrite IH by lia. rewrite boff_cons. f_equal. lia.
Qed.

Lemma slice_chars s i n : i + n <= length s -> byte_slice s (boff s i) (boff s (i + n)) = Ok (firstn n (skipn i s)).
Proof.
  intros H. unfold byte_slice. rewrite !is_boundary_boff by lia. rewrite !b2c_boff by lia.
  assert (boff s i <= boff s (i + n)) by (apply boff_mono; lia).
  replace (boff s i <=? boff s (i + n)) with true by (symmetry; now apply Nat.leb_le). cbn [andb].
  now replace (i + n - i) with n by lia.
Qed.

Lemma str_eqb_spec a b : str_eqb a b = true <-> a = b.
Proof. unfold str_eqb. destruct (list_eq_dec N.eq_dec a b); split; easy. Qed.

(** The query stands at [p] exactly when the slice there is the query. *)
Lemma occurs_slice q s p : occurs q s p <-> p + length q <= length s /\ firstn (length q) (skipn p s) = q.
Proof.
  split.
  - intros (l & r & -> & <-). rewrite !app_length. split; [lia|].
    rewrite skipn_app, skipn_all, Nat.sub_diag. cbn [skipn app]. rewrite firstn_app, firstn_all, Nat.sub_diag. cbn. now rewrite app_nil_r.
  - intros [H E]. exists (firstn p s), (skipn (p + length q) s). split; [|rewrite firstn_length; lia].
    rewrite <- (firstn_skipn p s) at 1. f_equal. rewrite <- (firstn_skipn (length q) (skipn p s)) at 1.
    rewrite E. f_equal. rewrite skipn_skipn. reflexivity.
Qed.

(** The [while] loop, from [pos] on. *)
Lemma literal_go_spec wb s q fuel : q <> [] -> forall pos, length s < pos + fuel ->
  exists ms, literal_go wb s q (char_indices 0 s) fuel pos = Ok ms
   /\ reports (fun p => pos <= p /\ occurs q s p /\ wb p = true /\ wb (p + length q) = true) (length q) ms.
Proof.
  intros Hq. assert (Hn : 0 < length q) by (destruct q; [easy|cbn; lia]).
  induction fuel as [|fuel IH]; intros pos Hf; cbn [literal_go].
  - exists []. split; [easy|]. split; [constructor|]. split; [|easy]. intros p. cbn. split; [easy|].
    intros (H1 & H2 & _). apply occurs_slice in H2. lia.
  - rewrite char_indices_length. destruct (pos + length q <=? length s) eqn:E.
    + apply Nat.leb_le in E. rewrite char_indices_nth by lia. cbn [unwrap bind plus].
      replace (if pos + length q <? length s then unwrap (nth_error (char_indices 0 s) (pos + length q)) else Ok (blen s))
        with (Ok (boff s (pos + length q))).
      2:{ destruct (pos + length q <? length s) eqn:E2.
          - apply Nat.ltb_lt in E2. now rewrite char_indices_nth.
          - apply Nat.ltb_ge in E2. rewrite boff_all by lia. easy. }
      cbn [bind]. rewrite slice_chars by lia. cbn [bind].
      destruct (IH (S pos) ltac:(lia)) as (ms & -> & I & M & L). cbn [bind].
      eexists. split; [reflexivity|].
      assert (O : str_eqb (firstn (length q) (skipn pos s)) q = true <-> occurs q s pos).
      { rewrite str_eqb_spec, occurs_slice. tauto. }
      destruct (str_eqb _ q && wb pos && wb (pos + length q)) eqn:B.
      * rewrite !andb_true_iff in B. destruct B as [[B1 B2] B3]. split; [|split].
        -- cbn [map fst]. constructor; [|easy]. intros p Hp. apply M in Hp. lia.
        -- intros p. cbn [map fst In]. rewrite M. split.
           ++ intros [<-|(H1 & H2)]; [|intuition lia]. split; [lia|]. tauto.
           ++ intros (H1 & H2). destruct (Nat.eq_dec pos p); [now left|]. right. split; [lia|easy].
        -- intros m [<-|Hm]; [easy|auto].
      * split; [easy|]. split; [|easy]. intros p. rewrite M. split; [intuition lia|]. intros (H1 & H2 & H3 & H4).
        split; [|easy]. destruct (Nat.eq_dec pos p) as [->|]; [|lia]. exfalso.
        apply O in H2. rewrite H2, H3, H4 in B. discriminate.
    + apply Nat.leb_gt in E. exists []. split; [easy|]. split; [constructor|]. split; [|easy]. intros p. cbn. split; [easy|].
      intros (H1 & H2 & _). apply occurs_slice in H2. lia.
Qed.

Lemma word_boundary_spec words text k : word_boundary words text k = true <-> at_word_edge words text k.
Proof.
  unfold word_boundary, at_word_edge. rewrite !orb_true_iff, !Nat.eqb_eq, existsb_exists. split.
  - intros [[H|H]|((s & n) & H1 & H2)]; auto. right. right. exists s, n. split; [easy|].
    cbn in H2. rewrite orb_true_iff, !Nat.eqb_eq in H2. easy.
  - intros [H|[H|(s & n & H1 & H2)]]; auto. right. exists (s, n). split; [easy|].
    cbn. rewrite orb_true_iff, !Nat.eqb_eq. easy.
Qed.

(** Where the search, literal and with or without case, finds the query. *)
Definition found (g : engines) (o : find_options) (text query : str) (p : nat) : Prop :=
  let st := if case_sensitive o then text else lower g text in
  let sq := if case_sensitive o then query else lower g query in
  query <> [] /\ sq <> [] /\ occurs sq st p
  /\ (whole_word o = true -> at_word_edge (words g) text p /\ at_word_edge (words g) text (p + length sq)).

Lemma find_literal_all g text query o : use_regex o = false ->
  exists ms, find_all_matches g text query o = Ok ms
   /\ reports (found g o text query) (length (if case_sensitive o then query else lower g query)) ms.
Proof.
  intros Hr. unfold find_all_matches, found. rewrite Hr.
  destruct query as [|c query].
  { exists []. split; [easy|]. split; [constructor|]. split; [|easy]. intros p. cbn. easy. }
  set (q := c :: query). unfold find_literal.
  set (sq := if case_sensitive o then q else lower g q).
  set (st := if case_sensitive o then text else lower g text).
  set (wb := if whole_word o then _ else _).
  rewrite char_indices_length.
  assert (Hwb : forall p, (wb p = true /\ wb (p + length sq) = true)
     <-> (whole_word o = true -> at_word_edge (words g) text p /\ at_word_edge (words g) text (p + length sq))).
  { intros p. unfold wb. destruct (whole_word o).
    - rewrite !word_boundary_spec. tauto.
    - intuition easy. }
  destruct ((length sq =? 0) || (length st <? length sq)) eqn:E.
  - exists []. split; [easy|]. split; [constructor|]. split; [|easy]. intros p. cbn. split; [easy|].
    intros (_ & H1 & H2 & _). apply occurs_slice in H2. rewrite orb_true_iff, Nat.eqb_eq, Nat.ltb_lt in E.
    destruct E as [E|E]; [destruct sq; [easy|discriminate]|lia].
  - rewrite orb_false_iff, Nat.eqb_neq in E. destruct E as [E _].
    assert (Hne : sq <> []) by (intros ->; now apply E).
    destruct (literal_go_spec wb st sq (S (length st)) Hne 0 ltac:(lia)) as (ms & H & I & M & L).
    exists ms. split; [exact H|]. split; [easy|]. split; [|easy]. intros p. rewrite M, <- Hwb. intuition (try easy; try lia).
Qed.

(** [find] on an increasing list. *)
Lemma find_first P n ms from : reports P n ms ->
  next_from P from (option_map fst (find (fun m => from <=? fst m) ms))
  /\ (forall m, find (fun m => from <=? fst m) ms = Some m -> snd m = n).
Proof.
  intros (I & M & L). split.
  2:{ intros m H. apply find_some in H. apply L, H. }
  assert (G : forall l, increasing (map fst l) -> forall Q, (forall p, In p (map fst l) <-> Q p) ->
     next_from Q from (option_map fst (find (fun m : nat * nat => from <=? fst m) l))).
  { induction l as [|[p k] l IH]; intros Il Q HQ; cbn [find fst].
    - cbn. intros q Hq. now apply HQ in Hq.
    - cbn [map fst] in Il, HQ. inversion Il as [|? ? H1 H2]; subst. destruct (from <=? p) eqn:E.
      + apply Nat.leb_le in E. cbn. split; [apply HQ; now left|]. split; [easy|]. intros q Hq _. apply HQ in Hq.
        destruct Hq as [<-|Hq]; [easy|]. specialize (H1 _ Hq). lia.
      + apply Nat.leb_gt in E. specialize (IH H2 (fun q => In q (map fst l)) (fun q => iff_refl _)).
        destruct (find _ l) as [[r rk]|]; cbn in IH |- *.
        * destruct IH as (A & B & C). split; [apply HQ; now right|]. split; [easy|]. intros q Hq Hf. apply HQ in Hq.
          destruct Hq as [<-|Hq]; [lia|auto].
        * intros q Hq. apply HQ in Hq. destruct Hq as [<-|Hq]; [easy|auto]. }
  apply G; assumption.
Qed.

Lemma find_app {A} (f : A -> bool) a b : find f (a ++ b) = match find f a with Some x => Some x | None => find f b end.
Proof. induction a as [|x a IH]; cbn; [easy|]. now destruct (f x). Qed.

Lemma find_last P n ms from : reports P n ms ->
  last_before P from (option_map fst (find (fun m => fst m <? from) (rev ms)))
  /\ (forall m, find (fun m => fst m <? from) (rev ms) = Some m -> snd m = n).
Proof.
  intros (I & M & L). split.
  2:{ intros m H. apply find_some in H. apply L. rewrite in_rev. apply H. }
  assert (G : forall l, increasing (map fst l) -> forall Q, (forall p, In p (map fst l) <-> Q p) ->
     last_before Q from (option_map fst (find (fun m : nat * nat => fst m <? from) (rev l)))).
  { induction l as [|[p k] l IH]; intros Il Q HQ; cbn [rev].
    - cbn. intros q Hq. now apply HQ in Hq.
    - cbn [map fst] in Il, HQ. inversion Il as [|? ? H1 H2]; subst.
      specialize (IH H2 (fun q => In q (map fst l)) (fun q => iff_refl _)).
      rewrite find_app. destruct (find _ (rev l)) as [[r rk]|]; cbn [option_map fst last_before find] in IH |- *.
      + destruct IH as (A & B & C). split; [apply HQ; now right|]. split; [easy|]. intros q Hq Hf. apply HQ in Hq.
        destruct Hq as [<-|Hq]; [specialize (H1 _ A); lia|auto].
      + destruct (p <? from) eqn:E; cbn [option_map fst last_before].
        * apply Nat.ltb_lt in E. split; [apply HQ; now left|]. split; [easy|]. intros q Hq Hf. apply HQ in Hq.
          destruct Hq as [<-|Hq]; [easy|]. specialize (IH _ Hq). lia.
        * apply Nat.ltb_ge in E. intros q Hq. apply HQ in Hq. destruct Hq as [<-|Hq]; [easy|auto]. }
  apply G; assumption.
Qed.

(** Regex ranges: byte offsets back to characters. *)
Lemma byte_map_boff text : forall off ci l r, text = l ++ r ->
  byte_map_go text off ci (off + blen l) = ci + length l.
Proof.
  induction text as [|c text IH]; intros off ci l r E.
  - destruct l; [|discriminate]. cbn. rewrite Nat.add_0_r, Nat.eqb_refl. lia.
  - destruct l as [|x l]; cbn [byte_map_go blen length].
    + rewrite Nat.add_0_r, Nat.eqb_refl. lia.
    + cbn in E. injection E as <- E. pose proof (utf8_len_pos c).
      replace (off + (utf8_len c + blen l) =? off) with false by (symmetry; apply Nat.eqb_neq; lia).
      rewrite Nat.add_assoc, (IH _ _ _ _ E). lia.
Qed.

Lemma regex_match_spec wb l m r :
  regex_match wb (l ++ m ++ r) (blen l, blen l + blen m)
  = Ok (if wb (length l) && wb (length l + length m) then [(length l, length m)] else []).
Proof.
  unfold regex_match, byte_to_char_map. cbn [fst snd]. rewrite !blen_app.
  replace (blen l <=? _) with true by (symmetry; apply Nat.leb_le; lia).
  replace (blen l + blen m <=? _) with true by (symmetry; apply Nat.leb_le; lia).
  cbn [bind]. pose proof (byte_map_boff (l ++ m ++ r) 0 0 l (m ++ r) eq_refl) as E1. cbn [plus] in E1. rewrite E1.
  pose proof (byte_map_boff (l ++ m ++ r) 0 0 (l ++ m) r ltac:(now rewrite <- app_assoc)) as E2. cbn [plus] in E2.
  rewrite blen_app, app_length in E2. rewrite E2.
  replace (length l + length m <? length l) with false by (symmetry; apply Nat.ltb_ge; lia).
  replace (length l + length m - length l) with (length m) by lia. now destruct (_ && _).
Qed.
