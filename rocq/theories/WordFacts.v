(** Facts about words. *)
From Verif Require Import Base BaseFacts FormatRunsModel FormatRunsSpec FormatRunsFacts
  RopeModel RopeSpec RopeFacts DocModel DocSpec BlockFacts DocInv DocFacts DocAttr DocDelete DocBreak DocReplace
  DocImport DocFormat HistModel HistSpec DocReach DocHist DocQuery QueryModel QuerySpec QueryFacts QueryText PropSpec DocTheorems
  QueryTheorems DiffModel DiffSpec DiffFacts CursorModel CursorSpec CursorFacts CursorTheorems WordModel WordSpec.

Lemma loc_same (ps : list para) : forall pre b t post i pre' b' t' post' i',
  ps = pre ++ (b, t) :: post -> i <= length t -> ps = pre' ++ (b', t') :: post' -> i' <= length t' ->
  cpre pre + i = cpre pre' + i' -> pre = pre' /\ b = b' /\ t = t' /\ post = post' /\ i = i'.
Proof.
  induction ps as [|[c u] ps IH]; intros pre b t post i pre' b' t' post' i' E Hi E' Hi' He.
  - now destruct pre.
  - destruct pre as [|x pre], pre' as [|x' pre']; cbn in E, E'.
    + injection E as E1 E2 E3. injection E' as E4 E5 E6. rewrite cpre_nil in He. subst. repeat split; lia.
    + injection E as E1 E2 E3. injection E' as E4 E5. rewrite cpre_nil in He. subst x'. rewrite cpre_cons in He. subst. lia.
    + injection E as E1 E2. injection E' as E4 E5 E6. rewrite cpre_nil in He. subst x. rewrite cpre_cons in He. subst. lia.
    + injection E as E1 E2. injection E' as E4 E5. subst x x'. rewrite !cpre_cons in He.
      destruct (IH _ _ _ _ i _ _ _ _ i' E2 Hi E5 Hi' ltac:(lia)) as (-> & ? & ? & ? & ?). easy.
Qed.

Section Words.
Variable B : str -> list str.
Variable A : char -> bool.
Hypothesis L : word_laws B A.

(** ** Words of one paragraph *)
Lemma words_of_in ws : forall k s e, In (s, e) (words_of A k ws) <->
  exists a w c, ws = a ++ w :: c /\ existsb A w = true /\ s = k + clen a /\ e = s + length w.
Proof.
  induction ws as [|w ws IH]; intros k s e; cbn [words_of].
  - split; [easy|]. intros (a & ? & ? & E & _). now destruct a.
  - assert (Q : In (s, e) (words_of A (k + length w) ws) <->
      exists a w' c, ws = a ++ w' :: c /\ existsb A w' = true /\ s = k + clen (w :: a) /\ e = s + length w').
    { rewrite IH. split; intros (a & w' & c & H1 & H2 & H3 & H4); exists a, w', c; rewrite clen_cons in *; repeat split; try easy; lia. }
    assert (R : (exists a w' c, w :: ws = a ++ w' :: c /\ existsb A w' = true /\ s = k + clen a /\ e = s + length w') <->
      (existsb A w = true /\ s = k /\ e = s + length w) \/ In (s, e) (words_of A (k + length w) ws)).
    { rewrite Q. split.
      - intros ([|x a] & w' & c & H1 & H2 & H3 & H4).
        + cbn in H1. injection H1 as <- <-. left. unfold clen in H3. cbn in H3. repeat split; try easy; lia.
        + cbn in H1. injection H1 as <- ->. right. exists a, w', c. easy.
      - intros [(H1 & H2 & H3)|(a & w' & c & H1 & H2 & H3 & H4)].
        + exists [], w, ws. unfold clen. cbn. repeat split; try easy; lia.
        + exists (w :: a), w', c. rewrite H1. easy. }
    rewrite R. clear R Q. destruct (existsb A w) eqn:Ew.
    + cbn [In]. split; [intros [E|E]; [injection E as <- <-; left; repeat split; easy|now right]|].
      intros [(_ & -> & ->)|E]; [now left|now right].
    + split; [now right|]. intros [(E & _)|E]; easy.
Qed.

(** The single pass. *)
Fixpoint pass (off ls le : nat) (ws : list (nat * nat)) : option (nat * nat) :=
  match ws with
  | [] => if (off =? le) && (ls <? le) then Some (ls, le) else None
  | (s, e) :: rest => if (s <=? off) && (off <? e) then Some (s, e) else pass off s e rest
  end.
Lemma word_pass_eq off suf : forall t pre ls le, t = concat (pre ++ suf) ->
  word_pass t off ls le (word_indices_go A (blen (concat pre)) suf) = Ok (pass off ls le (words_of A (clen pre) suf)).
Proof.
  induction suf as [|w suf IH]; intros t pre ls le E; cbn [word_indices_go words_of]; [easy|].
  assert (E' : t = concat ((pre ++ [w]) ++ suf)) by (now rewrite <- app_assoc).
  assert (H1 : blen (concat pre) + blen w = blen (concat (pre ++ [w]))) by (rewrite concat_app; cbn; now rewrite app_nil_r, blen_app).
  assert (H2 : clen pre + length w = clen (pre ++ [w])) by (rewrite clen_app, clen_cons; unfold clen; cbn; lia).
  rewrite H1, H2. destruct (existsb A w); [|now apply IH].
  cbn [word_pass]. assert (H3 : byte_slice t 0 (blen (concat pre)) = Ok (concat pre)).
  { rewrite concat_app in E. replace (blen (concat pre)) with (boff t (length (concat pre))).
    - rewrite slice_0_boff, E. f_equal. apply firstn_exact. easy.
    - rewrite boff_split, E. f_equal. apply firstn_exact. easy. }
  rewrite H3. cbn [bind pass]. fold (clen pre). rewrite H2. destruct (_ && _); [easy|]. now apply IH.
Qed.
Lemma word_pass_all off t : word_pass t off 0 0 (word_indices B A t) = Ok (pass off 0 0 (words_of A 0 (B t))).
Proof. apply (word_pass_eq off (B t) t [] 0 0). cbn. now rewrite (bounds_concat _ _ L). Qed.
Lemma pass_cases ws off : forall ls le,
  (exists s e, pass off ls le ws = Some (s, e) /\ In (s, e) ws /\ s <= off < e)
  \/ ((forall s e, In (s, e) ws -> ~ (s <= off < e))
      /\ (pass off ls le ws = None
          \/ exists s e, pass off ls le ws = Some (s, e) /\ (In (s, e) ws \/ s = ls /\ e = le) /\ s < e /\ off = e)).
Proof.
  induction ws as [|[s e] ws IH]; intros ls le; cbn [pass].
  - right. split; [easy|]. destruct (Nat.eqb_spec off le); cbn [andb]; [|now left].
    destruct (Nat.ltb_spec ls le); [|now left]. right. exists ls, le. repeat split; try easy. now right.
  - destruct (Nat.leb_spec s off); cbn [andb]; [destruct (Nat.ltb_spec off e)|].
    + left. exists s, e. repeat split; try easy. now left.
    + destruct (IH s e) as [(s' & e' & H1 & H2 & H3)|(H1 & H2)].
      * left. exists s', e'. repeat split; try easy. now right.
      * right. split; [intros s' e' [E|E]; [injection E as <- <-; lia|now apply H1]|].
        destruct H2 as [H2|(s' & e' & H2 & H3 & H4 & H5)]; [now left|]. right. exists s', e'. repeat split; try easy.
        left. destruct H3 as [H3|[-> ->]]; [now right|now left].
    + destruct (IH s e) as [(s' & e' & H1 & H2 & H3)|(H1 & H2)].
      * left. exists s', e'. repeat split; try easy. now right.
      * right. split; [intros s' e' [E|E]; [injection E as <- <-; lia|now apply H1]|].
        destruct H2 as [H2|(s' & e' & H2 & H3 & H4 & H5)]; [now left|]. right. exists s', e'. repeat split; try easy.
        left. destruct H3 as [H3|[-> ->]]; [now right|now left].
Qed.

(** ** Words of a document *)
Fixpoint words_ps (start : nat) (ps : list para) : list (nat * nat) :=
  match ps with
  | [] => []
  | (b, t) :: rest => words_of A start (B t) ++ words_ps (start + length t + 1) rest
  end.
Lemma words_items R ps : ps <> [] -> words B A (items_of R ps) = words_ps 0 ps.
Proof.
  intros H. unfold words. rewrite paragraphs_items by easy. clear H. generalize 0 as s.
  induction ps as [|[b t] ps IH]; intros s; cbn [map words_from words_ps fst snd]; [easy|].
  unfold styled. rewrite plain_styled, styled_length. f_equal. apply IH.
Qed.
Lemma words_ps_in ps : forall k s e, In (s, e) (words_ps k ps) <->
  exists pre b t post s0 e0, ps = pre ++ (b, t) :: post /\ In (s0, e0) (words_of A 0 (B t))
    /\ s = k + cpre pre + s0 /\ e = k + cpre pre + e0.
Proof.
  induction ps as [|[b t] ps IH]; intros k s e; cbn [words_ps].
  - split; [easy|]. intros (pre & ? & ? & ? & ? & ? & E & _). now destruct pre.
  - rewrite in_app_iff, IH. split.
    + intros [H|(pre & b' & t' & post & s0 & e0 & E & H1 & H2 & H3)].
      * apply words_of_in in H. destruct H as (a & w & c & H1 & H2 & H3 & H4).
        exists [], b, t, ps, (clen a), (clen a + length w). rewrite cpre_nil. split; [easy|]. split.
        { apply words_of_in. exists a, w, c. repeat split; try easy; lia. } lia.
      * exists ((b, t) :: pre), b', t', post, s0, e0. rewrite cpre_cons, E. repeat split; try easy; lia.
    + intros ([|x pre] & b' & t' & post & s0 & e0 & E & H1 & H2 & H3).
      * left. cbn in E. injection E as <- <- <-. rewrite cpre_nil in *. apply words_of_in in H1. destruct H1 as (a & w & c & H1 & H4 & H5 & H6).
        apply words_of_in. exists a, w, c. repeat split; try easy; lia.
      * right. cbn in E. injection E as <- ->. exists pre, b', t', post, s0, e0. rewrite cpre_cons in *. repeat split; try easy; lia.
Qed.

(** In a paragraph. *)
Lemma word_in_text t s e : In (s, e) (words_of A 0 (B t)) ->
  s < e <= length t /\ exists i c, s <= i < e /\ nth_error t i = Some c /\ A c = true.
Proof.
  intros H. apply words_of_in in H. destruct H as (a & w & c & H1 & H2 & H3 & H4).
  pose proof (bounds_concat _ _ L t) as Ht. rewrite H1, concat_app in Ht. cbn [concat] in Ht.
  apply existsb_exists in H2. destruct H2 as (x & Hx & Hax). apply In_nth_error in Hx. destruct Hx as (j & Hj).
  assert (j < length w) by (apply nth_error_Some; congruence). cbn in H3. subst s e.
  assert (Hlen : length t = clen a + (length w + length (concat c))) by (rewrite <- Ht, !app_length; easy).
  split; [lia|]. exists (clen a + j), x. split; [lia|]. split; [|easy]. rewrite <- Ht.
  rewrite nth_error_app2 by (unfold clen; lia). replace (clen a + j - length (concat a)) with j by (unfold clen; lia).
  rewrite nth_error_app1 by easy. easy.
Qed.
Lemma concat_locate (ws : list str) : forall i c, nth_error (concat ws) i = Some c ->
  exists a w r j, ws = a ++ w :: r /\ i = clen a + j /\ nth_error w j = Some c.
Proof.
  induction ws as [|w ws IH]; intros i c H; cbn in H; [now destruct i|].
  destruct (Nat.lt_ge_cases i (length w)) as [Hl|Hg].
  - rewrite nth_error_app1 in H by easy. exists [], w, ws, i. unfold clen. cbn. easy.
  - rewrite nth_error_app2 in H by easy. destruct (IH _ _ H) as (a & w' & r & j & -> & Hi & Hj).
    exists (w :: a), w', r, j. rewrite clen_cons. repeat split; try easy; lia.
Qed.
Lemma letter_in_word t i c : nth_error t i = Some c -> A c = true -> exists s e, In (s, e) (words_of A 0 (B t)) /\ s <= i < e.
Proof.
  intros H Hc. rewrite <- (bounds_concat _ _ L t) in H. destruct (concat_locate _ _ _ H) as (a & w & r & j & E & Hi & Hj).
  assert (j < length w) by (apply nth_error_Some; congruence). exists (clen a), (clen a + length w). split; [|lia].
  apply words_of_in. exists a, w, r. repeat split; try easy. apply existsb_exists. exists c. split; [|easy]. now apply nth_error_In in Hj.
Qed.

(** Order. *)
Fixpoint ordered (k : nat) (ws : list (nat * nat)) : Prop :=
  match ws with [] => True | (s, e) :: rest => k <= s < e /\ ordered e rest end.
Lemma ordered_app ws1 : forall k ws2 m, ordered k ws1 -> Forall (fun w => snd w <= m) ws1 -> k <= m -> ordered m ws2 -> ordered k (ws1 ++ ws2).
Proof.
  induction ws1 as [|[s e] ws1 IH]; intros k ws2 m H1 H2 Hk H3; cbn in *.
  - destruct ws2 as [|[s e] ws2]; [easy|]. cbn in *. split; [lia|]. easy.
  - inversion H2 as [|? ? H4 H5]; subst. cbn in H4. split; [easy|]. apply IH with m; easy.
Qed.
Lemma words_of_ordered ws : forall k, ordered k (words_of A k ws) /\ Forall (fun w => snd w <= k + clen ws) (words_of A k ws).
Proof.
  induction ws as [|w ws IH]; intros k; cbn [words_of]; [now split|].
  destruct (IH (k + length w)) as [H1 H2]. rewrite clen_cons.
  assert (F : Forall (fun x => snd x <= k + (length w + clen ws)) (words_of A (k + length w) ws)).
  { eapply Forall_impl; [|exact H2]. intros x Hx. cbn beta in Hx. lia. }
  destruct (existsb A w) eqn:E.
  - cbn [ordered]. assert (0 < length w) by (destruct w; [easy|cbn; lia]). split; [split; [lia|easy]|]. constructor; [cbn; lia|easy].
  - split; [|easy]. destruct (words_of A (k + length w) ws) as [|[s e] r]; [easy|]. cbn in *. split; [lia|easy].
Qed.
Lemma words_ps_ordered ps : forall k, ordered k (words_ps k ps).
Proof.
  induction ps as [|[b t] ps IH]; intros k; cbn [words_ps]; [easy|].
  destruct (words_of_ordered (B t) k) as [H1 H2]. apply ordered_app with (k + length t + 1); [easy| |lia|apply IH].
  eapply Forall_impl; [|exact H2]. intros x Hx. cbn beta in Hx. unfold clen in Hx. rewrite (bounds_concat _ _ L) in Hx. lia.
Qed.
Lemma ordered_ge ws : forall k s e, ordered k ws -> In (s, e) ws -> k <= s < e.
Proof.
  induction ws as [|[s0 e0] ws IH]; intros k s e H HI; [easy|]. destruct HI as [E|E]; [injection E as <- <-; cbn in H; lia|].
  cbn in H. specialize (IH e0 s e (proj2 H) E). lia.
Qed.
Lemma ordered_disjoint ws : forall k s e s' e', ordered k ws -> In (s, e) ws -> In (s', e') ws -> s < s' -> e <= s'.
Proof.
  induction ws as [|[s0 e0] ws IH]; intros k s e s' e' H H1 H2 Hs; [easy|]. cbn in H. destruct H as [H H0].
  destruct H1 as [E1|E1], H2 as [E2|E2].
  - injection E1 as <- <-. injection E2 as <- <-. lia.
  - injection E1 as <- <-. pose proof (ordered_ge _ _ _ _ H0 E2). lia.
  - injection E2 as <- <-. pose proof (ordered_ge _ _ _ _ H0 E1). lia.
  - now apply (IH e0 s e s' e').
Qed.

Lemma ordered_same ws : forall k s e e', ordered k ws -> In (s, e) ws -> In (s, e') ws -> e = e'.
Proof.
  induction ws as [|[s0 e0] ws IH]; intros k s e e' H H1 H2; [easy|]. cbn in H. destruct H as [H H0].
  destruct H1 as [E1|E1], H2 as [E2|E2].
  - congruence.
  - injection E1 as <- <-. pose proof (ordered_ge _ _ _ _ H0 E2). lia.
  - injection E2 as <- <-. pose proof (ordered_ge _ _ _ _ H0 E1). lia.
  - now apply (IH e0 s e e').
Qed.

Section Doc.
Variables (d : doc) (ps : list para).
Hypothesis W : wf d ps.
Let its := items_of (d_runs d) ps.
Let ws := words_ps 0 ps.

Lemma skip_at pre b t post i : ps = pre ++ (b, t) :: post -> i <= length t ->
  skipn (cpre pre + i) (join (map snd ps)) = skipn i t ++ jpost (segs post).
Proof.
  clear W. intros -> Hi. rewrite <- segs_snd, segs_mid, join_mid. unfold cpre.
  rewrite Nat.add_comm, <- skipn_skipn, skipn_exact by easy. rewrite skipn_app.
  replace (i - length t) with 0 by lia. easy.
Qed.
Lemma info_at pre b t post i : ps = pre ++ (b, t) :: post -> i <= length t ->
  block_info d (cpre pre + i) = match post with
  | (c, u) :: _ => if (0 <? length t) && (i =? length t) then Ok (cpre pre + length t + 1, length u) else Ok (cpre pre, length t)
  | [] => Ok (cpre pre, length t) end.
Proof.
  intros E Hi. unfold block_info. pose proof W as W'. rewrite E in W'.
  rewrite (block_at_full d pre b t post i (Z.of_nat (cpre pre + i)) W' Hi)
    by (unfold clipz; rewrite ctotal_mid; lia).
  destruct post as [|[c u] post]; [|destruct (_ && _)]; cbn [bind]; rewrite !to_usize_nat; reflexivity.
Qed.
Lemma char_at pre b t post i : ps = pre ++ (b, t) :: post -> i < length t ->
  nth_error (plain its) (cpre pre + i) = nth_error t i.
Proof.
  intros E Hi. unfold its. rewrite plain_items.
  rewrite <- (Nat.add_0_r (cpre pre + i)), <- nth_error_skipn.
  rewrite (skip_at pre b t post i E) by lia. rewrite nth_error_app1 by (rewrite skipn_length; lia).
  rewrite nth_error_skipn. f_equal. lia.
Qed.
Lemma char_end pre b t post : ps = pre ++ (b, t) :: post ->
  nth_error its (cpre pre + length t) = match post with [] => None | _ => Some Brk end.
Proof. intros E. unfold its. rewrite E. apply items_nth_end. Qed.
Lemma word_ps_text s e : In (s, e) ws -> exists pre b t post i j, ps = pre ++ (b, t) :: post /\ s = cpre pre + i /\ e = cpre pre + j
  /\ i < j <= length t /\ In (i, j) (words_of A 0 (B t)).
Proof.
  intros H. unfold ws in H. apply words_ps_in in H. destruct H as (pre & b & t & post & i & j & E & H1 & H2 & H3).
  exists pre, b, t, post, i, j. destruct (word_in_text _ _ _ H1) as [H4 _]. repeat split; try easy; lia.
Qed.
Lemma word_letter s e : In (s, e) ws -> s < e <= ctotal ps /\ exists q c, s <= q < e /\ nth_error (plain its) q = Some c /\ A c = true.
Proof.
  intros H. destruct (word_ps_text _ _ H) as (pre & b & t & post & i & j & E & -> & -> & Hij & Hin).
  destruct (word_in_text _ _ _ Hin) as [_ (q & c & Hq & Hc & Ha)]. split.
  - rewrite E, ctotal_mid. lia.
  - exists (cpre pre + q), c. rewrite (char_at pre b t post q E) by lia. repeat split; try easy; lia.
Qed.
Lemma letter_word q c : nth_error (plain its) q = Some c -> A c = true -> exists s e, In (s, e) ws /\ s <= q < e.
Proof.
  intros H Hc. assert (Hq : q < length its) by (unfold plain in H; rewrite <- (map_length item_char); apply nth_error_Some; congruence).
  unfold its in Hq. rewrite items_length in Hq. destruct (loc d ps W q ltac:(lia)) as (pre & b & t & post & i & E & Hi & ->).
  destruct (Nat.eq_dec i (length t)) as [->|Hn].
  - unfold plain in H. rewrite nth_error_map, (char_end _ _ _ _ E) in H. destruct post; [easy|]. cbn in H. injection H as <-.
    now rewrite (newline_no_letter _ _ L) in Hc.
  - rewrite (char_at pre b t post i E) in H by lia. destruct (letter_in_word t i c H Hc) as (s & e & H1 & H2).
    exists (cpre pre + s), (cpre pre + e). split; [|lia]. apply words_ps_in. exists pre, b, t, post, s, e. easy.
Qed.
Lemma text_end_at pre b t post i : ps = pre ++ (b, t) :: post -> i <= length t ->
  text_end its (cpre pre + i) <-> 0 < length t /\ i = length t /\ post <> [].
Proof.
  intros E Hi. unfold text_end. split.
  - intros (H1 & q & H2 & H3 & H4). assert (i = length t).
    { destruct (Nat.eq_dec i (length t)); [easy|]. unfold its in H1. rewrite E in H1.
      destruct (items_nth_mid (d_runs d) pre b t post i) as (c & f & Hc); [lia|]. congruence. }
    subst i. rewrite (char_end _ _ _ _ E) in H1. split; [|split; [easy|now destruct post]].
    destruct t as [|c t]; [|cbn; lia]. exfalso. cbn [length] in H2. rewrite Nat.add_0_r in H2.
    destruct pre as [|[b1 t1] pre _] using rev_ind; [rewrite cpre_nil in H2; lia|].
    rewrite cpre_app, cpre_one in H2. assert (q = cpre pre + length t1) by lia. subst q. apply H3.
    rewrite <- app_assoc in E. cbn [app] in E. now rewrite (char_end pre b1 t1 _ E).
  - intros (H1 & -> & H2). rewrite (char_end _ _ _ _ E). split; [now destruct post|]. exists (cpre pre + (length t - 1)).
    destruct (items_nth_mid (d_runs d) pre b t post (length t - 1)) as (c & f & Hc); [lia|].
    rewrite <- E in Hc. fold its in Hc. split; [lia|]. split; [congruence|]. apply nth_error_Some. congruence.
Qed.

Definition free (p : nat) : Prop := forall s e, In (s, e) ws -> ~ (s <= p < e).
Lemma boundaries p : p <= ctotal ps -> exists s e, find_word_boundaries B A d p = Ok (s, e) /\
  ((In (s, e) ws /\ s <= p < e)
   \/ (In (s, e) ws /\ e = p /\ ~ text_end its p /\ free p)
   \/ (In (s, e) ws /\ s = S p /\ text_end its p /\ free p)
   \/ (s = p /\ e = p /\ free p /\ (text_end its p -> forall e', ~ In (S p, e') ws))).
Proof.
  intros Hp. destruct (loc d ps W p Hp) as (pre & b & t & post & i & E & Hi & ->).
  assert (Own : forall s e, In (s, e) ws -> s <= cpre pre + i < e -> exists s0 e0, In (s0, e0) (words_of A 0 (B t)) /\ s0 <= i < e0).
  { intros s e H Hs. destruct (word_ps_text _ _ H) as (pre' & b' & t' & post' & i' & j' & E' & -> & -> & Hij & Hin).
    destruct (loc_same ps pre b t post i pre' b' t' post' (cpre pre + i - cpre pre') E Hi E' ltac:(lia) ltac:(lia))
      as (<- & <- & <- & <- & Hx). exists i', j'. split; [easy|lia]. }
  unfold find_word_boundaries. rewrite (info_at _ _ _ _ _ E Hi).
  set (Bk := match post with [] => false | _ => (0 <? length t) && (i =? length t) end).
  assert (EB : match post with
    | (c, u) :: _ => if (0 <? length t) && (i =? length t) then Ok (cpre pre + length t + 1, length u) else Ok (cpre pre, length t)
    | [] => Ok (cpre pre, length t) end
    = if Bk then Ok (cpre pre + length t + 1, match post with (_, u) :: _ => length u | [] => 0 end) else Ok (cpre pre, length t)).
  { unfold Bk. destruct post as [|[c u] post]; easy. }
  rewrite EB. clear EB. pose proof (text_end_at pre b t post i E Hi) as TE. destruct Bk eqn:HB; unfold Bk in HB; clear Bk.
  - destruct post as [|[c u] post]; [easy|]. apply andb_prop in HB. destruct HB as [HB1 HB2].
    apply Nat.ltb_lt in HB1. apply Nat.eqb_eq in HB2. subst i.
    assert (T : text_end its (cpre pre + length t)) by (apply TE; easy).
    assert (E2 : ps = (pre ++ [(b, t)]) ++ (c, u) :: post) by (now rewrite <- app_assoc).
    assert (C2 : cpre (pre ++ [(b, t)]) = cpre pre + length t + 1) by (rewrite cpre_app, cpre_one; lia).
    assert (Fr : free (cpre pre + length t)).
    { intros s e H Hs. destruct (Own s e H Hs) as (s0 & e0 & H1 & H2). apply word_in_text in H1. lia. }
    assert (Nx : forall e', In (S (cpre pre + length t), e') ws -> exists e0, In (0, e0) (words_of A 0 (B u))).
    { intros e' H. destruct (word_ps_text _ _ H) as (pre' & b' & t' & post' & i' & j' & E' & H1 & -> & Hij & Hin).
      destruct (loc_same ps _ c u post 0 pre' b' t' post' i' E2 ltac:(lia) E' ltac:(lia) ltac:(lia)) as (<- & <- & <- & <- & <-).
      exists j'. easy. }
    destruct (Nat.eqb_spec (length u) 0) as [Hu|Hu].
    + do 2 eexists. split; [reflexivity|]. right. right. right. repeat split; try easy. intros _ e' H. destruct (Nx _ H) as (e0 & H0).
      apply word_in_text in H0. lia.
    + rewrite <- C2. pose proof (text_info_wf d ps W _ c u post 0 (length u) E2 ltac:(lia)) as HT.
      rewrite (skip_at _ c u post 0 E2), Nat.add_0_r in HT by lia. cbn [skipn] in HT. rewrite firstn_exact in HT by easy.
      rewrite HT. clear HT.
      replace (cpre pre + length t - cpre (pre ++ [(b, t)])) with 0 by lia.
      rewrite word_pass_all. cbn [bind].
      destruct (pass_cases (words_of A 0 (B u)) 0 0 0) as [(s & e & H1 & H2 & H3)|(H1 & H2)].
      * rewrite H1. do 2 eexists. split; [reflexivity|]. right. right. left. assert (s = 0) by lia. subst s.
        split; [|split; [lia|easy]]. apply words_ps_in. exists (pre ++ [(b, t)]), c, u, post, 0, e. repeat split; try easy; lia.
      * destruct H2 as [H2|(s & e & _ & _ & H4 & H5)]; [|lia]. rewrite H2. do 2 eexists. split; [reflexivity|].
        right. right. right. repeat split; try easy. intros _ e' H. destruct (Nx _ H) as (e0 & H0).
        apply (H1 _ _ H0). apply word_in_text in H0. lia.
  - assert (NT : ~ text_end its (cpre pre + i)).
    { intros T. apply TE in T. destruct T as (T1 & -> & T2). destruct post; [easy|]. rewrite Nat.eqb_refl, andb_true_r in HB.
      apply Nat.ltb_ge in HB. lia. }
    destruct (Nat.eqb_spec (length t) 0) as [Hu|Hu].
    + do 2 eexists. split; [reflexivity|]. right. right. right. repeat split; try easy.
      intros s e H Hs. destruct (Own s e H Hs) as (s0 & e0 & H1 & H2). apply word_in_text in H1. lia.
    + pose proof (text_info_wf d ps W pre b t post 0 (length t) E ltac:(lia)) as HT.
      rewrite (skip_at _ b t post 0 E), Nat.add_0_r in HT by lia. cbn [skipn] in HT. rewrite firstn_exact in HT by easy.
      rewrite HT. clear HT.
      replace (cpre pre + i - cpre pre) with i by lia.
      rewrite word_pass_all. cbn [bind].
      destruct (pass_cases (words_of A 0 (B t)) i 0 0) as [(s & e & H1 & H2 & H3)|(H1 & H2)].
      * rewrite H1. do 2 eexists. split; [reflexivity|]. left.
        split; [|lia]. apply words_ps_in. exists pre, b, t, post, s, e. easy.
      * assert (Fr : free (cpre pre + i)).
        { intros s e H Hs. destruct (Own s e H Hs) as (s0 & e0 & H3 & H4). now apply (H1 _ _ H3). }
        destruct H2 as [H2|(s & e & H2 & H3 & H4 & H5)].
        { rewrite H2. do 2 eexists. split; [reflexivity|]. right. right. right. easy. }
        rewrite H2. do 2 eexists. split; [reflexivity|]. right. left. destruct H3 as [H3|[-> ->]]; [|lia].
        split; [|repeat split; try easy; lia]. apply words_ps_in. exists pre, b, t, post, s, e. easy.
Qed.
End Doc.
End Words.
