(** Words: selecting and moving. *)
From Verif Require Import Base BaseFacts FormatRunsModel FormatRunsSpec RopeModel RopeSpec DocModel DocSpec DocInv DocFacts
  HistModel HistSpec DocHist QueryModel QuerySpec PropSpec DocTheorems QueryTheorems CursorModel CursorSpec CursorFacts CursorTheorems
  WordModel WordSpec WordFacts DocRefuted.

Section Words.
Variable B : str -> list str.
Variable A : char -> bool.
Hypothesis L : word_laws B A.

Definition sound (d : doc) : Prop := exists ps, wf d ps.
Lemma reach_sound d : reach d -> sound d. Proof. intros R. destruct (reach_items _ R) as (ps & W & _). now exists ps. Qed.
Lemma reach_ps d its : sound d -> doc_items d = Ok its -> exists ps, wf d ps /\ its = items_of (d_runs d) ps /\ length its = ctotal ps.
Proof.
  intros [ps W] Ei. exists ps. rewrite (doc_items_wf _ _ W) in Ei. injection Ei as <-. split; [easy|]. split; [easy|]. apply items_length.
Qed.

(** The list of words of a document. *)
Lemma words_theorem its d : sound d -> doc_items d = Ok its ->
  (forall s e, In (s, e) (words B A its) -> s < e <= length its
     /\ exists q c, s <= q < e /\ nth_error (plain its) q = Some c /\ A c = true)
  /\ (forall q c, nth_error (plain its) q = Some c -> A c = true -> exists s e, In (s, e) (words B A its) /\ s <= q < e)
  /\ (forall s e s' e', In (s, e) (words B A its) -> In (s', e') (words B A its) -> s < s' -> e <= s')
  /\ (forall s e e', In (s, e) (words B A its) -> In (s, e') (words B A its) -> e = e').
Proof.
  intros R Ei. destruct (reach_ps _ _ R Ei) as (ps & W & -> & Hl). rewrite Hl, words_items by apply (wf_ne _ _ W).
  split; [|split; [|split]].
  - intros s e H. apply (word_letter B A L d ps s e H).
  - intros q c H1 H2. apply (letter_word B A L d ps W q c H1 H2).
  - intros s e s' e'. apply ordered_disjoint with 0. now apply words_ps_ordered.
  - intros s e e'. apply ordered_same with 0. now apply words_ps_ordered.
Qed.

Lemma boundaries_theorem d its p : sound d -> doc_items d = Ok its -> p <= length its ->
  exists s e, find_word_boundaries B A d p = Ok (s, e) /\
  let free := forall s e, In (s, e) (words B A its) -> ~ (s <= p < e) in
  ((In (s, e) (words B A its) /\ s <= p < e)
   \/ (In (s, e) (words B A its) /\ e = p /\ ~ text_end its p /\ free)
   \/ (In (s, e) (words B A its) /\ s = S p /\ text_end its p /\ free)
   \/ (s = p /\ e = p /\ free /\ (text_end its p -> forall e', ~ In (S p, e') (words B A its)))).
Proof.
  intros R Ei Hp. destruct (reach_ps _ _ R Ei) as (ps & W & -> & Hl). rewrite Hl in Hp. rewrite words_items by apply (wf_ne _ _ W).
  apply (boundaries B A L d ps W p Hp).
Qed.

(** Selecting a word. *)
Lemma select_theorem d its c : sound d -> doc_items d = Ok its -> c_pos c <= length its ->
  exists s e, select_word B A d c = Ok (mk_cursor e s)
   /\ ((In (s, e) (words B A its) /\ s <= c_pos c < e)
       \/ (forall s' e', In (s', e') (words B A its) -> ~ (s' <= c_pos c < e'))
          /\ (s = c_pos c /\ e = c_pos c \/ In (s, e) (words B A its) /\ (e = c_pos c \/ text_end its (c_pos c) /\ s = S (c_pos c)))).
Proof.
  intros R Ei Hp. destruct (boundaries_theorem d its (c_pos c) R Ei Hp) as (s & e & H & Hc). exists s, e. unfold select_word. rewrite H.
  split; [easy|]. cbv zeta in Hc. destruct Hc as [H1|[(H1 & H2 & H3 & H4)|[(H1 & H2 & H3 & H4)|(H1 & H2 & H3 & H4)]]]; [now left| | |]; right; (split; [easy|]).
  - right. split; [easy|now left].
  - right. split; [easy|now right].
  - now left.
Qed.

(** To the left. *)
Lemma back_theorem d its p : sound d -> doc_items d = Ok its -> p <= length its ->
  ~ (text_end its (p - 1) /\ exists e, In (p, e) (words B A its)) ->
  forall k, k < p -> (forall s e, In (s, e) (words B A its) -> s < p -> s <= k) ->
  exists q, word_back B A d k = Ok q /\ q < p /\ (q = 0 \/ exists e, In (q, e) (words B A its))
   /\ (forall s e, In (s, e) (words B A its) -> s < p -> s <= q).
Proof.
  intros R Ei Hp Ex. destruct (words_theorem its d R Ei) as (Wl & _ & Wd & _). induction k as [|k IH]; intros Hk Hs.
  - cbn [word_back]. destruct (boundaries_theorem d its 0 R Ei ltac:(lia)) as (s & e & H & Hc). rewrite H. cbn [bind]. cbv zeta in Hc.
    destruct Hc as [(H1 & H2)|[(H1 & H2 & H3 & H4)|[(H1 & H2 & H3 & H4)|(H1 & H2 & H3 & H4)]]].
    + assert (s = 0) by lia. subst s. destruct (Nat.ltb_spec 0 e); [|lia]. exists 0. repeat split; [lia|now left|]. easy.
    + pose proof (Wl _ _ H1). lia.
    + destruct H3 as (_ & q & ? & _). lia.
    + subst s e. cbn. exists 0. repeat split; [lia|now left|]. intros s e Hi Hl. specialize (Hs s e Hi Hl). exact Hs.
  - cbn [word_back]. destruct (boundaries_theorem d its (S k) R Ei ltac:(lia)) as (s & e & H & Hc). rewrite H. cbn [bind]. cbv zeta in Hc.
    destruct Hc as [(H1 & H2)|[(H1 & H2 & H3 & H4)|[(H1 & H2 & H3 & H4)|(H1 & H2 & H3 & H4)]]].
    + destruct (Nat.ltb_spec s e); [|lia]. exists s. split; [easy|]. split; [lia|]. split; [right; eauto|].
      intros s' e' Hi Hl. pose proof (Hs _ _ Hi Hl). destruct (Nat.le_gt_cases s' s) as [?|Hgt]; [easy|]. pose proof (Wd _ _ _ _ H1 Hi Hgt). lia.
    + pose proof (Wl _ _ H1) as [Hw _]. destruct (Nat.ltb_spec s e); [|lia]. exists s. split; [easy|]. split; [lia|]. split; [right; eauto|].
      intros s' e' Hi Hl. pose proof (Hs _ _ Hi Hl). destruct (Nat.le_gt_cases s' s) as [?|Hgt]; [easy|]. pose proof (Wd _ _ _ _ H1 Hi Hgt).
      assert (s' = S k) by lia. subst s'. exfalso. apply (H4 _ _ Hi). pose proof (Wl _ _ Hi). lia.
    + exfalso. subst s. destruct (Nat.eq_dec (S (S k)) p) as [<-|Hn].
      * apply Ex. cbn. split; [easy|]. now exists e.
      * pose proof (Hs _ _ H1 ltac:(lia)). lia.
    + subst s e. rewrite Nat.ltb_irrefl. apply IH; [lia|]. intros s' e' Hi Hl. pose proof (Hs _ _ Hi Hl).
      destruct (Nat.eq_dec s' (S k)) as [->|]; [|lia]. exfalso. apply (H3 _ _ Hi). pose proof (Wl _ _ Hi). lia.
Qed.
Lemma left_theorem d its p : sound d -> doc_items d = Ok its -> p <= length its ->
  ~ (text_end its (p - 1) /\ exists e, In (p, e) (words B A its)) ->
  exists q, word_left B A d p = Ok q /\ (0 < p -> q < p) /\ (q = 0 \/ exists e, In (q, e) (words B A its))
   /\ (forall s e, In (s, e) (words B A its) -> s < p -> s <= q).
Proof.
  intros R Ei Hp Ex. destruct (words_theorem its d R Ei) as (Wl & _ & Wd & _).
  destruct (boundaries_theorem d its p R Ei Hp) as (s & e & H & Hc). unfold word_left. rewrite H. cbn [bind]. cbv zeta in Hc.
  assert (Bk : exists q, match p with 0 => Ok 0 | S k => word_back B A d k end = Ok q /\ (0 < p -> q < p) /\ (q = 0 \/ exists e, In (q, e) (words B A its))
   /\ (forall s e, In (s, e) (words B A its) -> s < p -> s <= q)).
  { destruct p as [|k]; [exists 0; repeat split; try lia; now left|].
    destruct (back_theorem d its (S k) R Ei Hp Ex k ltac:(lia)) as (q & H1 & H2 & H3); [intros; lia|]. exists q. easy. }
  destruct Hc as [(H1 & H2)|[(H1 & H2 & H3 & H4)|[(H1 & H2 & H3 & H4)|(H1 & H2 & H3 & H4)]]].
  - destruct (Nat.ltb_spec s p); [|exact Bk]. exists s. split; [easy|]. split; [easy|]. split; [right; eauto|].
    intros s' e' Hi Hl. destruct (Nat.le_gt_cases s' s) as [?|Hgt]; [easy|]. pose proof (Wd _ _ _ _ H1 Hi Hgt). lia.
  - pose proof (Wl _ _ H1) as [Hw _]. destruct (Nat.ltb_spec s p); [|exact Bk]. exists s. split; [easy|]. split; [easy|]. split; [right; eauto|].
    intros s' e' Hi Hl. destruct (Nat.le_gt_cases s' s) as [?|Hgt]; [easy|]. pose proof (Wd _ _ _ _ H1 Hi Hgt). lia.
  - destruct (Nat.ltb_spec s p); [lia|exact Bk].
  - destruct (Nat.ltb_spec s p); [lia|exact Bk].
Qed.

(** To the right. *)
Lemma first_char_cases t : forall i,
  (exists j c, first_word_char A i t = Some (i + j) /\ nth_error t j = Some c /\ word_char A c = true
     /\ forall j' c', j' < j -> nth_error t j' = Some c' -> word_char A c' = false)
  \/ (first_word_char A i t = None /\ forall j c, nth_error t j = Some c -> word_char A c = false).
Proof.
  induction t as [|x t IH]; intros i; cbn [first_word_char].
  - right. split; [easy|]. intros [|j]; easy.
  - fold (word_char A x). destruct (word_char A x) eqn:E.
    + left. exists 0, x. rewrite Nat.add_0_r. repeat split; try easy.
    + destruct (IH (S i)) as [(j & c & H1 & H2 & H3 & H4)|(H1 & H2)].
      * left. exists (S j), c. rewrite H1. repeat split; try easy; [f_equal; lia|]. intros [|j'] c' Hl Hc; [cbn in Hc; congruence|].
        apply (H4 j'); [lia|easy].
      * right. split; [easy|]. intros [|j] c Hc; [cbn in Hc; congruence|]. now apply (H2 j).
Qed.
Lemma text_theorem d its p n : sound d -> doc_items d = Ok its -> p <= length its ->
  text_info d p n = Ok (firstn n (skipn p (plain its))).
Proof.
  intros R Ei Hp. destruct (reach_ps _ _ R Ei) as (ps & W & -> & Hl). rewrite Hl in Hp.
  destruct (loc d ps W p Hp) as (pre & b & t & post & i & E & Hi & ->). rewrite (text_info_wf d ps W pre b t post i n E Hi).
  now rewrite plain_items.
Qed.
Lemma right_theorem d its p : counted d -> doc_items d = Ok its -> p <= length its ->
  exists q, word_right B A d p = Ok q /\ p <= q <= length its
   /\ (p < length its -> ~ lone_underscore B A its p -> p < q)
   /\ (forall s e, In (s, e) (words B A its) -> p < e -> q <= e)
   /\ ((exists s, In (s, q) (words B A its)) \/ lone_underscore B A its q
       \/ (q = Nat.min (p + 64) (length its) /\ forall i c, p <= i < q -> nth_error (plain its) i = Some c -> word_char A c = false)).
Proof.
  intros C Ei Hp. destruct (counted_wf _ _ C Ei) as (ps & W & D & Eits & Hlen).
  assert (R : sound d) by now exists ps. destruct (words_theorem its d R Ei) as (Wl & Wc & Wd & Wu).
  destruct (boundaries_theorem d its p R Ei Hp) as (s & e & H & Hc). unfold word_right. rewrite H. cbn [bind]. cbv zeta in Hc.
  assert (Pl : length (plain its) = length its) by (unfold plain; now rewrite map_length).
  assert (Scan : (forall s e, In (s, e) (words B A its) -> ~ s <= p < e) ->
    (text_end its p -> forall e', ~ In (S p, e') (words B A its)) ->
    exists q, (let! max := or_default (max_cursor_position d) 0 in
      if Nat.min (max - p) 64 =? 0 then Ok p
      else match text_info d p (Nat.min (max - p) 64) with
           | Ok t => match first_word_char A 0 t with
                     | Some i => let! (_, e0) := find_word_boundaries B A d (p + i) in Ok e0
                     | None => Ok (p + Nat.min (max - p) 64) end
           | Err => Ok (p + Nat.min (max - p) 64)
           | Panic => Panic end) = Ok q /\ p <= q <= length its
     /\ (p < length its -> ~ lone_underscore B A its p -> p < q)
     /\ (forall s e, In (s, e) (words B A its) -> p < e -> q <= e)
     /\ ((exists s, In (s, q) (words B A its)) \/ lone_underscore B A its q
       \/ (q = Nat.min (p + 64) (length its) /\ forall i c, p <= i < q -> nth_error (plain its) i = Some c -> word_char A c = false))).
  { intros Free _. clear s e H Hc. rewrite (max_wf d ps W D), <- Hlen. cbn [or_default bind].
    assert (Nxt : forall s e, In (s, e) (words B A its) -> p < e -> p < s).
    { intros s e Hi Hl. destruct (Nat.le_gt_cases s p); [|easy]. exfalso. apply (Free _ _ Hi). lia. }
    destruct (Nat.eqb_spec (Nat.min (length its - p) 64) 0) as [H0|H0].
    { exists p. assert (p = length its) by lia. repeat split; try lia. right. right. split; [lia|]. intros; lia. }
    rewrite (text_theorem d its p _ R Ei Hp). set (n := Nat.min (length its - p) 64) in *.
    assert (Hn : forall j, j < n -> nth_error (firstn n (skipn p (plain its))) j = nth_error (plain its) (p + j)).
    { intros j Hj. rewrite nth_error_firstn_lt by easy. apply nth_error_skipn. }
    assert (Hlt : forall j c, nth_error (firstn n (skipn p (plain its))) j = Some c -> j < n).
    { intros j c Hj. assert (j < length (firstn n (skipn p (plain its)))) by (apply nth_error_Some; congruence).
      rewrite firstn_length in *. lia. }
    destruct (first_char_cases (firstn n (skipn p (plain its))) 0) as [(j & c & H1 & H2 & H3 & H4)|(H1 & H2)]; rewrite H1.
    - cbn [Nat.add]. pose proof (Hlt _ _ H2) as Hj. rewrite Hn in H2 by easy.
      assert (Before : forall s e, In (s, e) (words B A its) -> p < e -> p + j < e).
      { intros s e Hi Hl. destruct (Wl _ _ Hi) as (Hw & q & c' & Hq & Hc' & Ha). pose proof (Nxt _ _ Hi Hl).
        destruct (Nat.le_gt_cases (p + j) q); [lia|]. exfalso. assert (E : word_char A c' = false).
        { apply (H4 (q - p)); [lia|]. rewrite Hn by lia. replace (p + (q - p)) with q by lia. easy. }
        unfold word_char in E. rewrite Ha in E. easy. }
      destruct (boundaries_theorem d its (p + j) R Ei ltac:(lia)) as (s & e & H & Hc). rewrite H. cbn [bind]. cbv zeta in Hc.
      destruct Hc as [(H5 & H6)|[(H5 & H6 & H7 & H8)|[(H5 & H6 & H7 & H8)|(H5 & H6 & H7 & H8)]]].
      + exists e. split; [easy|]. pose proof (Wl _ _ H5) as [Hw _]. repeat split; try lia.
        * intros s' e' Hi Hl. pose proof (Nxt _ _ Hi Hl). destruct (Nat.le_gt_cases e e'); [easy|]. exfalso.
          pose proof (Before _ _ Hi Hl). pose proof (Nxt _ _ H5 ltac:(lia)). pose proof (Wl _ _ Hi) as [Hw' _].
          destruct (Nat.lt_trichotomy s s') as [Hx|[Hx|Hx]].
          -- pose proof (Wd _ _ _ _ H5 Hi Hx). lia.
          -- subst s'. pose proof (Wu _ _ _ H5 Hi). lia.
          -- pose proof (Wd _ _ _ _ Hi H5 Hx). lia.
        * left. eauto.
      + exists e. split; [easy|]. subst e. repeat split; try lia.
        * intros Hl Hu. destruct j; [|lia]. exfalso. apply Hu. rewrite Nat.add_0_r in *. split; [|easy].
          unfold word_char in H3. apply orb_prop in H3. destruct H3 as [H3|H3]; [|apply N.eqb_eq in H3; now subst c].
          destruct (Wc _ _ H2 H3) as (s' & e' & Hi & Hl'). exfalso. now apply (H8 _ _ Hi).
        * intros s' e' Hi Hl. pose proof (Before _ _ Hi Hl). lia.
        * left. eauto.
      + exfalso. destruct H7 as (H7 & _). unfold plain in H2. rewrite nth_error_map, H7 in H2. cbn in H2. injection H2 as <-.
        unfold word_char in H3. rewrite (newline_no_letter _ _ L) in H3. easy.
      + exists e. split; [easy|]. subst s e. assert (Hu : lone_underscore B A its (p + j)).
        { split; [|easy]. unfold word_char in H3. apply orb_prop in H3. destruct H3 as [H3|H3]; [|apply N.eqb_eq in H3; now subst c].
          destruct (Wc _ _ H2 H3) as (s' & e' & Hi & Hl'). exfalso. now apply (H7 _ _ Hi). }
        repeat split; try lia.
        * intros Hl Hnu. destruct j; [|lia]. exfalso. rewrite Nat.add_0_r in Hu. easy.
        * intros s' e' Hi Hl. pose proof (Before _ _ Hi Hl). lia.
        * right. now left.
    - exists (p + n). split; [easy|]. repeat split; try lia.
      + intros s e Hi Hl. destruct (Wl _ _ Hi) as (Hw & q & c' & Hq & Hc' & Ha). pose proof (Nxt _ _ Hi Hl).
        destruct (Nat.le_gt_cases (p + n) q); [lia|]. exfalso. assert (E : word_char A c' = false).
        { apply (H2 (q - p)). rewrite Hn by lia. replace (p + (q - p)) with q by lia. easy. }
        unfold word_char in E. rewrite Ha in E. easy.
      + right. right. split; [lia|]. intros i c Hi Hic. apply (H2 (i - p)). rewrite Hn by lia. replace (p + (i - p)) with i by lia. easy. }
  destruct Hc as [(H1 & H2)|[(H1 & H2 & H3 & H4)|[(H1 & H2 & H3 & H4)|(H1 & H2 & H3 & H4)]]].
  - destruct (Nat.eqb_spec e p); [lia|]. exists e. split; [easy|]. pose proof (Wl _ _ H1) as [Hw _]. repeat split; try lia.
    + intros s' e' Hi Hl. destruct (Nat.le_gt_cases e e'); [easy|]. exfalso. pose proof (Wl _ _ Hi) as [Hw' _].
      destruct (Nat.lt_trichotomy s s') as [Hx|[Hx|Hx]].
      * pose proof (Wd _ _ _ _ H1 Hi Hx). lia.
      * subst s'. pose proof (Wu _ _ _ H1 Hi). lia.
      * pose proof (Wd _ _ _ _ Hi H1 Hx). lia.
    + left. eauto.
  - subst e. rewrite Nat.eqb_refl. apply Scan; easy.
  - pose proof (Wl _ _ H1) as [Hw _]. destruct (Nat.eqb_spec e p); [lia|]. exists e. split; [easy|]. repeat split; try lia.
    + intros s' e' Hi Hl. destruct (Nat.le_gt_cases e e'); [easy|]. exfalso. pose proof (Wl _ _ Hi) as [Hw' _].
      destruct (Nat.lt_trichotomy s s') as [Hx|[Hx|Hx]].
      * pose proof (Wd _ _ _ _ H1 Hi Hx). lia.
      * subst s'. pose proof (Wu _ _ _ H1 Hi). lia.
      * pose proof (Wd _ _ _ _ Hi H1 Hx). assert (s' <= p) by lia. apply (H4 _ _ Hi). lia.
    + left. eauto.
  - subst s e. rewrite Nat.eqb_refl. apply Scan; easy.
Qed.

Lemma back_total d its : sound d -> doc_items d = Ok its -> forall k, k <= length its -> exists q, word_back B A d k = Ok q.
Proof.
  intros R Ei. induction k as [|k IH]; intros Hk; cbn [word_back];
    destruct (boundaries_theorem d its _ R Ei Hk) as (s & e & H & _); rewrite H; cbn [bind]; destruct (s <? e); eauto.
  apply IH. lia.
Qed.
Lemma left_total d its p : sound d -> doc_items d = Ok its -> p <= length its -> exists q, word_left B A d p = Ok q.
Proof.
  intros R Ei Hp. unfold word_left. destruct (boundaries_theorem d its p R Ei Hp) as (s & e & H & _). rewrite H. cbn [bind].
  destruct (s <? p); [eauto|]. destruct p; [eauto|]. apply (back_total d its R Ei). lia.
Qed.

(** A move by a word puts the cursor at the first place at or after the word's
    edge. *)
Lemma move_word_theorem G d its c (right keep : bool) : segmentation G -> counted d -> doc_items d = Ok its -> in_range its c ->
  exists t q c', (if right then word_right B A d (c_pos c) else word_left B A d (c_pos c)) = Ok t
   /\ move_word B A G d c right keep = Ok (c', negb (q =? c_pos c)) /\ c_pos c' = q /\ in_range its c'
   /\ (keep = false -> c_anchor c' = q)
   /\ In q (stops G its) /\ Nat.min t (length its) <= q <= length its
   /\ (forall q', In q' (stops G its) -> Nat.min t (length its) <= q' -> q <= q').
Proof.
  intros HG C Ei [Hp Ha].
  assert (T : exists t, (if right then word_right B A d (c_pos c) else word_left B A d (c_pos c)) = Ok t).
  { destruct right.
    - destruct (right_theorem d its (c_pos c) C Ei Hp) as (t & H & _). now exists t.
    - destruct (counted_wf _ _ C Ei) as (ps & W & _). now apply (left_total d its (c_pos c) (ex_intro _ ps W) Ei). }
  destruct T as (t & Ht). destruct (set_position_theorem G d its c t keep HG C Ei) as (q & Eq & Hs & Hr & Hm).
  exists t, q. eexists. split; [easy|]. unfold move_word. rewrite Ht. cbn [bind]. rewrite Eq. cbn [bind c_pos]. split; [reflexivity|].
  cbn [c_pos c_anchor]. split; [easy|]. split; [|split; [|easy]].
  - split; cbn; [lia|]. destruct (_ && _); lia.
  - intros ->. reflexivity.
Qed.
End Words.
