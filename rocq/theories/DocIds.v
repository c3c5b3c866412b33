(** Which paragraphs an edit touches: identities and texts. *)
From Verif Require Import Base BaseFacts FormatRunsModel FormatRunsSpec FormatRunsFacts
  RopeModel RopeSpec RopeFacts DocModel DocSpec BlockFacts DocInv DocFacts DocAttr DocDelete DocBreak DocReplace
  DocImport DocFormat HistModel HistSpec DocReach DocHist.

Lemma clip_cases (pre post : list para) b t i n : i <= length t ->
  clipz (ctotal (pre ++ (b, t) :: post)) (Z.of_nat n) = cpre pre + i ->
  n = cpre pre + i \/ (cpre pre + length t < n /\ i = length t /\ post = []).
Proof.
  intros Hi H. rewrite ctotal_mid in H. unfold clipz in H. destruct post as [|[c u] post].
  - rewrite cpre_nil in H. destruct (Nat.le_gt_cases n (cpre pre + length t)); [left; lia|right]. split; [lia|]. split; [lia|easy].
  - rewrite cpre_cons in H. left. lia.
Qed.
Lemma clip_back (pre post : list para) b t i n : i <= length t ->
  n = cpre pre + i \/ (cpre pre + length t < n /\ i = length t /\ post = []) ->
  clipz (ctotal (pre ++ (b, t) :: post)) (Z.of_nat n) = cpre pre + i.
Proof.
  intros Hi H. rewrite ctotal_mid. unfold clipz. destruct H as [->|(H1 & H2 & ->)]; [lia|]. rewrite cpre_nil. lia.
Qed.

(** Where an edit is felt: position [n] is in the paragraph after [pre], or past
    the end of a document that ends with it. *)
Definition felt (pre : list para) (t : str) (post : list para) (i n : nat) : Prop :=
  n = cpre pre + i \/ (cpre pre + length t < n /\ i = length t /\ post = []).

Lemma delete_paras d ps p a : wf d ps -> p <> a ->
  exists d' cut pre b t olds post i t',
    delete_text d (Z.of_nat p) (Z.of_nat a) = Ok (d', Z.of_nat (Nat.min p a), cut)
    /\ ps = pre ++ (b, t) :: olds ++ post /\ wf d' (pre ++ (b, t') :: post) /\ d_next d' = d_next d
    /\ i <= length t' /\ felt pre t' post i (Nat.min p a)
    /\ (cpre pre + length t' < Nat.min p a -> olds = [] /\ t' = t).
Proof.
  intros W Hpa. assert (Hpa' : Z.of_nat p <> Z.of_nat a) by lia.
  set (s := clipz (ctotal ps) (Z.min (Z.of_nat p) (Z.of_nat a))).
  set (e := clipz (ctotal ps) (Z.max (Z.of_nat p) (Z.of_nat a))).
  assert (Em : Z.min (Z.of_nat p) (Z.of_nat a) = Z.of_nat (Nat.min p a)) by lia.
  destruct (locate2 ps s e (wf_ne _ _ W)) as [(pre & b & t & post & i & j & E0 & Hij & Hj & Es & Ee)
    |(pre & b & t & mid & c & u & post & i & j & E0 & Hi & Hj & Es & Ee)].
  - apply clipz_mono. lia.
  - apply clipz_le.
  - subst ps. destruct (delete_same _ _ _ _ _ _ _ _ _ W Hpa' Hij Hj Es Ee) as (d' & E & D & _).
    rewrite Em in E. exists d', (mid_text t i j), pre, b, t, [], post, i, (firstn i t ++ skipn j t).
    destruct D as [D1 _ _ _ _ D6]. unfold s in Es. rewrite Em in Es. apply clip_cases in Es; [|lia].
    assert (L : length (firstn i t ++ skipn j t) = length t - (j - i)) by (rewrite app_length, firstn_length, skipn_length; lia).
    repeat (split; [easy|]). split; [lia|]. unfold felt. destruct Es as [Es|(E1 & E2 & E3)].
    + split; [now left|]. lia.
    + subst i. assert (j = length t) as -> by lia. rewrite Nat.sub_diag, Nat.sub_0_r in L.
      split; [right; split; [lia|]; split; [lia|easy]|]. intros _. split; [easy|]. now rewrite firstn_all, skipn_all, app_nil_r.
  - subst ps. destruct (delete_cross _ _ _ _ _ _ _ _ _ _ _ _ W Hpa' Hi Hj Es Ee) as (d' & cut & E & D & _).
    rewrite Em in E. exists d', cut, pre, b, t, (mid ++ [(c, u)]), post, i, (firstn i t ++ skipn j u).
    destruct D as [D1 _ _ _ _ D6]. unfold s in Es. rewrite Em in Es. apply clip_cases in Es; [|lia].
    split; [easy|]. split; [now rewrite <- app_assoc|]. repeat (split; [easy|]).
    assert (L : i <= length (firstn i t ++ skipn j u)) by (rewrite app_length, firstn_length; lia).
    split; [easy|]. destruct Es as [Es|(_ & _ & E3)]; [|destruct mid; discriminate].
    split; [now left|]. lia.
Qed.

Definition splits (e : edit) : bool := match e with EBreak _ _ => true | _ => false end.
Definition edit_pos (e : edit) : nat := fst (edit_range e).

Lemma edit_paras d ps e : wf d ps -> edit_ok e ->
  exists d' q pre b t olds post t' news, run_edit d e = Ok (d', q)
    /\ ps = pre ++ (b, t) :: olds ++ post /\ wf d' (pre ++ (b, t') :: news ++ post)
    /\ (d_next d <= d_next d')%N
    /\ ((splits e = false /\ news = []) \/ (splits e = true /\ exists t2, news = [(d_next d, t2)]))
    /\ cpre pre <= edit_pos e
    /\ (edit_pos e <= cpre pre + length t'
        \/ (post = [] /\ olds = [] /\ (news = [] \/ (news = [(d_next d, [])] /\ t' = t)))).
Proof.
  intros W Hok. destruct (edit_full _ _ _ W Hok) as (d0 & _ & E0 & _ & _ & _ & N0).
  cut (exists q pre b t olds post t' news, run_edit d e = Ok (d0, q)
    /\ ps = pre ++ (b, t) :: olds ++ post /\ wf d0 (pre ++ (b, t') :: news ++ post)
    /\ ((splits e = false /\ news = []) \/ (splits e = true /\ exists t2, news = [(d_next d, t2)]))
    /\ cpre pre <= edit_pos e
    /\ (edit_pos e <= cpre pre + length t'
        \/ (post = [] /\ olds = [] /\ (news = [] \/ (news = [(d_next d, [])] /\ t' = t))))).
  { intros (q & pre & b & t & olds & post & t' & news & H). exists d0, q, pre, b, t, olds, post, t', news. tauto. }
  assert (Loc : forall n, exists pre b t post i, ps = pre ++ (b, t) :: post /\ i <= length t
            /\ felt pre t post i n /\ clipz (ctotal ps) (Z.of_nat n) = cpre pre + i).
  { intros n. destruct (wf_loc _ _ (Z.of_nat n) W) as (pre & b & t & post & i & -> & Hi & Hp).
    exists pre, b, t, post, i. repeat (split; [easy|]). split; [now apply clip_cases in Hp|easy]. }
  assert (Li : forall (t : str) i text, i <= length t -> length (ins_text t i text) = length t + length text).
  { intros t i text H. unfold ins_text. rewrite !app_length, firstn_length, skipn_length. lia. }
  destruct e as [p a text|p a text x|p a|p a]; cbn [run_edit edit_pos edit_range fst splits] in *.
  - revert E0. unfold cursor_insert_text, insert_text. destruct (Nat.eqb_spec p a) as [<-|Hpa].
    + rewrite Z.eqb_refl, Nat.min_id. destruct (Loc p) as (pre & b & t & post & i & -> & Hi & Hf & Hp).
      destruct (insert_simple_full _ _ _ _ _ _ _ text W Hi Hp) as (d' & x & _ & E & W' & _). rewrite E. cbn [bind].
      rewrite to_usize_nat. cbn [bind]. intros [= <- _].
      eexists _, pre, b, t, [], post, _, []. split; [reflexivity|]. split; [easy|]. split; [exact W'|]. split; [now left|].
      rewrite Li by easy. unfold felt in Hf. split; [lia|]. destruct Hf as [->|(F1 & F2 & F3)]; [left; lia|].
      right. auto.
    + rewrite (proj2 (Z.eqb_neq _ _)) by lia.
      destruct (op_replace _ _ (Z.of_nat p) (Z.of_nat a) text W) as [Er|_].
      * rewrite Er. destruct (delete_paras _ _ _ _ W Hpa) as (d1 & cut & pre & b & t & olds & post & i & t1 & E1 & -> & W1 & N1 & Hi & Hf & Ho).
        rewrite E1. cbn [bind]. rewrite to_usize_nat. cbn [bind]. rewrite Z.eqb_refl.
        destruct (insert_simple_full _ _ _ _ _ _ (Z.of_nat (Nat.min p a)) text W1 Hi (clip_back _ _ _ _ _ _ Hi Hf)) as (d' & x & _ & E & W' & _).
        rewrite E. cbn [bind]. rewrite to_usize_nat. cbn [bind]. intros [= <- _].
        eexists _, pre, b, t, olds, post, _, []. split; [reflexivity|]. split; [easy|]. split; [exact W'|]. split; [now left|].
        rewrite Li by easy. unfold felt in Hf. split; [lia|]. destruct Hf as [->|(F1 & F2 & F3)]; [left; lia|].
        right. destruct (Ho F1). auto.
      * set (s := clipz (ctotal ps) (Z.min (Z.of_nat p) (Z.of_nat a))).
        set (e := clipz (ctotal ps) (Z.max (Z.of_nat p) (Z.of_nat a))).
        assert (Em : Z.min (Z.of_nat p) (Z.of_nat a) = Z.of_nat (Nat.min p a)) by lia.
        destruct (locate2 ps s e (wf_ne _ _ W)) as [(pre & b & t & post & i & j & E1 & Hij & Hj & Es & Ee)
          |(pre & b & t & mid & c & u & post & i & j & E1 & Hi & Hj & Es & Ee)].
        { apply clipz_mono. lia. } { apply clipz_le. }
        -- subst ps. destruct (selection_same _ _ _ _ _ _ _ _ _ text W Hij Hj Es Ee) as (d' & E & W' & _).
           rewrite E, to_usize_nat. cbn [bind]. intros [= <- _].
           eexists _, pre, b, t, [], post, _, []. split; [reflexivity|]. split; [easy|]. split; [exact W'|]. split; [now left|].
           unfold s in Es. rewrite Em in Es. apply clip_cases in Es; [|lia].
           rewrite !app_length, firstn_length, skipn_length. split; [lia|].
           destruct Es as [->|(F1 & F2 & F3)]; [left; lia|]. right. auto.
        -- subst ps. rewrite (selection_cross _ _ _ _ _ _ _ _ _ _ _ _ text W Hi Hj Es Ee).
           destruct (delete_paras _ _ _ _ W Hpa) as (d1 & cut & pre' & b' & t0 & olds & post' & i' & t1 & E1 & Eps & W1 & N1 & Hi' & Hf & Ho).
           rewrite E1. cbn [bind]. rewrite to_usize_nat. cbn [bind]. rewrite Z.eqb_refl.
           destruct (insert_simple_full _ _ _ _ _ _ (Z.of_nat (Nat.min p a)) text W1 Hi' (clip_back _ _ _ _ _ _ Hi' Hf)) as (d' & x & _ & E & W' & _).
           rewrite E. cbn [bind]. rewrite to_usize_nat. cbn [bind]. intros [= <- _].
           eexists _, pre', b', t0, olds, post', _, []. split; [reflexivity|]. split; [easy|]. split; [exact W'|]. split; [now left|].
           rewrite Li by easy. unfold felt in Hf. split; [lia|]. destruct Hf as [->|(F1 & F2 & F3)]; [left; lia|].
           right. destruct (Ho F1). auto.
  - cbn in Hok. revert E0. unfold cursor_insert_formatted, insert_formatted_text. destruct (Nat.eqb_spec p a) as [<-|Hpa].
    + rewrite Z.eqb_refl, Nat.min_id. destruct (Loc p) as (pre & b & t & post & i & -> & Hi & Hf & Hp).
      destruct (insert_formatted_simple_full _ _ _ _ _ _ (Z.of_nat p) text (ins_to_cfmt x) W (Nat2Z.is_nonneg p) Hi Hok Hp) as (d' & y & _ & E & W' & _).
      rewrite E. cbn [bind]. rewrite <- Nat2Z.inj_add, to_usize_nat. cbn [bind]. intros [= <- _].
      eexists _, pre, b, t, [], post, _, []. split; [reflexivity|]. split; [easy|]. split; [exact W'|]. split; [now left|].
      rewrite Li by easy. unfold felt in Hf. split; [lia|]. destruct Hf as [->|(F1 & F2 & F3)]; [left; lia|].
      right. auto.
    + rewrite (proj2 (Z.eqb_neq _ _)) by lia.
      assert (Em : Z.min (Z.of_nat p) (Z.of_nat a) = Z.of_nat (Nat.min p a)) by lia.
      set (s := clipz (ctotal ps) (Z.min (Z.of_nat p) (Z.of_nat a))).
      set (e := clipz (ctotal ps) (Z.max (Z.of_nat p) (Z.of_nat a))).
      destruct (locate2 ps s e (wf_ne _ _ W)) as [(pre & b & t & post & i & j & E1 & Hij & Hj & Es & Ee)
        |(pre & b & t & mid & c & u & post & i & j & E1 & Hi & Hj & Es & Ee)].
      { apply clipz_mono. lia. } { apply clipz_le. }
      * subst ps. destruct (formatted_selection_same _ _ _ _ _ _ _ (Z.of_nat p) (Z.of_nat a) text (ins_to_cfmt x) W ltac:(lia) Hij Hj Hok Es Ee) as (d' & E & W' & _).
        rewrite E, Em, <- Nat2Z.inj_add, to_usize_nat. cbn [bind]. intros [= <-].
        eexists _, pre, b, t, [], post, _, []. split; [reflexivity|]. split; [easy|]. split; [exact W'|]. split; [now left|].
        unfold s in Es. rewrite Em in Es. apply clip_cases in Es; [|lia].
        rewrite !app_length, firstn_length, skipn_length. split; [lia|].
        destruct Es as [->|(F1 & F2 & F3)]; [left; lia|]. right. auto.
      * subst ps. rewrite (formatted_selection_cross _ _ _ _ _ _ _ _ _ _ (Z.of_nat p) (Z.of_nat a) text (ins_to_cfmt x) W ltac:(lia) Hi Hj Es Ee).
        destruct (delete_paras _ _ _ _ W Hpa) as (d1 & cut & pre' & b' & t0 & olds & post' & i' & t1 & E1 & Eps & W1 & N1 & Hi' & Hf & Ho).
        rewrite E1. cbn [bind]. rewrite to_usize_nat. cbn [bind]. rewrite Z.eqb_refl.
        destruct (insert_formatted_simple_full _ _ _ _ _ _ (Z.of_nat (Nat.min p a)) text (ins_to_cfmt x) W1 (Nat2Z.is_nonneg _) Hi' Hok (clip_back _ _ _ _ _ _ Hi' Hf)) as (d' & y & _ & E & W' & _).
        rewrite E. cbn [bind]. rewrite <- Nat2Z.inj_add, to_usize_nat. cbn [bind]. intros [= <-].
        eexists _, pre', b', t0, olds, post', _, []. split; [reflexivity|]. split; [easy|]. split; [exact W'|]. split; [now left|].
        rewrite Li by easy. unfold felt in Hf. split; [lia|]. destruct Hf as [->|(F1 & F2 & F3)]; [left; lia|].
        right. destruct (Ho F1). auto.
  - revert E0. unfold cursor_insert_block. destruct (Nat.eqb_spec p a) as [<-|Hpa].
    + cbn [bind]. rewrite Nat.min_id. destruct (Loc p) as (pre & b & t & post & i & -> & Hi & Hf & Hp).
      destruct (insert_block_full _ _ _ _ _ _ _ W Hi Hp) as (d' & E & W' & _). rewrite E. cbn [bind].
      rewrite to_usize_nat. cbn [bind]. intros [= <- _].
      eexists _, pre, b, t, [], post, (firstn i t), [(d_next d, skipn i t)]. split; [reflexivity|]. split; [easy|].
      split; [exact W'|]. split; [right; split; [easy|]; eauto|]. rewrite firstn_length. unfold felt in Hf. split; [lia|].
      destruct Hf as [->|(F1 & F2 & F3)]; [left; lia|]. right. subst i. rewrite firstn_all, skipn_all. auto.
    + destruct (delete_paras _ _ _ _ W Hpa) as (d1 & cut & pre & b & t & olds & post & i & t1 & E1 & -> & W1 & N1 & Hi & Hf & Ho).
      rewrite E1. cbn [bind]. rewrite to_usize_nat. cbn [bind].
      destruct (insert_block_full _ _ _ _ _ _ (Z.of_nat (Nat.min p a)) W1 Hi (clip_back _ _ _ _ _ _ Hi Hf)) as (d' & E & W' & _).
      rewrite E. cbn [bind]. rewrite to_usize_nat. cbn [bind]. intros [= <- _].
      eexists _, pre, b, t, olds, post, (firstn i t1), [(d_next d1, skipn i t1)]. split; [reflexivity|]. split; [easy|].
      split; [exact W'|]. rewrite N1. split; [right; split; [easy|]; eauto|]. rewrite firstn_length. unfold felt in Hf. split; [lia|].
      destruct Hf as [->|(F1 & F2 & F3)]; [left; lia|]. right. destruct (Ho F1) as [-> ->].
      subst i. rewrite firstn_all, skipn_all. auto.
  - revert E0. unfold cursor_remove_selected. destruct (Nat.eqb_spec p a) as [<-|Hpa].
    + cbn [bind]. intros [= <- _]. rewrite Nat.min_id. destruct (Loc p) as (pre & b & t & post & i & -> & Hi & Hf & Hp).
      eexists _, pre, b, t, [], post, t, []. split; [reflexivity|]. split; [easy|]. split; [exact W|]. split; [now left|].
      unfold felt in Hf. split; [lia|]. destruct Hf as [->|(F1 & F2 & F3)]; [left; lia|]. right. auto.
    + destruct (delete_paras _ _ _ _ W Hpa) as (d1 & cut & pre & b & t & olds & post & i & t1 & E1 & -> & W1 & N1 & Hi & Hf & Ho).
      rewrite E1. cbn [bind]. rewrite to_usize_nat. cbn [bind]. intros [= <-].
      eexists _, pre, b, t, olds, post, t1, []. split; [reflexivity|]. split; [easy|]. split; [exact W1|]. split; [now left|].
      unfold felt in Hf. split; [lia|]. destruct Hf as [->|(F1 & F2 & F3)]; [left; lia|]. right. destruct (Ho F1). auto.
Qed.
