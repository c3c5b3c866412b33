(** [block_at_position] on a well-formed document. *)
From Verif Require Import Base BaseFacts FormatRunsModel FormatRunsSpec FormatRunsFacts
  RopeModel RopeSpec RopeFacts DocModel DocSpec BlockFacts DocInv DocFacts DocAttr DocDelete DocBreak.

Lemma wf_get_mid d pre b t post : wf d (pre ++ (b, t) :: post) -> exists x, get_block d b = Some x.
Proof.
  intros W. assert (H : In b (map b_id (d_blocks d))) by (eapply wf_has; [exact W|eapply wf_in_mid, W]).
  destruct (find_block_in _ _ H) as (x & E & _). now exists x.
Qed.

Lemma wf_len_mid d pre b t post : wf d (pre ++ (b, t) :: post) -> char_length d b = Ok (Z.of_nat (length t)).
Proof. intros W. eapply wf_length_in; [exact W|]. rewrite in_app_iff. right. now left. Qed.

Lemma wf_midx d pre b t post : wf d (pre ++ (b, t) :: post) -> midx (index (d_rs d)) (MBlock b) = Some (length pre).
Proof.
  intros W. pose proof (wf_rep _ _ W) as R. rewrite segs_mid in R. rewrite (rep_midx_mid _ _ _ _ _ R).
  now rewrite segs_length.
Qed.

Lemma block_at_full d pre b t post i p :
  wf d (pre ++ (b, t) :: post) -> i <= length t ->
  clipz (ctotal (pre ++ (b, t) :: post)) p = cpre pre + i ->
  block_at_position d p =
  match post with
  | (c, u) :: _ =>
      if (0 <? length t) && (i =? length t)
      then Ok (c, Z.of_nat (cpre pre + length t + 1), Z.of_nat (length u), Z.of_nat (S (length pre)))
      else Ok (b, Z.of_nat (cpre pre), Z.of_nat (length t), Z.of_nat (length pre))
  | [] => Ok (b, Z.of_nat (cpre pre), Z.of_nat (length t), Z.of_nat (length pre))
  end.
Proof.
  intros W Hi Hp. unfold block_at_position. rewrite (find_any _ _ _ _ _ _ _ W Hi Hp). cbn [bind].
  destruct (wf_get_mid _ _ _ _ _ W) as [x Ex]. rewrite Ex. cbn [bind ok_or].
  rewrite (wf_len_mid _ _ _ _ _ W). cbn [bind]. rewrite (wf_midx _ _ _ _ _ W).
  replace ((0 <? Z.of_nat (length t)) && (Z.of_nat i =? Z.of_nat (length t)))%Z
    with ((0 <? length t) && (i =? length t)) by lia.
  pose proof (wf_rep _ _ W) as R. rewrite segs_mid in R.
  destruct post as [|[c u] post].
  - assert (En : nth_error (entries (index (d_rs d))) (S (length pre)) = None).
    { apply nth_error_None. rewrite (rep_length _ _ _ _ _ R), segs_length. cbn. lia. }
    rewrite En. destruct (_ && _); cbn [bind]; rewrite (wf_midx _ _ _ _ _ W); reflexivity.
  - destruct ((0 <? length t) && (i =? length t)); [|cbn [bind]; rewrite (wf_midx _ _ _ _ _ W); reflexivity].
    rewrite segs_cons in R.
    assert (R2 : rep (d_rs d) ((segs pre ++ [(MBlock b, t)]) ++ (MBlock c, u) :: segs post)) by (rewrite <- app_assoc; exact R).
    assert (W2 : wf d ((pre ++ [(b, t)]) ++ (c, u) :: post)) by (rewrite <- app_assoc; exact W).
    assert (En : nth_error (entries (index (d_rs d))) (S (length pre))
                 = Some (MBlock c, blen (jpre (segs pre ++ [(MBlock b, t)])))).
    { rewrite (rep_entries _ _ R2). replace (S (length pre)) with (length (segs pre ++ [(MBlock b, t)])).
      - now rewrite starts_nth.
      - rewrite app_length, segs_length. cbn. lia. }
    rewrite En. rewrite (rep_b2c_start _ _ _ _ _ R2). cbn [bind].
    destruct (wf_get_mid _ _ _ _ _ W2) as [y Ey]. rewrite Ey. cbn [bind ok_or].
    rewrite (wf_len_mid _ _ _ _ _ W2). cbn [bind]. rewrite (wf_midx _ _ _ _ _ W2), app_length.
    do 3 f_equal.
    + rewrite jpre_app, jpre_cons, !app_length. change (jpre []) with (@nil char). cbn [length]. unfold cpre. f_equal. lia.
    + cbn. lia.
Qed.
