(** Rewriting a paragraph in the rope, and adding paragraphs after it. *)
From Verif Require Import Base BaseFacts RopeModel RopeSpec RopeFacts RopeTables DocModel DocSpec DocInv MdInsertModel.

Lemma replace_rep st pre b t u post :
  rep st (pre ++ (MBlock b, t) :: post) -> (post = [] \/ 2 <= blen (jpost post)) ->
  exists st', rope_replace_block_content st b u = Ok st' /\ rep st' (pre ++ (MBlock b, u) :: post).
Proof.
  intros R L. unfold rope_replace_block_content. rewrite (rep_range _ _ _ _ _ R). cbn [bind]. rewrite (rep_total_mid _ _ _ _ _ R).
  assert (C : (if range_end pre t post <? blen (jpre pre) + (blen t + blen (jpost post)) then if blen (jpre pre) + 1 <=? range_end pre t post then Ok (range_end pre t post - blen (jpre pre) - 1) else Panic
     else if blen (jpre pre) <=? range_end pre t post then Ok (range_end pre t post - blen (jpre pre)) else Panic) = Ok (blen t)).
  { unfold range_end. destruct post as [|s post].
    - change (blen (jpost [])) with 0. destruct (Nat.ltb_spec (blen (jpre pre) + blen t) (blen (jpre pre) + (blen t + 0))) as [|_]; [lia|].
      destruct (Nat.leb_spec (blen (jpre pre)) (blen (jpre pre) + blen t)) as [_|]; [f_equal; lia|lia].
    - destruct L as [|L]; [easy|]. destruct (Nat.ltb_spec (blen (jpre pre) + blen t + 1) (blen (jpre pre) + (blen t + blen (jpost (s :: post))))) as [_|]; [|lia].
      destruct (Nat.leb_spec (blen (jpre pre) + 1) (blen (jpre pre) + blen t + 1)) as [_|]; [f_equal; lia|lia]. }
  rewrite C. cbn [bind]. clear C L.
  destruct ((blen t =? 0) && (blen u =? 0)) eqn:E0.
  { apply andb_true_iff in E0. destruct E0 as [E1 E2]. apply Nat.eqb_eq, blen_nil_inv in E1, E2. subst. exists st. now split. }
  assert (Er := rep_rope_mid _ _ _ _ _ R). rewrite (rep_b2c_start _ _ _ _ _ R). cbn [bind].
  assert (E1 : (if 0 <? blen t then let! ce := byte_to_char (rope st) (blen (jpre pre) + blen t) in rope_remove (rope st) (length (jpre pre)) ce else Ok (rope st))
     = Ok (jpre pre ++ jpost post)).
  { destruct (Nat.ltb_spec 0 (blen t)) as [_|Z].
    - rewrite (rep_b2c_end _ _ _ _ _ R). cbn [bind]. rewrite Er. apply rope_remove_app.
    - assert (Z0 : blen t = 0) by lia. apply blen_nil_inv in Z0. rewrite Er, Z0. reflexivity. }
  rewrite E1. cbn [bind]. clear E1.
  assert (E2 : (if 0 <? blen u then rope_insert (jpre pre ++ jpost post) (length (jpre pre)) u else Ok (jpre pre ++ jpost post)) = Ok (jpre pre ++ u ++ jpost post)).
  { destruct (Nat.ltb_spec 0 (blen u)) as [_|Z]; [apply rope_insert_app|]. assert (Z0 : blen u = 0) by lia. apply blen_nil_inv in Z0. now rewrite Z0. }
  rewrite E2. cbn [bind]. clear E2.
  assert (G : forall ix, entries ix = starts 0 (pre ++ (MBlock b, u) :: post) -> total ix = blen (jpre pre) + (blen u + blen (jpost post))
     -> midx ix = midx (index st) -> anchor_count ix = anchor_count (index st) -> rep (mk_rstore (jpre pre ++ u ++ jpost post) ix) (pre ++ (MBlock b, u) :: post)).
  { intros ix Ee Et Em Ea. split; cbn [rope index].
    - now rewrite join_mid.
    - exact Ee.
    - rewrite Et, !blen_app. reflexivity.
    - intros m. rewrite Em, (rep_midx _ _ R). apply seg_pos_fst. now rewrite !map_app.
    - rewrite Ea, (rep_anchors _ _ R), !count_anchors_app, !count_anchors_cons. reflexivity.
    - assert (N := rep_nodup _ _ R). rewrite map_app in *. exact N. }
  assert (Te := rep_total_mid _ _ _ _ _ R). assert (Ent := rep_entries _ _ R). rewrite starts_mid_eq in Ent.
  destruct (Nat.eqb_spec (blen u) (blen t)) as [Eq|Ne]; [|destruct (Nat.ltb_spec (blen t) (blen u)) as [Lt|Ge]].
  - eexists. split; [reflexivity|]. apply G; try easy; [|rewrite Te; lia]. rewrite starts_mid_eq, Ent, Eq. reflexivity.
  - eexists. split; [reflexivity|]. apply G; try easy; cbn [shift_after_up entries total]; [|rewrite Te; lia].
    rewrite Ent, shift_up_split.
    + rewrite <- starts_shift, starts_mid_eq. do 2 f_equal. lia.
    + apply head_lt_thr. lia.
    + intros e He. apply starts_ge in He. lia.
  - unfold shift_after_down. rewrite Ent.
    replace (blen (jpre pre) + blen t + 1) with (blen (jpre pre) + blen u + 1 + (blen t - blen u)) by lia.
    rewrite starts_shift, shift_down_split.
    2:{ apply head_lt_thr. lia. }
    2:{ intros e He. apply starts_ge in He. lia. }
    cbn [bind]. rewrite Te. destruct (Nat.leb_spec (blen t - blen u) (blen (jpre pre) + (blen t + blen (jpost post)))) as [_|]; [|lia]. cbn [bind].
    eexists. split; [reflexivity|]. apply G; try easy; cbn [entries total]; [now rewrite starts_mid_eq|lia].
Qed.

Lemma first_past_split a b byte : (forall e, In e a -> snd e <= byte) -> (forall e, In e b -> byte < snd e) -> first_past (a ++ b) byte = length a.
Proof.
  induction a as [|(m & s) a IH]; intros Ha Hb; cbn [app first_past length].
  - destruct b as [|(m & s) b]; [easy|]. cbn [first_past]. destruct (Nat.ltb_spec byte s) as [|H]; [easy|].
    specialize (Hb (m, s) (or_introl eq_refl)). cbn in Hb. lia.
  - destruct (Nat.ltb_spec byte s) as [H|_]; [specialize (Ha (m, s) (or_introl eq_refl)); cbn in Ha; lia|].
    rewrite IH; [easy| |exact Hb]. intros e He. apply Ha. now right.
Qed.

Lemma insert_block_rep st pre b t i u post :
  rep st (pre ++ (MBlock b, t) :: post) -> ~ In (MBlock i) (map fst (pre ++ (MBlock b, t) :: post)) ->
  exists st', rope_insert_block_at st (blen (jpre pre) + blen t) i u = Ok st'
    /\ rep st' (pre ++ (MBlock b, t) :: (MBlock i, u) :: post).
Proof.
  intros R N. unfold rope_insert_block_at.
  assert (Ent := rep_entries _ _ R). rewrite starts_mid_eq in Ent. set (A := starts 0 pre ++ [(MBlock b, blen (jpre pre))]) in *.
  assert (LA : length A = length (pre ++ [(MBlock b, t)])) by (unfold A; rewrite !app_length, starts_length; easy).
  assert (H1 : forall e, In e A -> snd e <= blen (jpre pre)).
  { intros e He. unfold A in He. apply in_app_iff in He. destruct He as [He|[<-|[]]]; [apply starts_lt in He; lia|easy]. }
  assert (Jp : blen (jpre (pre ++ [(MBlock b, t)])) = blen (jpre pre) + blen t + 1) by apply jpre_snoc.
  rewrite Ent, first_past_split.
  2:{ intros e He. apply H1 in He. lia. }
  2:{ intros e He. apply starts_ge in He. lia. }
  rewrite (rep_b2c_end _ _ _ _ _ R). cbn [bind].
  assert (Er : rope st = (jpre pre ++ t) ++ jpost post) by (rewrite (rep_rope_mid _ _ _ _ _ R), app_assoc; easy).
  rewrite Er. rewrite <- app_length, rope_insert_app. cbn [bind].
  rewrite LA. unfold shift_after_up. rewrite Ent, shift_up_split.
  2:{ intros e He. apply H1 in He. lia. }
  2:{ intros e He. apply starts_ge in He. lia. }
  rewrite <- starts_shift. rewrite <- Jp.
  destruct (rep_insert_seg st (pre ++ [(MBlock b, t)]) post (MBlock i) u ((jpre pre ++ t) ++ (NL :: u) ++ jpost post) (total (index st) + (1 + blen u))
     (A ++ starts (blen (jpre (pre ++ [(MBlock b, t)])) + (1 + blen u)) post)) as (ix & E & R').
  - now rewrite <- app_assoc.
  - now rewrite <- app_assoc.
  - rewrite join_mid, jpre_app, jpre_cons. cbn [jpre concat map app]. rewrite <- !app_assoc. reflexivity.
  - rewrite (rep_total _ _ R), Er, !blen_app, blen_NL_cons. lia.
  - f_equal; [|f_equal; lia]. unfold A. now rewrite starts_app.
  - rewrite E. cbn [bind]. eexists. split; [reflexivity|]. rewrite <- (app_assoc pre [(MBlock b, t)]) in R'. exact R'.
Qed.

Lemma add_rep made : forall st pre prev t post,
  rep st (pre ++ (MBlock prev, t) :: post) -> NoDup (map fst made) ->
  (forall q, In q (map fst made) -> ~ In (MBlock q) (map fst (pre ++ (MBlock prev, t) :: post))) ->
  exists st', rope_add st (blen (jpre pre) + blen t) made = Ok st'
    /\ rep st' (pre ++ (MBlock prev, t) :: segs made ++ post).
Proof.
  induction made as [|[i u] made IH]; intros st pre prev t post R ND H; cbn [rope_add].
  - exists st. now split.
  - inversion ND as [|? ? N1 N2]; subst.
    destruct (insert_block_rep _ _ _ _ i u _ R) as (st1 & -> & R1); [apply H; now left|]. cbn [bind].
    assert (R1' : rep st1 ((pre ++ [(MBlock prev, t)]) ++ (MBlock i, u) :: post)) by (now rewrite <- app_assoc).
    destruct (IH _ _ _ _ _ R1' N2) as (st2 & E & R2).
    { intros q Hq. rewrite <- app_assoc, map_app, in_app_iff. cbn [app map fst In].
      specialize (H q (or_intror Hq)). rewrite map_app, in_app_iff in H. cbn [map fst In] in H.
      intros [Hp|[Hp|[Hp|Hp]]]; try tauto. injection Hp as ->. tauto. }
    rewrite jpre_snoc in E. rewrite E. exists st2. split; [easy|]. rewrite <- app_assoc in R2. exact R2.
Qed.
