(** Clearing blocks in the rope. When the last block is empty, clearing the one before
    it takes the line feed between them away too: the store no longer holds the texts
    as it should ([rep]), but they can still be read. *)
From Verif Require Import Base BaseFacts RopeModel RopeSpec RopeFacts TableTextModel TableTextEdits.

Definition blanks (ms : list marker) : list seg := map (fun m => (m, @nil char)) ms.
(** The blocks of [tail] are all at the end of the rope, with nothing between them. *)
Definition weak (st : rstore) (pre : list seg) (tail : list marker) : Prop :=
  rope st = jpre pre /\ entries (index st) = RopeSpec.starts 0 pre ++ map (fun m => (m, blen (jpre pre))) tail
  /\ total (index st) = blen (jpre pre) /\ (forall m, midx (index st) m = seg_pos m (pre ++ blanks tail))
  /\ NoDup (map fst (pre ++ blanks tail)) /\ tail <> [].
Lemma blanks_app a m b : blanks (a ++ m :: b) = blanks a ++ (m, []) :: blanks b.
Proof. unfold blanks. now rewrite map_app. Qed.
Definition held (st : rstore) (l : list seg) : Prop := rep st l \/ exists pre tail, l = pre ++ blanks tail /\ weak st pre tail.

Lemma rep_weak st pre m : rep st (pre ++ [(m, [])]) -> weak st pre [m].
Proof.
  intros R. assert (E := rep_rope_mid _ _ _ _ _ R). cbn [app jpost] in E. rewrite app_nil_r in E.
  split; [exact E|]. split; [rewrite (rep_entries _ _ R), starts_app; cbn; do 2 f_equal|]. split; [now rewrite (rep_total _ _ R), E|]. split; [apply (rep_midx _ _ R)|].
  split; [apply (rep_nodup _ _ R)|easy].
Qed.
Section Weak.
Variables (st : rstore) (p1 : list seg) (m : marker) (t : str) (p2 : list seg) (tail : list marker).
Hypothesis W : weak st (p1 ++ (m, t) :: p2) tail.
Let P := blen (jpre p1).
Lemma weak_rope : rope st = jpre p1 ++ t ++ NL :: jpre p2.
Proof. destruct W as (-> & _). now rewrite jpre_app, jpre_cons. Qed.
Lemma weak_bytes : blen (jpre (p1 ++ (m, t) :: p2)) = P + blen t + 1 + blen (jpre p2).
Proof. rewrite jpre_app, jpre_cons, !blen_app. change (NL :: jpre p2) with ([NL] ++ jpre p2). rewrite blen_app. unfold P. cbn. lia. Qed.
Lemma weak_at : midx (index st) m = Some (length p1).
Proof.
  destruct W as (_ & _ & _ & M & N & _). rewrite M, <- app_assoc. apply seg_pos_mid. rewrite <- app_assoc in N. apply (nodup_mid_pre _ _ _ _ N).
Qed.
Lemma weak_entries : entries (index st) = (RopeSpec.starts 0 p1 ++ [(m, P)]) ++ RopeSpec.starts (P + blen t + 1) p2 ++ map (fun m => (m, P + blen t + 1 + blen (jpre p2))) tail.
Proof.
  destruct W as (_ & -> & _). rewrite weak_bytes, starts_app. cbn [RopeSpec.starts Nat.add]. unfold P. rewrite <- !app_assoc. cbn [app]. do 3 f_equal.
Qed.
Lemma weak_range : range_with_successor (index st) m = Ok (Some (P, P + blen t + 1, true)).
Proof.
  unfold range_with_successor. rewrite weak_at, weak_entries. rewrite <- app_assoc. cbn [app]. rewrite !nth_error_app2; rewrite starts_length; [|lia..].
  rewrite Nat.sub_diag. replace (S (length p1) - length p1) with 1 by lia. cbn [nth_error].
  destruct p2 as [|[k u] p]; cbn [RopeSpec.starts app nth_error]; [|reflexivity].
  destruct W as (_ & _ & _ & _ & _ & N). destruct tail as [|k tl]; [easy|]. cbn. do 4 f_equal. lia.
Qed.
Lemma weak_end : content_end P (P + blen t + 1) true = P + blen t.
Proof. unfold content_end. cbn [andb]. destruct (Nat.ltb_spec P (P + blen t + 1)); lia. Qed.
End Weak.
Section Tail.
Variables (st : rstore) (pre : list seg) (t1 : list marker) (m : marker) (t2 : list marker).
Hypothesis W : weak st pre (t1 ++ m :: t2).
Let P := blen (jpre pre).
Lemma tail_range : exists f, range_with_successor (index st) m = Ok (Some (P, P, f)).
Proof.
  destruct W as (_ & E & T & M & N & _). unfold range_with_successor.
  assert (Em : midx (index st) m = Some (length pre + length t1)).
  { rewrite blanks_app, app_assoc in N. rewrite M, blanks_app, app_assoc, seg_pos_mid; [unfold blanks; now rewrite app_length, map_length|]. apply (nodup_mid_pre _ _ _ _ N). }
  rewrite Em, E, map_app. cbn [map]. rewrite app_assoc.
  assert (La : length (RopeSpec.starts 0 pre ++ map (fun m => (m, blen (jpre pre))) t1) = length pre + length t1) by (now rewrite app_length, starts_length, map_length).
  rewrite !nth_error_app2 by (rewrite La; lia). rewrite La, Nat.sub_diag. replace (S (length pre + length t1) - (length pre + length t1)) with 1 by lia. cbn [nth_error].
  destruct t2 as [|k r]; cbn [map nth_error]; [rewrite T; now exists false|now exists true].
Qed.
Lemma tail_end f : content_end P P f = P.
Proof. unfold content_end. rewrite Nat.ltb_irrefl. now destruct f. Qed.
End Tail.

(** What is held can be read. *)
Lemma held_content st l b t : held st l -> In (MBlock b, t) l -> block_content st b = Ok t /\ block_char_length st b = Ok (length t).
Proof.
  intros [R|(pre & tail & -> & W)] Hi.
  - apply in_split in Hi. destruct Hi as (p & q & ->). split; [exact (rep_content _ _ _ _ _ R)|exact (rep_char_length _ _ _ _ _ R)].
  - apply in_app_iff in Hi. destruct Hi as [Hi|Hi].
    + apply in_split in Hi. destruct Hi as (p1 & p2 & ->). unfold block_content, block_char_length. rewrite (weak_range _ _ _ _ _ _ W). cbn [bind]. rewrite weak_end, (weak_rope _ _ _ _ _ _ W).
      split; [apply byte_slice_app|]. rewrite byte_to_char_app, byte_to_char_app2. cbn [bind]. destruct (Nat.leb_spec (length (jpre p1)) (length (jpre p1) + length t)); [f_equal; lia|lia].
    + unfold blanks in Hi. apply in_map_iff in Hi. destruct Hi as (m & E & Hi). injection E as -> <-. apply in_split in Hi. destruct Hi as (t1 & t2 & ->).
      unfold block_content, block_char_length. destruct (tail_range _ _ _ _ _ W) as [f ->]. cbn [bind]. rewrite tail_end. destruct W as (-> & _).
      assert (B : byte_to_char (jpre pre) (blen (jpre pre)) = Ok (length (jpre pre))) by (rewrite <- (app_nil_r (jpre pre)) at 1; apply byte_to_char_app).
      rewrite B. cbn [bind]. rewrite Nat.leb_refl, Nat.sub_diag. split; [|easy].
      assert (S := byte_slice_app (jpre pre) [] []). cbn [app] in S. rewrite app_nil_r in S. cbn in S. now rewrite Nat.add_0_r in S.
Qed.

(** Clearing a block. *)
Lemma starts_down k n l : RopeSpec.starts (k + n) l = map (fun e => (fst e, snd e + n)) (RopeSpec.starts k l).
Proof. apply starts_shift. Qed.
Lemma clear_early st p1 b t k u p2 tail : weak st (p1 ++ (MBlock b, t) :: (k, u) :: p2) tail ->
  exists st', rope_replace_block_content st b [] = Ok st' /\ weak st' (p1 ++ (MBlock b, []) :: (k, u) :: p2) tail.
Proof.
  intros W. set (q := (k, u) :: p2) in *. unfold rope_replace_block_content, range_of. rewrite (weak_range _ _ _ _ _ _ W). cbn [bind].
  assert (T : total (index st) = blen (jpre p1) + blen t + 1 + blen (jpre q)) by (rewrite <- (weak_bytes p1 (MBlock b) t q); apply W).
  assert (Q : 1 <= blen (jpre q)) by (unfold q; rewrite jpre_cons, blen_app, blen_NL_cons; lia).
  rewrite T. destruct (Nat.ltb_spec (blen (jpre p1) + blen t + 1) (blen (jpre p1) + blen t + 1 + blen (jpre q))) as [_|]; [|lia].
  destruct (Nat.leb_spec (blen (jpre p1) + 1) (blen (jpre p1) + blen t + 1)) as [_|]; [|lia]. cbn [bind]. replace (blen (jpre p1) + blen t + 1 - blen (jpre p1) - 1) with (blen t) by lia.
  cbn [blen]. change (blen []) with 0. destruct (Nat.eqb_spec (blen t) 0) as [Z|NZ].
  - apply blen_nil_inv in Z. subst t. exists st. now split.
  - cbn [andb]. rewrite (weak_rope _ _ _ _ _ _ W). rewrite byte_to_char_app. cbn [bind]. destruct (Nat.ltb_spec 0 (blen t)) as [_|]; [|lia]. rewrite byte_to_char_app2. cbn [bind]. rewrite rope_remove_app. cbn [bind Nat.ltb Nat.leb].
    destruct (Nat.eqb_spec 0 (blen t)) as [|_]; [lia|]. destruct (Nat.ltb_spec (blen t) 0) as [|_]; [lia|]. rewrite Nat.sub_0_r. unfold shift_after_down.
    rewrite (weak_entries _ _ _ _ _ _ W).
    assert (X : RopeSpec.starts (blen (jpre p1) + blen t + 1) q ++ map (fun m => (m, blen (jpre p1) + blen t + 1 + blen (jpre q))) tail
      = map (fun e => (fst e, snd e + blen t)) (RopeSpec.starts (blen (jpre p1) + 1) q ++ map (fun m => (m, blen (jpre p1) + 1 + blen (jpre q))) tail)).
    { rewrite map_app, map_map. cbn [fst snd]. replace (blen (jpre p1) + blen t + 1) with (blen (jpre p1) + 1 + blen t) by lia. rewrite starts_shift. f_equal. apply map_ext. intros m. f_equal. lia. }
    rewrite X, shift_down_split.
    2:{ intros e He. apply in_app_iff in He. destruct He as [He|[<-|[]]]; [apply starts_lt in He; lia|cbn; lia]. }
    2:{ intros e He. apply in_app_iff in He. destruct He as [He|He]; [apply starts_ge in He; lia|]. apply in_map_iff in He. destruct He as (m & <- & _). cbn [snd]. lia. }
    cbn [bind]. rewrite T. destruct (Nat.leb_spec (blen t) (blen (jpre p1) + blen t + 1 + blen (jpre q))) as [_|]; [|lia]. cbn [bind].
    eexists. split; [reflexivity|]. destruct W as (_ & _ & _ & M & N & Ne).
    assert (By := weak_bytes p1 (MBlock b) [] q). change (blen []) with 0 in By.
    split; [cbn [rope]; now rewrite jpre_app, jpre_cons|]. split.
    { cbn [index entries]. rewrite By, starts_app. cbn [RopeSpec.starts Nat.add]. change (blen []) with 0. rewrite <- !app_assoc. cbn [app]. do 3 f_equal; [f_equal; lia|]. apply map_ext. intros m. f_equal. lia. }
    split; [cbn [index total]; rewrite By; lia|]. split; [intros m; cbn [index midx]; rewrite M; apply seg_pos_fst; now rewrite !map_app|]. split; [|easy].
    rewrite !map_app in *. exact N.
Qed.
Lemma clear_last st p1 b t tail : weak st (p1 ++ [(MBlock b, t)]) tail ->
  exists st', rope_replace_block_content st b [] = Ok st' /\ weak st' p1 (MBlock b :: tail).
Proof.
  intros W. unfold rope_replace_block_content, range_of. rewrite (weak_range _ _ _ _ _ _ W). cbn [bind].
  assert (T : total (index st) = blen (jpre p1) + blen t + 1) by (assert (X := weak_bytes p1 (MBlock b) t []); cbn in X; rewrite Nat.add_0_r in X; rewrite <- X; apply W).
  rewrite T, Nat.ltb_irrefl. destruct (Nat.leb_spec (blen (jpre p1)) (blen (jpre p1) + blen t + 1)) as [_|]; [|lia]. cbn [bind]. replace (blen (jpre p1) + blen t + 1 - blen (jpre p1)) with (S (blen t)) by lia.
  change (blen []) with 0. cbn [Nat.eqb andb]. assert (Er : rope st = jpre p1 ++ (t ++ [NL]) ++ []) by (rewrite (weak_rope _ _ _ _ _ _ W), app_nil_r; reflexivity).
  assert (Eb : S (blen t) = blen (t ++ [NL])) by (rewrite blen_app; cbn; lia).
  rewrite Er, byte_to_char_app, Eb. cbn [bind]. destruct (Nat.ltb_spec 0 (blen (t ++ [NL]))) as [_|]; [|lia]. rewrite byte_to_char_app2. cbn [bind]. rewrite rope_remove_app. cbn [bind]. rewrite app_nil_r, <- Eb. cbn [Nat.eqb Nat.sub].
  destruct (Nat.ltb_spec (S (blen t)) 0) as [|_]; [lia|]. unfold shift_after_down. rewrite (weak_entries _ _ _ _ _ _ W). cbn [RopeSpec.starts app jpre].
  assert (X : map (fun m => (m, blen (jpre p1) + blen t + 1 + blen (jpre []))) tail = map (fun e : marker * nat => (fst e, snd e + S (blen t))) (map (fun m => (m, blen (jpre p1))) tail)).
  { rewrite map_map. apply map_ext. intros m. cbn. f_equal. lia. }
  rewrite X, shift_down_split.
  2:{ intros e He. apply in_app_iff in He. destruct He as [He|[<-|[]]]; [apply starts_lt in He; lia|cbn; lia]. }
  2:{ intros e He. apply in_map_iff in He. destruct He as (m & <- & _). cbn [snd]. lia. }
  cbn [bind]. rewrite T. destruct (Nat.leb_spec (S (blen t)) (blen (jpre p1) + blen t + 1)) as [_|]; [|lia]. cbn [bind].
  eexists. split; [reflexivity|]. destruct W as (_ & _ & _ & M & N & Ne). split; [easy|]. split; [cbn [index entries map]; now rewrite <- app_assoc|]. split; [cbn [index total]; lia|].
  split; [|split; [|easy]].
  - intros m. cbn [index midx]. rewrite M. apply seg_pos_fst. cbn [blanks map]. now rewrite <- app_assoc, !map_app.
  - cbn [blanks map]. rewrite <- app_assoc, !map_app in N. rewrite map_app. exact N.
Qed.
Lemma clear_gone st pre t1 b t2 : weak st pre (t1 ++ MBlock b :: t2) -> rope_replace_block_content st b [] = Ok st.
Proof.
  intros W. unfold rope_replace_block_content, range_of. destruct (tail_range _ _ _ _ _ W) as [f ->]. cbn [bind]. destruct W as (_ & _ & -> & _). rewrite Nat.ltb_irrefl, Nat.leb_refl. cbn [bind]. now rewrite Nat.sub_diag.
Qed.
Lemma clear_rep st p1 b t p2 : rep st (p1 ++ (MBlock b, t) :: p2) -> (p2 = [] \/ 2 <= blen (jpost p2)) ->
  exists st', rope_replace_block_content st b [] = Ok st' /\ rep st' (p1 ++ (MBlock b, []) :: p2).
Proof.
  intros R L. destruct (rep_delete_in_block st p1 b [] t [] p2) as (st' & E & R'); [now rewrite app_nil_r|]. exists st'. split; [|exact R']. rewrite <- E.
  unfold rope_replace_block_content, rope_delete_in_block. change (blen []) with 0. cbn [Nat.add]. rewrite (rep_range _ _ _ _ _ R). cbn [bind]. rewrite (rep_total_mid _ _ _ _ _ R).
  assert (C : (if range_end p1 t p2 <? blen (jpre p1) + (blen t + blen (jpost p2)) then if blen (jpre p1) + 1 <=? range_end p1 t p2 then Ok (range_end p1 t p2 - blen (jpre p1) - 1) else Panic
     else if blen (jpre p1) <=? range_end p1 t p2 then Ok (range_end p1 t p2 - blen (jpre p1)) else Panic) = Ok (blen t)).
  { unfold range_end. destruct p2 as [|s p2].
    - change (blen (jpost [])) with 0. destruct (Nat.ltb_spec (blen (jpre p1) + blen t) (blen (jpre p1) + (blen t + 0))) as [|_]; [lia|]. destruct (Nat.leb_spec (blen (jpre p1)) (blen (jpre p1) + blen t)) as [_|]; [f_equal; lia|lia].
    - destruct L as [|L]; [easy|]. destruct (Nat.ltb_spec (blen (jpre p1) + blen t + 1) (blen (jpre p1) + (blen t + blen (jpost (s :: p2))))) as [_|]; [|lia]. destruct (Nat.leb_spec (blen (jpre p1) + 1) (blen (jpre p1) + blen t + 1)) as [_|]; [f_equal; lia|lia]. }
  rewrite C. cbn [bind]. destruct (Nat.eqb_spec (blen t) 0) as [Z|NZ]; [rewrite Z; reflexivity|]. cbn [andb]. destruct (Nat.leb_spec (blen t) 0) as [|_]; [lia|]. rewrite Nat.add_0_r. destruct (byte_to_char (rope st) (blen (jpre p1))) as [cs| |]; try easy. cbn [bind].
  destruct (Nat.ltb_spec 0 (blen t)) as [_|]; [|lia]. destruct (byte_to_char (rope st) (blen (jpre p1) + blen t)) as [ce| |]; try easy. cbn [bind]. destruct (rope_remove (rope st) cs ce) as [rp| |]; try easy. cbn [bind Nat.ltb Nat.leb].
  destruct (Nat.eqb_spec 0 (blen t)) as [|_]; [lia|]. destruct (Nat.ltb_spec (blen t) 0) as [|_]; [lia|]. reflexivity.
Qed.
Lemma held_nodup st l : held st l -> NoDup (map fst l).
Proof. intros [R|(pre & tail & -> & W)]; [apply (rep_nodup _ _ R)|apply W]. Qed.
(** Clearing any block empties it and nothing else. *)
Lemma clear_held st l b : held st l -> In (MBlock b) (map fst l) -> exists st', rope_replace_block_content st b [] = Ok st' /\ held st' (map (retext (MBlock b) []) l).
Proof.
  intros H Hi. assert (N := held_nodup _ _ H).
  assert (G : (exists pre tail, l = pre ++ blanks tail /\ weak st pre tail) -> exists st', rope_replace_block_content st b [] = Ok st' /\ held st' (map (retext (MBlock b) []) l)).
  { intros (pre & tail & -> & W). rewrite map_app in Hi. apply in_app_iff in Hi. destruct Hi as [Hi|Hi].
    - apply in_map_iff in Hi. destruct Hi as ((m & t) & E & Hi). cbn in E. subst m. apply in_split in Hi. destruct Hi as (p1 & p2 & ->). rewrite <- app_assoc in N |- *. cbn [app] in *. rewrite <- (retext_mid _ _ _ _ [] N). destruct p2 as [|(k & u) p2].
      + destruct (clear_last _ _ _ _ _ W) as (st' & E & W'). exists st'. split; [easy|]. right. exists p1, (MBlock b :: tail). now split.
      + destruct (clear_early _ _ _ _ _ _ _ _ W) as (st' & E & W'). exists st'. split; [easy|]. right. eexists _, tail. split; [|exact W']. now rewrite <- app_assoc.
    - assert (Hb : In (MBlock b) tail). { unfold blanks in Hi. rewrite map_map in Hi. cbn in Hi. now rewrite map_id in Hi. }
      apply in_split in Hb. destruct Hb as (t1 & t2 & ->). exists st. split; [exact (clear_gone _ _ _ _ _ W)|]. right. exists pre, (t1 ++ MBlock b :: t2). split; [|easy].
      rewrite blanks_app, app_assoc in *. now rewrite <- (retext_mid _ _ _ _ [] N). }
  destruct H as [R|X]; [|now apply G].
  apply in_map_iff in Hi. destruct Hi as ((m & t) & E & Hi). cbn in E. subst m. apply in_split in Hi. destruct Hi as (p1 & p2 & ->).
  destruct p2 as [|s p2] using rev_ind; [|clear IHp2; destruct s as [k u]; destruct u as [|c u]].
  - rewrite <- (retext_mid _ _ _ _ [] N). destruct (clear_rep _ _ _ _ _ R (or_introl eq_refl)) as (st' & E & R'). exists st'. split; [easy|now left].
  - apply G. exists (p1 ++ (MBlock b, t) :: p2), [k]. split; [now rewrite <- app_assoc|]. apply rep_weak. now rewrite <- app_assoc.
  - rewrite <- (retext_mid _ _ _ _ [] N). destruct (clear_rep _ _ _ _ _ R) as (st' & E & R'); [|exists st'; split; [easy|now left]]. right. rewrite jpost_app, jpost_cons, blen_app, blen_NL_cons. change (jpost []) with (@nil char). rewrite app_nil_r.
    assert (X : 1 <= blen (c :: u)) by (destruct (blen (c :: u)) eqn:Z; [apply blen_nil_inv in Z; discriminate|lia]). lia.
Qed.
