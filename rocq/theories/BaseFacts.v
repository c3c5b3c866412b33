(** Lemmas about byte offsets. *)
From Verif Require Export Base.

Lemma utf8_len_pos c : 1 <= utf8_len c.
Proof. unfold utf8_len. destruct (c <? 128)%N, (c <? 2048)%N, (c <? 65536)%N; lia. Qed.

Lemma utf8_len_NL : utf8_len NL = 1.
Proof. reflexivity. Qed.

Lemma blen_app s t : blen (s ++ t) = blen s + blen t.
Proof. induction s as [|c s IH]; cbn [app blen]; lia. Qed.

Lemma blen_nil_inv s : blen s = 0 -> s = [].
Proof. destruct s as [|c s]; cbn [blen]; [easy|]. pose proof (utf8_len_pos c); lia. Qed.

Lemma length_le_blen s : length s <= blen s.
Proof. induction s as [|c s IH]; cbn [blen length]; [lia|]. pose proof (utf8_len_pos c); lia. Qed.

Lemma boff_0 s : boff s 0 = 0.
Proof. reflexivity. Qed.

Lemma boff_all s i : length s <= i -> boff s i = blen s.
Proof. intros H. unfold boff. now rewrite firstn_all2. Qed.

Lemma boff_le s i : boff s i <= blen s.
Proof.
  unfold boff. rewrite <- (firstn_skipn i s) at 2. rewrite blen_app. lia.
Qed.

Lemma boff_cons c s i : boff (c :: s) (S i) = utf8_len c + boff s i.
Proof. reflexivity. Qed.

Lemma boff_mono s i j : i <= j -> boff s i <= boff s j.
Proof.
  revert i j; induction s as [|c s IH]; intros i j H.
  - unfold boff. rewrite !firstn_nil. lia.
  - destruct i as [|i]; [rewrite boff_0; lia|].
    destruct j as [|j]; [lia|]. rewrite !boff_cons. specialize (IH i j). lia.
Qed.

Lemma boff_lt s i j : i < j -> i < length s -> boff s i < boff s j.
Proof.
  revert i j; induction s as [|c s IH]; intros i j H Hl; cbn [length] in Hl; [lia|].
  destruct j as [|j]; [lia|]. destruct i as [|i].
  - rewrite boff_0, boff_cons. pose proof (utf8_len_pos c). lia.
  - rewrite !boff_cons. specialize (IH i j). lia.
Qed.

Lemma boff_inj s i j : i <= length s -> j <= length s -> boff s i = boff s j -> i = j.
Proof.
  intros Hi Hj E. destruct (lt_eq_lt_dec i j) as [[H|H]|H]; [|exact H|].
  - pose proof (boff_lt s i j H). lia.
  - pose proof (boff_lt s j i H). lia.
Qed.

Lemma boff_app_l s t i : i <= length s -> boff (s ++ t) i = boff s i.
Proof.
  intros H. unfold boff. rewrite firstn_app.
  replace (i - length s) with 0 by lia. cbn [firstn]. now rewrite app_nil_r.
Qed.

Lemma boff_app_r s t i : boff (s ++ t) (length s + i) = blen s + boff t i.
Proof.
  unfold boff. rewrite firstn_app.
  replace (length s + i - length s) with i by lia.
  rewrite firstn_all2 by lia. apply blen_app.
Qed.

Lemma boff_S s i c : nth_error s i = Some c -> boff s (S i) = boff s i + utf8_len c.
Proof.
  revert i; induction s as [|d s IH]; intros [|i]; cbn [nth_error]; try easy.
  - intros [= ->]. rewrite boff_cons, boff_0. unfold boff. cbn. lia.
  - intros H. rewrite !boff_cons, (IH _ H). lia.
Qed.

Lemma b2c_le s b : b2c s b <= length s.
Proof.
  revert b; induction s as [|c s IH]; intros b; cbn [b2c length]; [lia|].
  destruct (b <? utf8_len c); [lia|]. specialize (IH (b - utf8_len c)). lia.
Qed.

Lemma b2c_boff s i : i <= length s -> b2c s (boff s i) = i.
Proof.
  revert i; induction s as [|c s IH]; intros i H; cbn [length] in H.
  - replace i with 0 by lia. reflexivity.
  - destruct i as [|i].
    + rewrite boff_0. cbn [b2c]. pose proof (utf8_len_pos c).
      destruct (0 <? utf8_len c) eqn:E; [reflexivity|lia].
    + rewrite boff_cons. cbn [b2c].
      destruct (utf8_len c + boff s i <? utf8_len c) eqn:E; [lia|].
      replace (utf8_len c + boff s i - utf8_len c) with (boff s i) by lia.
      rewrite IH; lia.
Qed.

Lemma b2c_blen s : b2c s (blen s) = length s.
Proof. rewrite <- (boff_all s (length s)) by lia. apply b2c_boff. lia. Qed.

Lemma boff_b2c_le s b : boff s (b2c s b) <= b.
Proof.
  revert b; induction s as [|c s IH]; intros b; cbn [b2c].
  - rewrite boff_0. lia.
  - destruct (b <? utf8_len c) eqn:E; [rewrite boff_0; lia|].
    rewrite boff_cons. specialize (IH (b - utf8_len c)). lia.
Qed.

Lemma byte_to_char_boff s i : i <= length s -> byte_to_char s (boff s i) = Ok i.
Proof.
  intros H. unfold byte_to_char. pose proof (boff_le s i).
  destruct (boff s i <=? blen s) eqn:E; [|lia]. now rewrite b2c_boff.
Qed.

Lemma byte_to_char_blen s : byte_to_char s (blen s) = Ok (length s).
Proof. rewrite <- (boff_all s (length s)) by lia. now apply byte_to_char_boff. Qed.

Lemma char_to_byte_ok s i : i <= length s -> char_to_byte s i = Ok (boff s i).
Proof. intros H. unfold char_to_byte. now rewrite (proj2 (Nat.leb_le _ _) H). Qed.

Lemma byte_to_char_app s t : byte_to_char (s ++ t) (blen s) = Ok (length s).
Proof.
  rewrite <- (boff_all s (length s)) by lia. rewrite <- (boff_app_l s t) by lia.
  apply byte_to_char_boff. rewrite app_length. lia.
Qed.

Lemma is_boundary_boff s i : i <= length s -> is_boundary s (boff s i) = true.
Proof.
  intros H. unfold is_boundary. pose proof (boff_le s i). rewrite b2c_boff by lia. lia.
Qed.

Lemma is_boundary_inv s b : is_boundary s b = true -> exists i, i <= length s /\ b = boff s i.
Proof.
  unfold is_boundary. intros H. exists (b2c s b). split; [apply b2c_le|]. lia.
Qed.

Lemma is_boundary_0 s : is_boundary s 0 = true.
Proof. rewrite <- (boff_0 s). apply is_boundary_boff. lia. Qed.

Lemma is_boundary_blen s : is_boundary s (blen s) = true.
Proof. rewrite <- (boff_all s (length s)) by lia. apply is_boundary_boff. lia. Qed.

Lemma rope_insert_app s t u : rope_insert (s ++ u) (length s) t = Ok (s ++ t ++ u).
Proof.
  unfold rope_insert. rewrite app_length.
  destruct (length s <=? length s + length u) eqn:E; [|lia].
  rewrite firstn_app, skipn_app, firstn_all, skipn_all.
  replace (length s - length s) with 0 by lia. cbn. now rewrite app_nil_r.
Qed.

Lemma rope_remove_app s t u : rope_remove (s ++ t ++ u) (length s) (length s + length t) = Ok (s ++ u).
Proof.
  unfold rope_remove. rewrite !app_length.
  replace ((length s <=? length s + length t) && (length s + length t <=? length s + (length t + length u)))
    with true by lia.
  rewrite firstn_app, firstn_all. replace (length s - length s) with 0 by lia.
  cbn [firstn]. rewrite app_nil_r.
  rewrite (app_assoc s t u), skipn_app, skipn_all2 by (rewrite app_length; lia).
  rewrite app_length. replace (length s + length t - (length s + length t)) with 0 by lia.
  reflexivity.
Qed.

Lemma byte_slice_app s t u : byte_slice (s ++ t ++ u) (blen s) (blen s + blen t) = Ok t.
Proof.
  unfold byte_slice.
  replace (blen s) with (boff (s ++ t ++ u) (length s))
    by (rewrite boff_app_l by lia; apply boff_all; lia).
  assert (Hb : boff (s ++ t ++ u) (length s) + blen t = boff (s ++ t ++ u) (length s + length t)).
  { rewrite boff_app_r, boff_app_l by lia. rewrite (boff_all s) by lia.
    rewrite boff_app_l by lia. rewrite (boff_all t) by lia. lia. }
  rewrite Hb, !is_boundary_boff, !b2c_boff by (rewrite ?app_length; lia).
  replace (boff (s ++ t ++ u) (length s) <=? boff (s ++ t ++ u) (length s + length t)) with true
    by (pose proof (boff_mono (s ++ t ++ u) (length s) (length s + length t)); lia).
  cbn [andb]. replace (length s + length t - length s) with (length t) by lia.
  rewrite skipn_app, skipn_all. replace (length s - length s) with 0 by lia. cbn [skipn app].
  rewrite firstn_app, firstn_all. replace (length t - length t) with 0 by lia.
  cbn [firstn]. now rewrite app_nil_r.
Qed.

(** ** Duplicate-free lists *)

Lemma nodup_app_r {A} (a b : list A) : NoDup (a ++ b) -> NoDup b.
Proof. induction a; cbn; intros H; [easy|]. inversion H; auto. Qed.

Lemma nodup_app_l {A} (a b : list A) : NoDup (a ++ b) -> NoDup a.
Proof.
  induction a; cbn; intros H; [constructor|]. inversion H; subst. constructor; [|auto].
  rewrite in_app_iff in *. tauto.
Qed.

Lemma nodup_app_disj {A} (a b : list A) x : NoDup (a ++ b) -> In x a -> ~ In x b.
Proof.
  induction a as [|y a IH]; cbn; intros H; [easy|]. inversion H; subst.
  intros [<-|Hx]; [rewrite in_app_iff in *; tauto|auto].
Qed.

Lemma nodup_app_mid {A} (a b c : list A) : NoDup (a ++ b ++ c) -> NoDup (a ++ c).
Proof.
  induction a as [|x a IH]; cbn; intros N.
  - now apply nodup_app_r in N.
  - inversion N; subst. constructor; [|auto]. rewrite !in_app_iff in *. tauto.
Qed.

Lemma nodup_app_intro {A} (a b : list A) :
  NoDup a -> NoDup b -> (forall x, In x a -> ~ In x b) -> NoDup (a ++ b).
Proof.
  intros Ha Hb D. induction a as [|x a IH]; cbn; [easy|]. inversion Ha; subst. constructor.
  - rewrite in_app_iff. intros [H|H]; [easy|]. apply (D x); cbn; auto.
  - apply IH; [easy|]. intros y Hy. apply D. now right.
Qed.

Lemma byte_to_char_app2 s t u : byte_to_char (s ++ t ++ u) (blen s + blen t) = Ok (length s + length t).
Proof. rewrite <- blen_app, <- app_length, app_assoc. apply byte_to_char_app. Qed.

Lemma firstn_exact {A} n (a b : list A) : length a = n -> firstn n (a ++ b) = a.
Proof. intros <-. rewrite firstn_app, Nat.sub_diag, firstn_all. apply app_nil_r. Qed.

Lemma skipn_exact {A} n (a b : list A) : length a = n -> skipn n (a ++ b) = b.
Proof. intros <-. rewrite skipn_app, Nat.sub_diag, skipn_all. reflexivity. Qed.
