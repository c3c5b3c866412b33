(** Search and replace, in the form the properties state them. *)
From Verif Require Import Base BaseFacts FormatRunsModel FormatRunsSpec FormatRunsFacts
  RopeModel RopeSpec RopeFacts DocModel DocSpec BlockFacts DocInv DocFacts DocAttr DocDelete DocBreak DocReplace
  DocImport DocFormat HistModel HistSpec DocReach DocHist DocQuery DocFresh
  PropSpec QueryTheorems SearchModel SearchSpec SearchFacts ReplaceFacts ReplaceExact DocRefuted.

(** ** Searching *)

Lemma reports_iff (P Q : nat -> Prop) n ms : (forall p, P p <-> Q p) -> reports P n ms -> reports Q n ms.
Proof. intros H (A & B & C). split; [easy|]. split; [|easy]. intros p. now rewrite B. Qed.

Lemma find_matches_exact g text query o : case_sensitive o = true -> use_regex o = false ->
  exists ms, find_all_matches g text query o = Ok ms /\ reports (hits g o text query) (length query) ms.
Proof.
  intros Hc Hr. destruct (find_literal_all g text query o Hr) as (ms & E & R). exists ms. split; [easy|].
  rewrite Hc in R. eapply reports_iff; [|exact R]. intros p. unfold found, hits. rewrite Hc. tauto.
Qed.

Lemma find_all_theorem g d its query o : reach d -> doc_items d = Ok its ->
  case_sensitive o = true -> use_regex o = false ->
  exists ms, find_all g d query o = Ok ms /\ reports (hits g o (plain its) query) (length query) ms.
Proof.
  intros R E Hc Hr. unfold find_all, full_text. rewrite (export_items _ _ R E). cbn [bind]. now apply find_matches_exact.
Qed.

Lemma find_next_theorem g d its query o from backward : reach d -> doc_items d = Ok its ->
  case_sensitive o = true -> use_regex o = false ->
  exists r, find_text g d query o from backward = Ok r
   /\ (if backward then last_before else next_from) (hits g o (plain its) query) (Z.to_nat from) (option_map fst r)
   /\ (forall m, r = Some m -> snd m = length query).
Proof.
  intros R E Hc Hr. unfold find_text, full_text. rewrite (export_items _ _ R E). cbn [bind].
  destruct (find_matches_exact g (plain its) query o Hc Hr) as (ms & -> & Rp). cbn [bind].
  replace (Z.to_nat (Z.max from 0)) with (Z.to_nat from) by lia.
  eexists. split; [reflexivity|]. destruct backward.
  - exact (find_last _ _ _ _ Rp).
  - exact (find_first _ _ _ _ Rp).
Qed.

(** ** Regular expressions *)

Lemma covers_fun text p n p' n' x : covers text p n x -> covers text p' n' x -> p = p' /\ n = n'.
Proof.
  intros (a & m & b & E & -> & -> & ->) (a' & m' & b' & E' & X & -> & ->). injection X as X1 X2.
  assert (P : forall (u v u' v' : str), text = u ++ v -> text = u' ++ v' -> blen u = blen u' -> u = u').
  { intros u v u' v' -> H. clear - H. revert u' H. induction u as [|c u IH]; intros [|c' u'] H L; cbn in *.
    - easy.
    - pose proof (utf8_len_pos c'). lia.
    - pose proof (utf8_len_pos c). lia.
    - injection H as -> H. f_equal. apply (IH _ H). lia. }
  assert (a = a') as -> by (eapply P; eauto).
  assert (a' ++ m = a' ++ m') as H.
  { eapply P; [rewrite <- app_assoc; exact E|rewrite <- app_assoc; exact E'|]. rewrite !blen_app. lia. }
  apply app_inv_head in H. subst. easy.
Qed.

Lemma regex_all wb text l : Forall (fun x => exists p n, covers text p n x) l ->
  exists ms, regex_matches wb text l = Ok ms
   /\ (forall p n, In (p, n) ms <-> (exists x, In x l /\ covers text p n x) /\ wb p = true /\ wb (p + n) = true)
   /\ ((forall k, wb k = true) -> Forall2 (fun m x => covers text (fst m) (snd m) x) ms l).
Proof.
  induction l as [|x l IH]; intros H; cbn [regex_matches].
  - exists []. split; [easy|]. split; [|constructor]. intros p n. cbn. split; [easy|]. intros ((x & Hx & _) & _). easy.
  - inversion H as [|? ? (p0 & n0 & C0) H2]; subst. destruct (IH H2) as (ms & -> & M & F).
    pose proof C0 as (a & m & b & E & -> & -> & ->). subst text. rewrite regex_match_spec. cbn [bind].
    eexists. split; [reflexivity|]. split.
    + intros p n. rewrite in_app_iff, M. split.
      * intros [Hi|((x & Hx & Cx) & Hw)].
        -- destruct (wb (length a) && wb (length a + length m)) eqn:B; [|easy]. destruct Hi as [Hi|[]]. injection Hi as <- <-.
           apply andb_true_iff in B. split; [|easy]. eexists. split; [now left|exact C0].
        -- split; [|easy]. exists x. split; [now right|easy].
      * intros ((x & [Hx|Hx] & Cx) & Hw1 & Hw2).
        -- subst x. destruct (covers_fun _ _ _ _ _ _ C0 Cx) as [<- <-]. left. rewrite Hw1, Hw2. now left.
        -- right. split; [|easy]. now exists x.
    + intros Hall. rewrite !Hall. constructor; [exact C0|auto].
Qed.

Lemma find_regex_theorem g d its query o l : reach d -> doc_items d = Ok its ->
  query <> [] -> use_regex o = true -> rx g query (negb (case_sensitive o)) (plain its) = Some l ->
  Forall (fun x => exists p n, covers (plain its) p n x) l ->
  exists ms, find_all g d query o = Ok ms
   /\ (forall p n, In (p, n) ms <-> (exists x, In x l /\ covers (plain its) p n x)
         /\ (whole_word o = true -> at_word_edge (words g) (plain its) p /\ at_word_edge (words g) (plain its) (p + n)))
   /\ (whole_word o = false -> Forall2 (fun m x => covers (plain its) (fst m) (snd m) x) ms l).
Proof.
  intros R E Hq Hr Hx Hl. unfold find_all, full_text. rewrite (export_items _ _ R E). cbn [bind].
  unfold find_all_matches. rewrite Hr, Hx. destruct query as [|c query]; [easy|].
  set (wb := if whole_word o then _ else _). destruct (regex_all wb (plain its) l Hl) as (ms & E1 & M & F).
  exists ms. split; [exact E1|]. split.
  - intros p n. rewrite M. unfold wb. destruct (whole_word o).
    + rewrite !word_boundary_spec. tauto.
    + intuition easy.
  - intros Hw. apply F. intros k. unfold wb. now rewrite Hw.
Qed.

(** ** Ignoring case *)

Lemma occurs_map lc q text p : occurs (map lc q) (map lc text) p <-> exists w, occurs w text p /\ map lc w = map lc q.
Proof.
  split.
  - intros H. apply occurs_slice in H. rewrite !map_length in H. destruct H as [H1 H2].
    rewrite skipn_map, firstn_map in H2.
    exists (firstn (length q) (skipn p text)). split; [|exact H2]. apply occurs_slice.
    assert (L : length (firstn (length q) (skipn p text)) = length q) by (rewrite firstn_length, skipn_length; lia).
    rewrite L. now split.
  - intros (w & (l & r & -> & <-) & E). exists (map lc l), (map lc r). rewrite !map_app, E, map_length. easy.
Qed.

Lemma find_folded_theorem g d its query o lc : reach d -> doc_items d = Ok its ->
  case_sensitive o = false -> use_regex o = false ->
  lower g (plain its) = map lc (plain its) -> lower g query = map lc query ->
  exists ms, find_all g d query o = Ok ms /\ reports (hits_folded g o lc (plain its) query) (length query) ms.
Proof.
  intros R E Hc Hr L1 L2. unfold find_all, full_text. rewrite (export_items _ _ R E). cbn [bind].
  destruct (find_literal_all g (plain its) query o Hr) as (ms & E1 & Rp). exists ms. split; [easy|].
  rewrite Hc, L2, map_length in Rp. eapply reports_iff; [|exact Rp]. intros p. unfold found, hits_folded.
  rewrite Hc, L1, L2, occurs_map, map_length. split; [tauto|]. intros (H1 & H2). split; [easy|]. split; [|easy].
  destruct query; easy.
Qed.

(** ** Replacing *)

Lemma plain_app2 a b : plain (a ++ b) = plain a ++ plain b.
Proof. apply map_app. Qed.
Lemma plain_replaced p n r its : p + n <= length its ->
  plain (spec_insert p r (spec_delete p (p + n) its)) = firstn p (plain its) ++ r ++ skipn (p + n) (plain its).
Proof.
  intros H. unfold spec_insert, spec_delete.
  assert (L : length (firstn p its) = p) by (rewrite firstn_length; lia).
  rewrite (firstn_exact _ _ _ L), (skipn_exact _ _ _ L). unfold plain. rewrite !map_app, map_map, firstn_map, skipn_map.
  do 2 f_equal. rewrite <- (map_id r) at 2. now apply map_ext.
Qed.

Lemma rewrite_spec r : forall ms from its, apart from ms -> Forall (fun m => fst m + snd m <= length its) ms ->
  from <= length its ->
  plain (spec_replace r ms its) = firstn from (plain its) ++ rewrite r from ms (skipn from (plain its)).
Proof.
  induction ms as [|[p n] ms IH]; intros from its A H Hf; cbn [spec_replace fold_right rewrite fst snd].
  - now rewrite firstn_skipn.
  - destruct A as (A1 & A2 & A3). inversion H as [|? ? Hpn H']; subst. cbn [fst snd] in Hpn.
    specialize (IH (p + n) its A3 H' Hpn). fold (spec_replace r ms its).
    set (X := spec_replace r ms its) in *.
    assert (Lt : length (plain its) = length its) by apply map_length.
    assert (Lx : p + n <= length X).
    { rewrite <- (map_length item_char X). fold (plain X). rewrite IH, app_length, firstn_length, Lt. lia. }
    rewrite plain_replaced by easy. rewrite IH.
    assert (L : length (firstn (p + n) (plain its)) = p + n) by (rewrite firstn_length, Lt; lia).
    rewrite firstn_app, L. replace (p - (p + n)) with 0 by lia. rewrite firstn_O, app_nil_r.
    rewrite firstn_firstn, Nat.min_l by lia. rewrite (skipn_exact _ _ _ L), skipn_skipn.
    replace (from + (p - from + n)) with (p + n) by lia. rewrite (app_assoc (firstn from _)). f_equal.
    assert (Lf : length (firstn from (plain its)) = from) by (rewrite firstn_length, Lt; lia).
    rewrite <- (firstn_skipn from (plain its)) at 1. rewrite firstn_app, Lf, firstn_all2 by (rewrite Lf; lia). reflexivity.
Qed.

Lemma replace_theorem d its ms (all : bool) r : reach d -> fresh_positions d -> doc_items d = Ok its -> good_ranges its ms ->
  let inside := filter (in_paragraph its) ms in
  let done := if all then inside else firstn 1 inside in
  exists d', replace_matches d ms all r
     = Ok (d', Z.of_nat (length done), (Z.of_nat (length ms) - Z.of_nat (length inside))%Z)
   /\ reach d' /\ fresh_positions d'
   /\ doc_items d' = Ok (spec_replace r done its)
   /\ export_plain_text d' = Ok (rewrite r 0 done (plain its))
   /\ para_attrs d' = para_attrs d
   /\ (d_chars d' - d_chars d = Z.of_nat (count_chars (spec_replace r done its)) - Z.of_nat (count_chars its))%Z.
Proof.
  intros R F E [A H] inside done. destruct (reach_wf _ R) as [ps W]. pose proof E as E0.
  rewrite (doc_items_wf _ _ W) in E. injection E as E. pose proof F as F0. apply (fresh_equiv _ _ W) in F.
  assert (H' : Forall (fun m => fst m + snd m <= ctotal ps) ms) by (rewrite <- (items_length (d_runs d) ps), E; exact H).
  destruct (matches_exact _ _ ms all r W F A H') as (d' & ps' & E1 & W1 & F1 & I1 & P1 & _ & _ & C1 & _).
  rewrite E in E1, I1. fold inside in E1, I1. fold done in E1, I1.
  exists d'. split; [exact E1|].
  assert (R' : reach d') by (eapply reach_matches; eauto).
  assert (Ei : doc_items d' = Ok (spec_replace r done its)) by (rewrite (doc_items_wf _ _ W1), I1; easy).
  split; [easy|]. split; [now apply (fresh_equiv _ _ W1)|]. split; [easy|]. split.
  - rewrite (export_items _ _ R' Ei). f_equal. pose proof (rewrite_spec r done 0 its) as Q.
    rewrite firstn_O in Q. cbn [app skipn] in Q. apply Q; [| |lia].
    + assert (Ai : forall (l : list (nat * nat)) from, apart from l -> apart from (filter (in_paragraph its) l)).
      { assert (Mono : forall (l : list (nat * nat)) from from', from <= from' -> apart from' l -> apart from l).
        { intros [|[p n] l] f f' Hf; cbn; [easy|]. intuition lia. }
        induction l as [|[p n] l IH]; intros from Hl; cbn [filter]; [easy|]. destruct Hl as (H1 & H2 & H3).
        destruct (in_paragraph _ _); cbn; [auto|]. apply (Mono _ _ (p + n)); [lia|auto]. }
      specialize (Ai ms 0 A). fold inside in Ai. unfold done. destruct all; [easy|].
      destruct inside as [|[p n] l]; cbn in *; [easy|]. intuition.
    + assert (Hi : Forall (fun m => fst m + snd m <= length its) inside).
      { rewrite Forall_forall in *. intros m Hm. apply filter_In in Hm. now apply H. }
      unfold done. destruct all; [easy|]. destruct Hi; cbn; auto.
  - split; [easy|]. rewrite <- I1, <- E.
    destruct (count_items (d_runs d') ps' (wf_ne _ _ W1)) as [-> _].
    destruct (count_items (d_runs d) ps (wf_ne _ _ W)) as [-> _]. lia.
Qed.

(** Through the search. *)
Lemma replace_text_theorem g d its query o ms (all : bool) r : reach d -> fresh_positions d -> doc_items d = Ok its ->
  find_all g d query o = Ok ms -> good_ranges its ms ->
  let inside := filter (in_paragraph its) ms in
  let done := if all then inside else firstn 1 inside in
  exists d', replace_text g d query r o all
     = Ok (d', Z.of_nat (length done), (Z.of_nat (length ms) - Z.of_nat (length inside))%Z)
   /\ reach d' /\ fresh_positions d'
   /\ doc_items d' = Ok (spec_replace r done its)
   /\ export_plain_text d' = Ok (rewrite r 0 done (plain its))
   /\ para_attrs d' = para_attrs d
   /\ (d_chars d' - d_chars d = Z.of_nat (count_chars (spec_replace r done its)) - Z.of_nat (count_chars its))%Z.
Proof.
  intros R F E Ef G. unfold replace_text. unfold find_all in Ef.
  destruct (full_text d) as [text| |]; cbn [bind] in *; try easy. rewrite Ef. cbn [bind].
  now apply replace_theorem.
Qed.

Lemma literal_good g d its query o ms : reach d -> doc_items d = Ok its ->
  case_sensitive o = true -> use_regex o = false -> never_overlaps query (plain its) ->
  find_all g d query o = Ok ms -> good_ranges its ms.
Proof.
  intros R E Hc Hr Hn Ef. destruct (find_all_theorem g d its query o R E Hc Hr) as (ms' & E' & I & M & L).
  rewrite E' in Ef. injection Ef as ->.
  assert (Hh : forall m, In m ms -> query <> [] /\ occurs query (plain its) (fst m)).
  { intros m Hm. apply (in_map fst) in Hm. apply M in Hm. unfold hits in Hm. tauto. }
  split.
  - assert (G : forall l from, (forall m, In m l -> In m ms) -> increasing (map fst l) ->
       (forall m, In m l -> from <= fst m) -> apart from l).
    { induction l as [|[p n] l IH]; intros from Hs Hi Hf; [exact Logic.I|]. cbn [map fst] in Hi.
      inversion Hi as [|? ? H1 H2]; subst. pose proof (Hs (p, n) (or_introl eq_refl)) as Hm.
      pose proof (L _ Hm) as Hl. cbn in Hl. subst n. destruct (Hh _ Hm) as [Hq Ho]. cbn [fst] in Ho. cbn [apart].
      split; [apply (Hf _ (or_introl eq_refl))|]. split; [destruct query; [easy|cbn; lia]|].
      apply IH; [intros m H; apply Hs; now right|easy|].
      intros m Hm'. apply Hn; [easy|apply Hh, Hs; now right|]. apply H1. now apply in_map. }
    apply G; [easy|easy|intros; lia].
  - rewrite Forall_forall. intros m Hm. destruct (Hh _ Hm) as [_ Ho]. rewrite (L _ Hm).
    apply occurs_slice in Ho. unfold plain in Ho. rewrite map_length in Ho. easy.
Qed.

Lemma replace_literal_theorem g d its query o (all : bool) r : reach d -> fresh_positions d -> doc_items d = Ok its ->
  case_sensitive o = true -> use_regex o = false -> never_overlaps query (plain its) ->
  exists d' ms, let inside := filter (in_paragraph its) ms in
   let done := if all then inside else firstn 1 inside in
   reports (hits g o (plain its) query) (length query) ms
   /\ replace_text g d query r o all
      = Ok (d', Z.of_nat (length done), (Z.of_nat (length ms) - Z.of_nat (length inside))%Z)
   /\ fresh_positions d' /\ para_attrs d' = para_attrs d
   /\ doc_items d' = Ok (spec_replace r done its)
   /\ export_plain_text d' = Ok (rewrite r 0 done (plain its)).
Proof.
  intros R F E Hc Hr Hn. destruct (find_all_theorem g d its query o R E Hc Hr) as (ms & E' & Rp).
  destruct (replace_text_theorem g d its query o ms all r R F E E' (literal_good _ _ _ _ _ _ R E Hc Hr Hn E'))
    as (d' & H1 & _ & H2 & H3 & H4 & H5 & _).
  exists d', ms. cbn zeta. repeat (split; [assumption|]). assumption.
Qed.

(** Whatever the query and the state of the stored positions. *)
Lemma replace_total_theorem g d query o all r ms : reach d -> find_all g d query o = Ok ms ->
  exists d' n s, replace_text g d query r o all = Ok (d', n, s) /\ reach d' /\ para_attrs d' = para_attrs d
   /\ (0 <= n)%Z /\ (0 <= s)%Z /\ (n + s <= Z.of_nat (length ms))%Z
   /\ (all = true -> (n + s = Z.of_nat (length ms))%Z).
Proof.
  intros R E. destruct (reach_wf _ R) as [ps W]. unfold replace_text. unfold find_all in E.
  destruct (full_text d) as [text| |]; cbn [bind] in *; try easy. rewrite E. cbn [bind].
  destruct (op_matches _ _ ms all r W) as (d' & n & s & ps' & E1 & W1 & _ & P & _ & _ & H).
  exists d', n, s. split; [easy|]. split; [eapply reach_matches; eauto|]. split; [easy|]. exact H.
Qed.

(** ** Failures *)

(** Latin capital I with a dot above becomes two characters in lower case. *)
Definition dotted : doc := import_plain_text new_document [304; 97]%N.

Lemma find_folded_fails g : lower g [304; 97]%N = [105; 775; 97]%N -> lower g [97]%N = [97]%N ->
  reach dotted /\ export_plain_text dotted = Ok [304; 97]%N
  /\ find_all g dotted [97]%N fold_find = Ok [(2, 1)].
Proof.
  intros H1 H2. split; [repeat constructor|]. split; [vm_compute; reflexivity|].
  assert (E : full_text dotted = Ok [304; 97]%N) by (vm_compute; reflexivity).
  unfold find_all. rewrite E. cbn [bind find_all_matches fold_find use_regex whole_word case_sensitive].
  unfold find_literal. rewrite H1, H2. vm_compute. reflexivity.
Qed.

Definition aaa : doc := import_plain_text new_document [97; 97; 97]%N.
Definition shifted : doc :=
  match insert_text_simple two_paras 0 [120]%N with Ok (d, _, _) => d | _ => two_paras end.

Lemma replace_overlap_fails : exists d', replace_text no_engines aaa [97; 97]%N [120; 121; 122]%N plain_find true = Ok (d', 2%Z, 0%Z)
  /\ export_plain_text d' = Ok [120; 121; 122; 121; 122]%N
  /\ forall ms, apart 0 ms -> (forall m, In m ms -> snd m = 2 /\ fst m + 2 <= 3) ->
       rewrite [120; 121; 122]%N 0 ms [97; 97; 97]%N <> [120; 121; 122; 121; 122]%N.
Proof.
  eexists. split; [vm_compute; reflexivity|]. split; [vm_compute; reflexivity|].
  intros ms A H. destruct ms as [|[p n] ms]; [easy|].
  destruct (H _ (or_introl eq_refl)) as [Hn Hp]. cbn [fst snd] in Hn, Hp. subst n. destruct A as (_ & _ & A).
  destruct ms as [|[p' n'] ms].
  - assert (p = 0 \/ p = 1) as [-> | ->] by lia; easy.
  - destruct (H _ (or_intror (or_introl eq_refl))) as [_ Hp']. cbn [fst snd] in Hp'. destruct A as (A & _). lia.
Qed.

Lemma shifted_reach : reach shifted.
Proof. apply (reach_insert two_paras 0 [120]%N shifted 1 (mk_su 2%N (mk_block 2%N 0 None bfmt_default) [] [] 4 0 1) two_paras_reach). vm_compute. reflexivity. Qed.

Lemma replace_stale_fails : exists d d', reach d /\ export_plain_text d = Ok [120; 97; 98; 10; 99; 100]%N
  /\ replace_text no_engines d [99]%N [122]%N plain_find true = Ok (d', 1%Z, 0%Z)
  /\ export_plain_text d' = Ok [120; 97; 98; 10; 99; 122]%N.
Proof.
  exists shifted. eexists. split; [exact shifted_reach|].
  split; [vm_compute; reflexivity|]. split; vm_compute; reflexivity.
Qed.
