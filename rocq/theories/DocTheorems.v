(** The facts about flat documents, in the form the properties state them. *)
From Verif Require Import Base BaseFacts FormatRunsModel FormatRunsSpec FormatRunsFacts
  RopeModel RopeSpec RopeFacts DocModel DocSpec BlockFacts DocInv DocFacts DocAttr DocDelete DocBreak DocReplace
  DocImport DocFormat HistModel HistSpec DocReach DocHist DocQuery DocFresh QueryModel QuerySpec QueryFacts QueryText PropSpec.
From Coq Require Import Permutation.

Lemma reach_items d : reach d -> exists ps, wf d ps /\ doc_items d = Ok (items_of (d_runs d) ps).
Proof. intros H. destruct (reach_wf _ H) as [ps W]. exists ps. split; [easy|]. now apply doc_items_wf. Qed.

Lemma reach_its d its : reach d -> doc_items d = Ok its -> exists ps, wf d ps /\ its = items_of (d_runs d) ps.
Proof. intros H E. destruct (reach_items _ H) as (ps & W & E'). exists ps. split; [easy|]. congruence. Qed.

Lemma reach_readable d : reach d -> exists its, doc_items d = Ok its /\ export_plain_text d = Ok (plain its).
Proof.
  intros R. destruct (reach_items _ R) as (ps & W & E). exists (items_of (d_runs d) ps). split; [easy|].
  now apply export_items.
Qed.

(** ** Import *)

Lemma unify_true s : match s with c :: _ => N.eqb c NL = false | [] => True end -> unify true s = unify false s.
Proof. destruct s as [|c s]; [easy|]. intros E. cbn [unify]. now rewrite E. Qed.

Lemma unify_normalize s : unify false s = normalize s.
Proof.
  unfold normalize. remember (length s) as n eqn:Hn. revert s Hn.
  induction n as [n IH] using lt_wf_ind. intros s Hn. destruct s as [|c [|e s]].
  - easy.
  - cbn [unify replace_crlf replace_cr map]. destruct (N.eqb c CR); [easy|]. now rewrite andb_false_r.
  - cbn [length] in Hn. change (replace_crlf (c :: e :: s)) with
      (if (N.eqb c CR && N.eqb e NL)%bool then NL :: replace_crlf s else c :: replace_crlf (e :: s)).
    change (unify false (c :: e :: s)) with
      (if N.eqb c CR then NL :: unify true (e :: s)
       else if N.eqb c NL && false then unify false (e :: s) else c :: unify false (e :: s)).
    rewrite andb_false_r. destruct (N.eqb c CR) eqn:Ec; cbn [andb].
    + destruct (N.eqb e NL) eqn:Ee.
      * apply N.eqb_eq in Ee. subst e.
        change (unify true (NL :: s)) with (unify false s).
        change (replace_cr (NL :: replace_crlf s)) with (NL :: replace_cr (replace_crlf s)). f_equal. apply (IH (length s)); [lia|easy].
      * rewrite unify_true by easy. change (replace_cr (c :: replace_crlf (e :: s)))
          with ((if N.eqb c CR then NL else c) :: replace_cr (replace_crlf (e :: s))). rewrite Ec. f_equal.
        apply (IH (length (e :: s))); [cbn; lia|easy].
    + change (replace_cr (c :: replace_crlf (e :: s)))
        with ((if N.eqb c CR then NL else c) :: replace_cr (replace_crlf (e :: s))). rewrite Ec. f_equal.
      apply (IH (length (e :: s))); [cbn; lia|easy].
Qed.

Lemma items_default R ps : (forall i, R i = []) -> Forall (fun l => ~ In NL l) (map snd ps) ->
  items_of R ps = text_items (join (map snd ps)).
Proof.
  intros HR. induction ps as [|[b t] ps IH]; intros F; [easy|]. inversion F as [|? ? Ht Hr]; subst. cbn [snd] in Ht.
  assert (S : styled t (R b) = text_items t).
  { rewrite HR. clear - Ht. unfold styled, text_items. generalize 0. induction t as [|c t IH]; intros o; [easy|]. cbn.
    destruct (N.eqb_spec c NL) as [->|Hc]; [destruct Ht; now left|]. f_equal. apply IH. intros H; apply Ht; now right. }
  destruct ps as [|q ps]; [easy|].
  change (items_of R ((b, t) :: q :: ps)) with (styled t (R b) ++ Brk :: items_of R (q :: ps)).
  rewrite IH by easy. change (join (map snd ((b, t) :: q :: ps))) with (t ++ NL :: join (map snd (q :: ps))).
  unfold text_items. rewrite map_app. cbn [map]. rewrite N.eqb_refl. now rewrite S.
Qed.

Lemma sum_csum ls : forall is_, length is_ = length ls -> sum_lengths ls = Z.of_nat (csum (combine is_ ls)).
Proof.
  induction ls as [|l ls IH]; intros [|i is_] H; try easy. cbn [combine]. rewrite csum_cons. cbn [sum_lengths fold_right].
  fold (sum_lengths ls). rewrite (IH is_) by (cbn in H; lia). lia.
Qed.

Lemma import_theorem d s : reach d ->
  let d' := import_plain_text d s in
  let t := unify false s in
  doc_items d' = Ok (text_items t) /\ export_plain_text d' = Ok t
  /\ character_count d' = Ok (count_chars (text_items t)) /\ block_count d' = Ok (count_paras (text_items t))
  /\ para_attrs d' = repeat (Some (None, bfmt_default)) (count_paras (text_items t)).
Proof.
  intros R d' t. destruct (reach_wf _ R) as [ps0 W0]. destruct (import_full _ _ s W0) as (W & F & Hr & A & C1 & C2 & C3).
  rewrite <- unify_normalize in *. fold t in W, F, A, C1, C2, C3. fold d' in W, F, Hr, A, C1, C2, C3.
  set (ls := split_lines t) in *. set (is_ := ids_from (d_next d) (length ls)) in *. set (ps := combine is_ ls) in *.
  assert (L : length is_ = length ls) by apply ids_from_length.
  assert (Sn : map snd ps = ls).
  { unfold ps. clear - L. clearbody is_ ls. revert ls L; induction is_ as [|i is_ IH]; intros [|l ls] L; cbn in *; try easy. f_equal. apply IH. lia. }
  assert (Lp : length ps = length ls) by (now rewrite <- (map_length snd), Sn).
  assert (I : items_of (d_runs d') ps = text_items t).
  { rewrite items_default; [|exact Hr|rewrite Sn; apply split_no_nl]. rewrite Sn. unfold ls. now rewrite split_join. }
  assert (E : doc_items d' = Ok (text_items t)) by (rewrite (doc_items_wf _ _ W), I; easy).
  destruct (count_items (d_runs d') ps (wf_ne _ _ W)) as [K1 K2]. rewrite I in K1, K2.
  split; [exact E|]. split; [rewrite (export_wf _ _ W), Sn; unfold ls; now rewrite split_join|].
  split; [|split].
  - unfold character_count. rewrite C1, (sum_csum ls is_ L), to_usize_nat. fold ps. now rewrite K1.
  - unfold block_count. rewrite C2, to_usize_nat, K2, Lp. easy.
  - rewrite A, K2, Lp. easy.
Qed.

(** ** Edits *)

Lemma insert_theorem d p text : reach d ->
  exists its d' u, doc_items d = Ok its
   /\ insert_text_simple d p text = Ok (d', Z.of_nat (clip its p + length text), u)
   /\ doc_items d' = Ok (spec_insert (clip its p) text its) /\ para_attrs d' = para_attrs d.
Proof.
  intros R. destruct (reach_items _ R) as (ps & W & E). destruct (op_insert _ _ p text W) as (d' & u & ps' & E' & W' & I & A & _).
  exists (items_of (d_runs d) ps), d', u. rewrite (doc_items_wf _ _ W'), I. auto.
Qed.

Lemma delete_theorem d p a : reach d ->
  exists its d', doc_items d = Ok its
   /\ let s := clip its (Z.min p a) in let e := clip its (Z.max p a) in
      delete_text d p a = Ok (d', Z.min p a, plain (firstn (e - s) (skipn s its)))
      /\ doc_items d' = Ok (spec_delete s e its)
      /\ ((p <> a)%Z -> para_attrs d' = firstn (S (breaks s its)) (para_attrs d) ++ skipn (S (breaks e its)) (para_attrs d)).
Proof.
  intros R. destruct (reach_items _ R) as (ps & W & E). destruct (op_delete _ _ p a W) as (d' & ps' & E' & W' & I & A & _).
  exists (items_of (d_runs d) ps), d'. split; [easy|]. cbv zeta. rewrite (doc_items_wf _ _ W'), I. auto.
Qed.

Lemma break_theorem d p : reach d ->
  exists its d', doc_items d = Ok its
   /\ insert_block d p = Ok (d', Z.of_nat (clip its p + 1), d_next d)
   /\ doc_items d' = Ok (spec_break (clip its p) its)
   /\ (let k := breaks (clip its p) its in para_attrs d' = firstn (S k) (para_attrs d) ++ skipn k (para_attrs d)).
Proof.
  intros R. destruct (reach_items _ R) as (ps & W & E). destruct (op_break _ _ p W) as (d' & ps' & E' & W' & I & A & _).
  exists (items_of (d_runs d) ps), d'. rewrite (doc_items_wf _ _ W'), I. auto.
Qed.

Lemma insert_fmt_theorem d p text f : reach d -> (0 <= p)%Z -> text <> [] ->
  exists its d' u, doc_items d = Ok its
   /\ insert_formatted_simple d p text f = Ok (d', (p + Z.of_nat (length text))%Z, u)
   /\ doc_items d' = Ok (spec_insert_fmt (clip its p) text f its) /\ para_attrs d' = para_attrs d.
Proof.
  intros R Hp Ht. destruct (reach_items _ R) as (ps & W & E).
  destruct (op_insert_fmt _ _ p text f W Hp Ht) as (d' & u & ps' & E' & W' & I & A & _).
  exists (items_of (d_runs d) ps), d', u. rewrite (doc_items_wf _ _ W'), I. auto.
Qed.

Lemma edit_theorem d e : reach d -> edit_ok e ->
  exists its d', doc_items d = Ok its /\ run_edit d e = Ok (d', edit_cursor e its)
   /\ doc_items d' = Ok (spec_edit e its).
Proof.
  intros R H. destruct (reach_items _ R) as (ps & W & E). destruct (edit_full _ _ _ W H) as (d' & ps' & E' & W' & I & _).
  exists (items_of (d_runs d) ps), d'. rewrite (doc_items_wf _ _ W'), I. auto.
Qed.

Lemma edits_theorem d es : reach d -> Forall edit_ok es ->
  exists its d', doc_items d = Ok its /\ run_edits d es = Ok d'
   /\ doc_items d' = Ok (fold_left (fun its e => spec_edit e its) es its)
   /\ export_plain_text d = Ok (plain its)
   /\ export_plain_text d' = Ok (fold_left string_edit es (plain its)).
Proof.
  intros R H. destruct (reach_items _ R) as (ps & W & E). destruct (edits_full es _ _ W H) as (d' & ps' & E' & W' & I & _).
  exists (items_of (d_runs d) ps), d'. split; [easy|]. split; [easy|]. rewrite (doc_items_wf _ _ W'), I. split; [easy|].
  rewrite (export_wf _ _ W), (export_wf _ _ W'), plain_items. split; [easy|].
  f_equal. rewrite <- (plain_items (d_runs d')), I, fold_plain, plain_items. easy.
Qed.

(** Items before and after the edited range. *)
Lemma nth_error_firstn_lt {A} (l : list A) : forall n k, k < n -> nth_error (firstn n l) k = nth_error l k.
Proof. induction l as [|x l IH]; intros [|n] [|k] H; cbn; try easy. apply IH. lia. Qed.
Lemma nth_error_skipn {A} n : forall (l : list A) k, nth_error (skipn n l) k = nth_error l (n + k).
Proof. induction n as [|n IH]; intros [|x l] k; cbn; try easy. now destruct k. Qed.

Lemma spec_edit_nth e its : 
  let s := Nat.min (fst (edit_range e)) (length its) in
  let e' := Nat.min (snd (edit_range e)) (length its) in
  (forall k, k < s -> nth_error (spec_edit e its) k = nth_error its k)
  /\ (forall k, e' <= k -> nth_error (spec_edit e its) (s + length (edit_text e) + (k - e')) = nth_error its k).
Proof.
  assert (Q : forall p a mid, let s := Nat.min (Nat.min p a) (length its) in let z := Nat.min (Nat.max p a) (length its) in
    let l := firstn (Nat.min p a) its ++ mid ++ skipn (Nat.max p a) its in
    (forall k, k < s -> nth_error l k = nth_error its k)
    /\ (forall k, z <= k -> nth_error l (s + length mid + (k - z)) = nth_error its k)).
  { intros p a mid s z l. unfold l.
    assert (L : length (firstn (Nat.min p a) its) = s) by (rewrite firstn_length; easy). split; intros k Hk.
    - rewrite nth_error_app1 by lia. apply nth_error_firstn_lt. unfold s in Hk. lia.
    - rewrite nth_error_app2 by lia. rewrite nth_error_app2 by lia. rewrite L, <- (skipn_min (Nat.max p a)). fold z.
      rewrite nth_error_skipn. f_equal. lia. }
  assert (M : forall text f, length (map (fun c => Chr c f) text) = length text) by (intros; apply map_length).
  destruct e as [p a text|p a text x|p a|p a]; cbn [spec_edit edit_range edit_text fst snd];
    destruct (delete_cut its p a) as [H1 H2].
  - unfold spec_insert. rewrite H1, H2. rewrite <- (M text (last_fmt (firstn (Nat.min p a) its))). apply Q.
  - unfold spec_insert_fmt. rewrite H1, H2. rewrite <- (M text (ins_to_cfmt x)). apply Q.
  - unfold spec_break. rewrite H1, H2. apply (Q p a [Brk]).
  - unfold spec_delete, lo, hi. rewrite firstn_min, skipn_min. apply (Q p a []).
Qed.

(** Typing into a document: characters before and after keep their formats, and
    the new ones get the format of the character before. *)
Lemma edit_formats_theorem d e : reach d -> edit_ok e ->
  exists its d' q its', doc_items d = Ok its /\ run_edit d e = Ok (d', q) /\ doc_items d' = Ok its'
   /\ let s := Nat.min (fst (edit_range e)) (length its) in
      let z := Nat.min (snd (edit_range e)) (length its) in
      (forall k, k < s -> nth_error its' k = nth_error its k)
      /\ (forall k, z <= k -> nth_error its' (s + length (edit_text e) + (k - z)) = nth_error its k)
      /\ (forall k c, nth_error (edit_text e) k = Some c ->
           nth_error its' (s + k) = Some (match e with
             | EInsert _ _ _ => Chr c (last_fmt (firstn s its))
             | EInsertFmt _ _ _ x => Chr c (ins_to_cfmt x)
             | _ => Brk end)).
Proof.
  intros R Ok_. destruct (edit_theorem d e R Ok_) as (its & d' & E & Er & E').
  exists its, d', (edit_cursor e its), (spec_edit e its). split; [easy|]. split; [easy|]. split; [easy|].
  destruct (spec_edit_nth e its) as [H1 H2]. cbv zeta in *. split; [exact H1|]. split; [exact H2|].
  assert (Q : forall p a (f : char -> item) (text : str) k c tl, nth_error text k = Some c ->
    nth_error (firstn (Nat.min p a) its ++ map f text ++ tl) (Nat.min (Nat.min p a) (length its) + k) = Some (f c)).
  { intros p a f text k c tl Hk. assert (L : length (firstn (Nat.min p a) its) = Nat.min (Nat.min p a) (length its)) by (now rewrite firstn_length).
    rewrite nth_error_app2 by lia. rewrite L. replace (_ + k - _) with k by lia.
    rewrite nth_error_app1 by (rewrite map_length; apply nth_error_Some; congruence). now rewrite nth_error_map, Hk. }
  intros k c Hk. destruct e as [p a text|p a text x|p a|p a]; cbn [spec_edit edit_range edit_text fst snd] in *;
    destruct (delete_cut its p a) as [K1 K2].
  - unfold spec_insert. rewrite K1, K2, firstn_min. now apply (Q p a (fun c => Chr c (last_fmt (firstn (Nat.min p a) its)))).
  - unfold spec_insert_fmt. rewrite K1, K2. now apply (Q p a (fun c => Chr c (ins_to_cfmt x))).
  - unfold spec_break. rewrite K1, K2. now apply (Q p a (fun _ => Brk) [NL] k c).
  - now destruct k.
Qed.
