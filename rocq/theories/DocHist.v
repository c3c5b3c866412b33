(** Cursor edits and histories of them. *)
From Verif Require Import Base BaseFacts FormatRunsModel FormatRunsSpec FormatRunsFacts
  RopeModel RopeSpec RopeFacts DocModel DocSpec BlockFacts DocInv DocFacts DocAttr DocDelete DocBreak DocReplace
  DocImport DocFormat HistModel HistSpec DocReach.

Lemma clip_lo its p a : clip its (Z.min (Z.of_nat p) (Z.of_nat a)) = lo its p a.
Proof. unfold clip, lo. lia. Qed.
Lemma clip_hi its p a : clip its (Z.max (Z.of_nat p) (Z.of_nat a)) = hi its p a.
Proof. unfold clip, hi. lia. Qed.
Lemma clip_nat its p : clip its (Z.of_nat p) = Nat.min p (length its).
Proof. unfold clip. lia. Qed.

Lemma lo_same its p : lo its p p = Nat.min p (length its).
Proof. unfold lo. now rewrite Nat.min_id. Qed.
Lemma hi_same its p : hi its p p = Nat.min p (length its).
Proof. unfold hi. now rewrite Nat.max_id. Qed.
Lemma spec_delete_none s its : spec_delete s s its = its.
Proof. apply firstn_skipn. Qed.

Lemma after_delete its p a : Nat.min (Nat.min p a) (length (spec_delete (lo its p a) (hi its p a) its)) = lo its p a.
Proof. unfold spec_delete. rewrite app_length, firstn_length, skipn_length. unfold lo, hi. lia. Qed.

Lemma to_usize_nat n : to_usize (Z.of_nat n) = Ok n.
Proof. unfold to_usize. rewrite (proj2 (Z.leb_le _ _) (Nat2Z.is_nonneg n)). now rewrite Nat2Z.id. Qed.

(** The part of the state the counters describe. *)
Definition drift (d : doc) (ps : list para) : Z * Z :=
  ((d_chars d - Z.of_nat (csum ps))%Z, (d_nblocks d - Z.of_nat (length ps))%Z).

Lemma edit_full d ps e : wf d ps -> edit_ok e ->
  let its := items_of (d_runs d) ps in
  exists d' ps', run_edit d e = Ok (d', edit_cursor e its) /\ wf d' ps'
   /\ items_of (d_runs d') ps' = spec_edit e its
   /\ (snd (edit_range e) <= length its -> drift d' ps' = drift d ps)
   /\ (d_next d <= d_next d')%N.
Proof.
  intros W Hok its. destruct e as [p a text|p a text x|p a|p a]; cbn [run_edit edit_cursor spec_edit edit_range fst snd].
  - unfold cursor_insert_text, insert_text. destruct (Nat.eqb_spec p a) as [<-|Hpa].
    + rewrite Z.eqb_refl. destruct (op_insert _ _ (Z.of_nat p) text W) as (d' & u & ps' & E & W' & I & _ & C1 & C2 & C3).
      fold its in E, I. rewrite clip_nat in E, I. rewrite E. cbn [bind]. rewrite to_usize_nat. cbn [bind].
      rewrite lo_same, hi_same, spec_delete_none. exists d', ps'. repeat (split; [easy|]).
      split; [intros _; unfold drift; now rewrite C1, C2|lia].
    + rewrite (proj2 (Z.eqb_neq _ _)) by lia.
      destruct (op_replace _ _ (Z.of_nat p) (Z.of_nat a) text W) as [E0|(d' & ps' & E & W' & I & _ & C1 & C2 & C3 & _)].
      * rewrite E0. destruct (op_delete _ _ (Z.of_nat p) (Z.of_nat a) W) as (d1 & ps1 & E1 & W1 & I1 & _ & C1 & C2 & C3).
        fold its in E1, I1, C1. rewrite clip_lo, clip_hi in I1. rewrite E1. cbn [bind].
        rewrite <- Nat2Z.inj_min, to_usize_nat. cbn [bind]. rewrite Z.eqb_refl.
        destruct (op_insert _ _ (Z.of_nat (Nat.min p a)) text W1) as (d' & u & ps' & E & W' & I & _ & D1 & D2 & D3).
        rewrite I1 in E, I. rewrite clip_nat, after_delete in E, I. rewrite E. cbn [bind]. rewrite to_usize_nat. cbn [bind].
        exists d', ps'. repeat (split; [easy|]). split; [|lia]. intros Hr. unfold drift. rewrite D1, D2, C1, C2 by lia. easy.
      * fold its in E, I. rewrite clip_lo in E, I. rewrite clip_hi in I. rewrite E, to_usize_nat. cbn [bind].
        exists d', ps'. repeat (split; [easy|]). split; [|lia]. intros _. unfold drift. now rewrite C1, C2.
  - cbn in Hok. unfold cursor_insert_formatted, insert_formatted_text. set (f := ins_to_cfmt x).
    destruct (Nat.eqb_spec p a) as [<-|Hpa].
    + rewrite Z.eqb_refl. destruct (op_insert_fmt _ _ (Z.of_nat p) text f W ltac:(lia) Hok) as (d' & u & ps' & E & W' & I & _ & C1 & C2 & C3).
      fold its in I. rewrite clip_nat in I. rewrite E. cbn [bind]. rewrite <- Nat2Z.inj_add, to_usize_nat. cbn [bind].
      rewrite lo_same, hi_same, spec_delete_none, Nat.min_id. exists d', ps'. repeat (split; [easy|]).
      split; [intros _; unfold drift; now rewrite C1, C2|lia].
    + rewrite (proj2 (Z.eqb_neq _ _)) by lia.
      destruct (op_replace_fmt _ _ (Z.of_nat p) (Z.of_nat a) text f W ltac:(lia) Hok) as [E0|(d' & ps' & E & W' & I & _ & C1 & C2 & C3)].
      * rewrite E0. destruct (op_delete _ _ (Z.of_nat p) (Z.of_nat a) W) as (d1 & ps1 & E1 & W1 & I1 & _ & C1 & C2 & C3).
        fold its in E1, I1, C1. rewrite clip_lo, clip_hi in I1. rewrite E1. cbn [bind].
        rewrite <- Nat2Z.inj_min, to_usize_nat. cbn [bind]. rewrite Z.eqb_refl.
        destruct (op_insert_fmt _ _ (Z.of_nat (Nat.min p a)) text f W1 ltac:(lia) Hok) as (d' & u & ps' & E & W' & I & _ & D1 & D2 & D3).
        rewrite I1 in I. rewrite clip_nat, after_delete in I. rewrite E. cbn [bind].
        rewrite <- Nat2Z.inj_add, to_usize_nat. cbn [bind].
        exists d', ps'. repeat (split; [easy|]). split; [|lia]. intros Hr. unfold drift. rewrite D1, D2, C1, C2 by lia. easy.
      * fold its in I. rewrite clip_lo, clip_hi in I. rewrite E, <- Nat2Z.inj_min, <- Nat2Z.inj_add, to_usize_nat. cbn [bind].
        exists d', ps'. repeat (split; [easy|]). split; [|lia]. intros _. unfold drift. now rewrite C1, C2.
  - unfold cursor_insert_block. destruct (Nat.eqb_spec p a) as [<-|Hpa].
    + cbn [bind]. destruct (op_break _ _ (Z.of_nat p) W) as (d' & ps' & E & W' & I & _ & C1 & C2 & C3).
      fold its in E, I. rewrite clip_nat in E, I. rewrite E. cbn [bind]. rewrite to_usize_nat. cbn [bind].
      rewrite lo_same, hi_same, spec_delete_none. exists d', ps'. repeat (split; [easy|]).
      split; [intros _; unfold drift; now rewrite C1, C2|lia].
    + destruct (op_delete _ _ (Z.of_nat p) (Z.of_nat a) W) as (d1 & ps1 & E1 & W1 & I1 & _ & C1 & C2 & C3).
      fold its in E1, I1, C1. rewrite clip_lo, clip_hi in I1. rewrite E1. cbn [bind].
      rewrite <- Nat2Z.inj_min, to_usize_nat. cbn [bind].
      destruct (op_break _ _ (Z.of_nat (Nat.min p a)) W1) as (d' & ps' & E & W' & I & _ & D1 & D2 & D3).
      rewrite I1 in E, I. rewrite clip_nat, after_delete in E, I. rewrite E. cbn [bind]. rewrite to_usize_nat. cbn [bind].
      exists d', ps'. repeat (split; [easy|]). split; [|lia]. intros Hr. unfold drift. rewrite D1, D2, C1, C2 by lia. easy.
  - unfold cursor_remove_selected. destruct (Nat.eqb_spec p a) as [<-|Hpa].
    + cbn [bind]. rewrite lo_same, hi_same, spec_delete_none, Nat.min_id. exists d, ps. repeat (split; [easy|]). lia.
    + destruct (op_delete _ _ (Z.of_nat p) (Z.of_nat a) W) as (d1 & ps1 & E1 & W1 & I1 & _ & C1 & C2 & C3).
      fold its in E1, I1, C1. rewrite clip_lo, clip_hi in I1. rewrite E1. cbn [bind].
      rewrite <- Nat2Z.inj_min, to_usize_nat. cbn [bind]. exists d1, ps1. repeat (split; [easy|]).
      split; [|lia]. intros Hr. unfold drift. now rewrite C1, C2 by lia.
Qed.

Lemma firstn_min {A} n (l : list A) : firstn (Nat.min n (length l)) l = firstn n l.
Proof. destruct (Nat.le_ge_cases n (length l)); [now rewrite Nat.min_l|]. rewrite Nat.min_r by easy. now rewrite firstn_all, firstn_all2. Qed.
Lemma skipn_min {A} n (l : list A) : skipn (Nat.min n (length l)) l = skipn n l.
Proof. destruct (Nat.le_ge_cases n (length l)); [now rewrite Nat.min_l|]. rewrite Nat.min_r by easy. now rewrite skipn_all, skipn_all2. Qed.

Lemma delete_cut its p a : let s := lo its p a in
  firstn s (spec_delete s (hi its p a) its) = firstn (Nat.min p a) its
  /\ skipn s (spec_delete s (hi its p a) its) = skipn (Nat.max p a) its.
Proof.
  intros s. unfold spec_delete. assert (L : length (firstn s its) = s) by (rewrite firstn_length; unfold s, lo; lia).
  split.
  - rewrite firstn_exact by easy. unfold s, lo. apply firstn_min.
  - rewrite skipn_exact by easy. unfold hi. apply skipn_min.
Qed.

Lemma plain_firstn n its : plain (firstn n its) = firstn n (plain its).
Proof. symmetry. apply firstn_map. Qed.
Lemma plain_skipn n its : plain (skipn n its) = skipn n (plain its).
Proof. unfold plain. revert its. induction n; intros [|x its]; cbn; auto. Qed.
Lemma plain_chars f text : plain (map (fun c => Chr c f) text) = text.
Proof. unfold plain. rewrite map_map. apply map_id. Qed.

Lemma plain_edit e its : plain (spec_edit e its) = string_edit (plain its) e.
Proof.
  unfold string_edit, splice. destruct e as [p a text|p a text x|p a|p a]; cbn [spec_edit edit_range edit_text fst snd];
    destruct (delete_cut its p a) as [H1 H2].
  - unfold spec_insert. rewrite H1, H2, !plain_app, plain_chars, plain_firstn, plain_skipn. easy.
  - unfold spec_insert_fmt. rewrite H1, H2, !plain_app, plain_chars, plain_firstn, plain_skipn. easy.
  - unfold spec_break. rewrite H1, H2, plain_app. cbn. now rewrite plain_firstn, plain_skipn.
  - unfold spec_delete. rewrite plain_app, plain_firstn, plain_skipn. unfold lo, hi.
    cbn [app]. replace (length its) with (length (plain its)) by apply map_length. now rewrite firstn_min, skipn_min.
Qed.

Lemma edits_full es : forall d ps, wf d ps -> Forall edit_ok es ->
  exists d' ps', run_edits d es = Ok d' /\ wf d' ps'
   /\ items_of (d_runs d') ps' = fold_left (fun its e => spec_edit e its) es (items_of (d_runs d) ps)
   /\ (d_next d <= d_next d')%N.
Proof.
  induction es as [|e es IH]; intros d ps W F; cbn.
  - exists d, ps. repeat (split; [easy|]). lia.
  - inversion F as [|? ? He Hes]; subst. destruct (edit_full _ _ _ W He) as (d1 & ps1 & E & W1 & I & _ & N).
    rewrite E. cbn. destruct (IH _ _ W1 Hes) as (d' & ps' & E' & W' & I' & N'). exists d', ps'. rewrite E', I', I.
    repeat (split; [easy|]). lia.
Qed.

Lemma fold_plain es : forall its, plain (fold_left (fun its e => spec_edit e its) es its) = fold_left string_edit es (plain its).
Proof. induction es as [|e es IH]; intros its; cbn; [easy|]. now rewrite IH, plain_edit. Qed.
