(** What a highlighted document shows. *)
From Verif Require Import Base BaseFacts FormatRunsModel FormatRunsSpec RopeModel DocModel DocSpec HistModel HistSpec
  QueryModel QuerySpec QueryFacts PropSpec DocTheorems QueryTheorems DocRefuted
  HighlightModel HighlightSpec HighlightFacts HighlightRerun.

Lemma find_char_places t f e k : forall o, find (fun pl => p_off pl =? k) (char_places o t f e)
  = if (o <=? k) && (k <? o + length t) then nth_error (char_places o t f e) (k - o) else None.
Proof.
  induction t as [|c t IH]; intros o.
  - change (None = if (o <=? k) && (k <? o + 0) then nth_error (@nil place) (k - o) else None). rewrite Nat.add_0_r.
    now destruct (Nat.leb_spec o k), (Nat.ltb_spec k o); try lia.
  - cbn [char_places find p_off length]. destruct (Nat.eqb_spec o k) as [<-|H].
    + rewrite Nat.leb_refl, (proj2 (Nat.ltb_lt _ _)), Nat.sub_diag by lia. reflexivity.
    + rewrite IH. replace (S o + length t) with (o + S (length t)) by lia.
      destruct (Nat.leb_spec (S o) k) as [H1|H1], (Nat.leb_spec o k) as [H2|H2]; try lia; [|reflexivity].
      destruct (k <? o + S (length t)); [|reflexivity]. cbn [andb].
      now replace (k - o) with (S (k - S o)) by lia.
Qed.
Lemma char_places_fmt t f e : forall o j pl, nth_error (char_places o t f e) j = Some pl -> p_fmt pl = f.
Proof. induction t as [|c t IH]; intros o [|j] pl; cbn; try easy; [now intros [= <-]|apply IH]. Qed.
Lemma char_places_length t f e : forall o, length (char_places o t f e) = length t.
Proof. induction t as [|c t IH]; intros o; cbn; [easy|]. now rewrite IH. Qed.
Lemma find_app {A} (p : A -> bool) a b : find p (a ++ b) = match find p a with Some x => Some x | None => find p b end.
Proof. induction a as [|x a IH]; cbn; [easy|]. destruct (p x); auto. Qed.
Lemma shown_format_find k xs : Forall measured xs ->
  shown_format_in xs k = option_map p_fmt (find (fun pl => p_off pl =? k) (flat_map places xs)).
Proof.
  induction 1 as [|x xs M _ IH]; [easy|]. cbn [flat_map]. rewrite find_app.
  destruct x as [t f o n e|n w h q f o e]; cbn [shown_format_in places].
  - destruct M as [-> _]. rewrite find_char_places. destruct (_ && _) eqn:E; [|exact IH].
    apply andb_prop in E. destruct E as [E1 E2]. apply Nat.leb_le in E1. apply Nat.ltb_lt in E2.
    destruct (nth_error (char_places o t f e) (k - o)) as [pl|] eqn:Ep.
    + cbn. now rewrite (char_places_fmt _ _ _ _ _ _ Ep).
    + apply nth_error_None in Ep. rewrite char_places_length in Ep. lia.
  - cbn [find p_off]. rewrite (Nat.eqb_sym o k). destruct (k =? o); [reflexivity|exact IH].
Qed.

Lemma layout_places b fs : forall off byte off' byte', layout b off byte fs off' byte' ->
  flat_map frag_images_of fs = [] ->
  Forall measured (map show fs)
  /\ length (flat_map places (map show fs)) = length (flat_map frag_items fs)
  /\ forall k it, nth_error (flat_map frag_items fs) k = Some it -> exists c f pl, it = Chr c f
       /\ nth_error (flat_map places (map show fs)) k = Some pl /\ p_off pl = off + k /\ p_glyph pl = GChar c
       /\ p_fmt pl = to_text_format f.
Proof.
  induction fs as [|[t f o n e|i o e] fs IH]; intros off byte off' byte' L Im.
  - split; [constructor|]. split; [easy|]. now intros [|].
  - cbn [layout] in L. destruct L as (Ht & -> & -> & _ & L). destruct (IH _ _ _ _ L Im) as (M & Ln & P).
    cbn [map show flat_map frag_items places]. split; [now constructor|].
    split. { rewrite !app_length, char_places_length, map_length. now rewrite Ln. }
    assert (G : forall t o k it, nth_error (map (fun c => Chr c f) t) k = Some it -> exists c pl, it = Chr c f
      /\ nth_error (char_places o t (to_text_format f) e) k = Some pl /\ p_off pl = o + k /\ p_glyph pl = GChar c
      /\ p_fmt pl = to_text_format f).
    { clear. induction t as [|c t IH]; intros o [|k] it; cbn; try easy.
      - intros [= <-]. eexists _, _. repeat (split; [reflexivity|]). cbn. split; [lia|]. easy.
      - intros H. destruct (IH (S o) k it H) as (c' & pl & A & B & C & D). exists c', pl. repeat (split; [easy|]). split; [lia|easy]. }
    intros k it Hk. destruct (Nat.lt_ge_cases k (length t)) as [Hl|Hl].
    + rewrite nth_error_app1 in Hk by now rewrite map_length. destruct (G _ off _ _ Hk) as (c & pl & A & B & C & D & E).
      exists c, f, pl. split; [easy|]. rewrite nth_error_app1 by now rewrite char_places_length. easy.
    + rewrite nth_error_app2 in Hk by now rewrite map_length. rewrite map_length in Hk.
      destruct (P _ _ Hk) as (c & g & pl & A & B & C & D). exists c, g, pl. split; [easy|].
      rewrite nth_error_app2 by now rewrite char_places_length. rewrite char_places_length. repeat (split; [easy|]).
      split; [lia|easy].
  - discriminate.
Qed.

Lemma Forall2_nth {A B} (R : A -> B -> Prop) l l' : Forall2 R l l' ->
  length l' = length l /\ forall k x, nth_error l k = Some x -> exists y, nth_error l' k = Some y /\ R x y.
Proof.
  induction 1 as [|x y l l' H _ [IH1 IH2]]; [split; [easy|now intros [|]]|]. cbn. split; [lia|].
  intros [|k] z; cbn; [intros [= <-]; eauto|apply IH2].
Qed.

(** The fragments shown for a paragraph: its characters in order, each with the
    overlay on its stored format. *)
Theorem shown_theorem {U} d (m : hmap U) its n i para : reach d -> doc_items d = Ok its ->
  nth_error (d_order d) n = Some i -> nth_error (paragraphs its) n = Some para ->
  exists out, shown_fragments d m i = Ok out /\ Forall measured out /\ length (flat_map places out) = length para
   /\ (forall k it, nth_error para k = Some it -> exists c f pl, it = Chr c f
         /\ nth_error (flat_map places out) k = Some pl /\ p_off pl = k /\ p_glyph pl = GChar c
         /\ overlay (spans_on m i) k (to_text_format f) (p_fmt pl))
   /\ (forall k, exists r, shown_format_at d m i k = Ok r /\
         match nth_error para k with
         | Some (Chr _ f) => exists g, r = Some g /\ overlay (spans_on m i) k (to_text_format f) g
         | _ => r = None
         end).
Proof.
  intros R Ei Hi Hp. destruct (paragraph_theorem _ _ _ _ _ R Ei Hi Hp) as (_ & _ & _ & _ & _ & (fs & E & Ef & Im & L) & _).
  destruct (layout_places _ _ _ _ _ _ L Im) as (M & Ln & P). rewrite Ef in Ln, P.
  assert (X : exists out, shown_fragments d m i = Ok out /\ Forall measured out
            /\ Forall2 (overlaid (spans_on m i)) (flat_map places (map show fs)) (flat_map places out)).
  { unfold shown_fragments, spans_on. rewrite E. cbn [bind]. destruct (m i) as [x|].
    - destruct (hd_spans x) as [|s ss] eqn:Es.
      + eexists. split; [reflexivity|]. split; [exact M|apply overlaid_same].
      + apply merge_ok, M.
    - eexists. split; [reflexivity|]. split; [exact M|apply overlaid_same]. }
  destruct X as (out & Eo & Mo & F). destruct (Forall2_nth _ _ _ F) as [F1 F2]. rewrite Ln in F1.
  assert (Q : forall k it, nth_error para k = Some it -> exists c f pl, it = Chr c f
         /\ nth_error (flat_map places out) k = Some pl /\ p_off pl = k /\ p_glyph pl = GChar c
         /\ overlay (spans_on m i) k (to_text_format f) (p_fmt pl)).
  { intros k it Hk. destruct (P k it Hk) as (c & f & pl & -> & A & B & C & D).
    destruct (F2 _ _ A) as (pl' & A' & O1 & O2 & _ & O4). exists c, f, pl'. split; [easy|]. split; [easy|].
    split; [lia|]. split; [congruence|]. rewrite D, B in O4. exact O4. }
  exists out. split; [easy|]. split; [easy|]. split; [easy|]. split; [exact Q|].
  intros k. unfold shown_format_at. rewrite Eo. cbn [bind]. eexists. split; [reflexivity|].
  rewrite shown_format_find by easy.
  assert (Fd : find (fun pl => p_off pl =? k) (flat_map places out) = nth_error (flat_map places out) k).
  { assert (O : forall l n k, (forall j pl, nth_error l j = Some pl -> p_off pl = n + j) ->
              find (fun pl => p_off pl =? n + k) l = nth_error l k).
    { clear. induction l as [|pl l IH]; intros n k H; [now destruct k|]. cbn [find].
      rewrite (H 0 pl eq_refl), Nat.add_0_r. destruct k as [|k]; [now rewrite Nat.add_0_r, Nat.eqb_refl|].
      destruct (Nat.eqb_spec n (n + S k)); [lia|]. cbn [nth_error]. replace (n + S k) with (S n + k) by lia. apply IH.
      intros j pl' Hj. rewrite (H (S j) pl' Hj). lia. }
    apply (O _ 0 k). intros j pl Hj. destruct (nth_error para j) as [it|] eqn:Ej.
    - destruct (Q j it Ej) as (c & f & pl' & _ & A & B & _). rewrite Hj in A. injection A as <-. exact B.
    - apply nth_error_None in Ej. rewrite <- F1 in Ej. apply nth_error_None in Ej. congruence. }
  rewrite Fd. destruct (nth_error para k) as [it|] eqn:Ek.
  - destruct (Q k it Ek) as (c & f & pl & -> & A & _ & _ & B). rewrite A. cbn. eauto.
  - apply nth_error_None in Ek. rewrite <- F1 in Ek. apply nth_error_None in Ek. now rewrite Ek.
Qed.

(** ** A comment highlighter *)
Definition italic_span : hfmt :=
  mk_hfmt None None None None None None None (Some true) None None None None None None None None.
Fixpoint opens (t : str) : bool :=
  match t with 47%N :: (42%N :: _) as t' => true | _ :: t' => opens t' | [] => false end.
(** Text after "/*" is italic; [idle] is the state outside a comment, if any. *)
Definition comments (idle : list (hcall unit)) : highlighter unit := fun t b prev u =>
  if (prev =? 1)%Z || opens t then [SetFormat 0 (length t) italic_span; SetState 1] else idle.
Lemma comments_steady idle : steady (comments idle).
Proof. intros t b prev u. now split. Qed.
Lemma comments_marks : marks (comments [SetState 0]).
Proof. intros t b prev u. unfold comments. now destruct (_ || _). Qed.
(** "/*" and "x". *)
Definition commented : doc := import_plain_text new_document [47; 42; 10; 120]%N.
Lemma commented_reach : reach commented.
Proof. apply reach_import, reach_new. Qed.

Lemma rerun_refuted_w : exists m d' m', rehighlight_all (comments []) commented = Ok m
  /\ run_hstep (comments []) (commented, m) (HEdit (EBreak 1 1)) = Ok (d', m') /\ ~ highlighted (comments []) d' m'.
Proof.
  eexists _, _, _. split; [vm_compute; reflexivity|]. split; [vm_compute; reflexivity|].
  intros (ps & E & T). vm_compute in E. injection E as <-. cbn in T. destruct T as (_ & _ & (u & T) & _). discriminate.
Qed.

(** ** Paragraph identity *)
From Verif Require Import DocInv DocReach DocIds.
Lemma chars_before_cpre ps : chars_before ps = cpre ps.
Proof. induction ps as [|[b t] ps IH]; [easy|]. rewrite cpre_cons, <- IH. cbn [chars_before]. lia. Qed.
Theorem identity_theorem d e : reach d -> edit_ok e ->
  exists d' q pre b t olds post t' news, run_edit d e = Ok (d', q)
    /\ doc_texts d = Ok (pre ++ (b, t) :: olds ++ post) /\ doc_texts d' = Ok (pre ++ (b, t') :: news ++ post)
    /\ chars_before pre <= fst (edit_range e)
    /\ (fst (edit_range e) <= chars_before pre + Nat.max (length t) (length t') \/ post = [])
    /\ match e with
       | EBreak _ _ => exists i t2, news = [(i, t2)] /\ get_block d i = None
       | _ => news = []
       end.
Proof.
  intros R Ok_. destruct (reach_wf _ R) as [ps W].
  destruct (edit_paras _ _ _ W Ok_) as (d' & q & pre & b & t & olds & post & t' & news & E & -> & W' & N' & Hn & Hp & He).
  exists d', q, pre, b, t, olds, post, t', news. split; [exact E|]. split; [now apply doc_texts_wf|].
  split; [now apply doc_texts_wf|]. rewrite chars_before_cpre. split; [exact Hp|].
  split. { destruct He as [He|(-> & _)]; [left; unfold edit_pos in He; lia|now right]. }
  assert (X : forall t2, news = [(d_next d, t2)] -> exists i t2, news = [(i, t2)] /\ get_block d i = None).
  { intros t2 ->. exists (d_next d), t2. split; [easy|]. destruct (get_block d (d_next d)) as [x|] eqn:Ex; [|easy]. exfalso.
    apply find_block_some in Ex. destruct Ex as [Ex Hx].
    assert (In (d_next d) (map fst (pre ++ (b, t) :: olds ++ post))).
    { eapply Permutation.Permutation_in; [apply (wf_ids _ _ W)|]. rewrite <- Ex. now apply in_map. }
    apply (wf_next _ _ W) in H. lia. }
  destruct e; destruct Hn as [[Hs Hn]|[Hs (t2 & Hn)]]; try discriminate; eauto.
Qed.
Theorem hedit_stores {U} (h : highlighter U) d m e d' m' : hedit h d m e = Ok (d', m') -> exists q, run_edit d e = Ok (d', q).
Proof.
  unfold hedit. destruct (run_edit d e) as [[d1 q]| |]; [|easy|easy]. cbn [bind]. intros H. exists q. f_equal. f_equal.
  destruct e; [destruct (rehighlight_affected _ _ _ _)..|]; cbn in H; try congruence.
  destruct (_ =? _); [congruence|]. destruct (rehighlight_affected _ _ _ _); cbn in H; congruence.
Qed.
Lemma as_u32_id o : in_opt 0 (2 ^ 32) o -> option_map as_u32 o = o.
Proof. destruct o as [z|]; [|easy]. cbn [in_opt option_map]. intros H. unfold as_u32. now rewrite Z.mod_small. Qed.
Lemma as_i32_id o : in_opt (- 2 ^ 31) (2 ^ 31) o -> option_map as_i32 o = o.
Proof.
  destruct o as [z|]; [|easy]. cbn [in_opt option_map]. intros H. unfold as_i32. rewrite Z.mod_small; [f_equal; lia|lia].
Qed.
Theorem shown_as_theorem f : in_opt 0 (2 ^ 32) (font_point_size f) -> in_opt 0 (2 ^ 32) (font_weight f) ->
  in_opt (- 2 ^ 31) (2 ^ 31) (letter_spacing f) -> in_opt (- 2 ^ 31) (2 ^ 31) (word_spacing f) -> shown_as f (to_text_format f).
Proof.
  intros H1 H2 H3 H4. constructor; try reflexivity; [now apply as_u32_id..| | |]; try now apply as_i32_id. easy.
Qed.
