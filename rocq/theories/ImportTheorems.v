(** Importing parsed blocks gives the document of their paragraphs. *)
From Verif Require Import Base BaseFacts FormatRunsModel RopeModel DocModel DocSpec DocInv PropSpec DocReach QueryTheorems ListModel ListSpec ListFacts ListDocModel ListDocSpec
  ImportModel ImportSpec ImportFacts DocShows ListDocFacts.

Definition block_para (html : bool) (b : pblock) : dpara := mk_dpara (block_items b) (pblock_fmt html b) (piece_of b).

Lemma no_break_block b : forall x, In x (block_items b) -> x <> Brk.
Proof.
  intros x H ->. unfold block_items in H. apply in_flat_map in H as (s & _ & H). unfold span_items in H. apply in_map_iff in H as (c & E & _). easy.
Qed.
Lemma paragraphs_no_break l : (forall x, In x l -> x <> Brk) -> forall rest,
  paragraphs (l ++ rest) = match paragraphs rest with p :: ps => (l ++ p) :: ps | [] => [l] end.
Proof.
  intros H rest. assert (N : paragraphs rest <> []). { destruct rest as [|[]]; cbn; try easy; now destruct (paragraphs rest). }
  induction l as [|x l IH]; cbn [app].
  - now destruct (paragraphs rest).
  - assert (Hx : x <> Brk) by (apply H; now left). assert (IH' := IH (fun y Hy => H y (or_intror Hy))). cbn [paragraphs]. rewrite IH'.
    destruct x; try easy; now destruct (paragraphs rest).
Qed.
Lemma paragraphs_blocks bs : bs <> [] -> paragraphs (items_of_blocks bs) = map block_items bs.
Proof.
  induction bs as [|b bs IH]; [easy|]. intros _. destruct bs as [|c bs].
  - cbn [items_of_blocks map]. rewrite <- (app_nil_r (block_items b)) at 1. rewrite paragraphs_no_break by apply no_break_block. cbn. now rewrite app_nil_r.
  - change (items_of_blocks (b :: c :: bs)) with (block_items b ++ Brk :: items_of_blocks (c :: bs)).
    rewrite paragraphs_no_break by apply no_break_block. cbn [paragraphs]. rewrite IH by easy. cbn [map]. now rewrite app_nil_r.
Qed.
Lemma block_items_length b : length (block_items b) = length (span_text (pb_spans b)).
Proof.
  unfold block_items, span_text. induction (pb_spans b) as [|s l IH]; [easy|]. cbn [flat_map]. rewrite !app_length, IH. unfold span_items. now rewrite map_length.
Qed.
Lemma in_list_nth L bs ls : Forall2 (in_list_of L) bs ls -> forall k b st, nth_error bs k = Some b -> pb_list b = Some st ->
  exists l, nth_error ls k = Some (Some l) /\ get_list L l = Some (mk_list st (Z.of_nat (pb_indent b)) [] []).
Proof.
  induction 1 as [|b0 o bs0 ls0 Hb _ IH]; intros [|k] b st Eb El; try easy.
  - injection Eb as ->. unfold in_list_of in Hb. rewrite El in Hb. destruct o as [l|]; [|easy]. now exists l.
  - cbn [nth_error] in *. eapply IH; eauto.
Qed.
Lemma import_shows html L bs : lreach L -> bs <> [] -> document_shows (import_parsed html L bs) (map (block_para html) bs).
Proof.
  intros R Hne. destruct (lists_ok _ R) as [Rd F]. destruct (reach_wf _ Rd) as [ps0 W].
  pose proof (import_parsed_full html L ps0 bs W Hne) as H. cbn zeta in H. destruct H as (W' & _ & It & At & Ch & Nb & _).
  pose proof (import_parsed_lists html L bs F) as (_ & _ & _ & G).
  set (L' := import_parsed html L bs) in *. set (ls := group_lists (l_next L) (map piece_of bs)) in *.
  assert (Ln : length ls = length bs) by (unfold ls, group_lists; now rewrite group_go_length, map_length).
  exists (items_of_blocks bs), ls. rewrite <- It. split; [now apply doc_items_wf|]. rewrite It.
  split; [rewrite paragraphs_blocks by easy; rewrite map_map; now apply map_ext|]. split; [now rewrite map_length|].
  replace (map dp_piece (map (block_para html) bs)) with (map piece_of bs) by (rewrite map_map; now apply map_ext).
  split.
  { rewrite At. rewrite map_map. cbn [block_para dp_fmt]. clear - Ln. revert Ln. generalize ls. induction bs as [|b bs IH]; intros [|l r] E; try easy.
    cbn [map combine fst snd]. f_equal. apply IH. now injection E. }
  split; [|split; [|split; [|split]]].
  - intros k st n Hk. rewrite nth_error_map in Hk. destruct (nth_error bs k) as [b|] eqn:Eb; [|easy]. cbn in Hk. injection Hk as Hk.
    unfold piece_of in Hk. destruct (pb_list b) as [st0|] eqn:El; [|easy]. injection Hk as H1 H2. subst st n.
    exact (in_list_nth _ _ _ G _ _ _ Eb El).
  - intros k Hk. now apply group_item.
  - intros i j a b Hij Ha Hb. unfold ls in *. now apply (group_theorem (l_next L)).
  - now rewrite map_length.
  - rewrite Ch. clear. unfold sum_lengths, texts. rewrite !map_map. cbn [block_para dp_items].
    induction bs as [|b bs IH]; [easy|]. cbn [map fold_right]. rewrite block_items_length, <- IH. reflexivity.
Qed.
