(** The exported Markdown shows the document. *)
From Coq Require Import Ascii String.
From Verif Require Import Base BaseFacts FormatRunsModel FormatRunsSpec RopeModel RopeSpec DocModel DocSpec DocInv DocFacts HistModel HistSpec DocHist
  QueryModel QuerySpec QueryFacts QueryText PropSpec DocTheorems QueryTheorems ListModel ListSpec ListFacts ListDocModel FragmentModel FragmentText
  EscapeModel EscapeSpec EscapeFacts ExportModel ExportSpec ExportHtml MdModel MdSpec MdUnique MdLines.

(** ** Text *)
Section Escape.
Variable set bad : list char.
Hypothesis set_ok : forall c, In c set -> In c ascii_punctuation.
Hypothesis set_all : forall c, In c md_active -> In c set \/ In c bad.
Lemma escape_reads t : (forall c, In c bad -> ~ In c t) -> reads md_codes md_active (escape_by set t) t.
Proof.
  unfold escape_by. induction t as [|c t IH]; intros H; cbn [flat_map]; [constructor|].
  specialize (IH (fun x Hx Hi => H x Hx (or_intror Hi))).
  destruct (existsb (N.eqb c) set) eqn:E.
  - apply (reads_code _ _ [92%N; c]); [|exact IH]. unfold md_codes. rewrite in_map_iff. exists c. split; [easy|].
    rewrite existsb_exists in E. destruct E as (x & Hx & Ex). apply N.eqb_eq in Ex. subst x. now apply set_ok.
  - apply reads_plain; [|exact IH]. intros Ha. destruct (set_all c Ha) as [Hs|Hb]; [|now apply (H c Hb); left].
    assert (existsb (N.eqb c) set = true); [|congruence]. rewrite existsb_exists. exists c. now rewrite N.eqb_refl.
Qed.
Lemma md_text e t e' l : reads md_codes md_active e t -> ~ In 10%N t -> md_inline e' l ->
  md_inline (e ++ e') (map (fun c => SChar c bare) t ++ l).
Proof.
  induction 1 as [|c e t N H IH|k c e t K H IH]; intros Hn H'; cbn [map app]; [easy| |].
  - apply md_char; [easy|intros ->; apply Hn; now left|]. apply IH; [|easy]. intros Hc. apply Hn. now right.
  - apply md_code in K. destruct K as [-> K]. cbn. apply md_escape; [easy|]. apply IH; [|easy]. intros Hc. apply Hn. now right.
Qed.

(** How a piece of text is written. *)
Definition wrap (f : cfmt) (x : str) : str :=
  let k := look_of f in
  if k_code k then txt "`" ++ x ++ txt "`"
  else if k_strike k then txt "~~" ++ x ++ txt "~~"
  else if k_bold k && k_italic k then txt "***" ++ x ++ txt "***"
  else if k_bold k then txt "**" ++ x ++ txt "**"
  else if k_italic k then txt "*" ++ x ++ txt "*"
  else x.
Definition linked_to (f : cfmt) (x : str) : str :=
  match anchor_href f with Some h => txt "[" ++ x ++ txt "](" ++ h ++ txt ")" | None => x end.
Definition source (f : cfmt) (t : str) : str := if k_code (look_of f) then t else escape_by set t.
Lemma source_ne f t : t <> [] -> source f t <> [].
Proof.
  unfold source. destruct (k_code _); [easy|]. destruct t as [|c t]; [easy|]. intros _. unfold escape_by. cbn [flat_map].
  now destruct (existsb _ _).
Qed.
Definition seg0 (s : segment) : str := match s with SegText t f => linked_to f (wrap f (source f t)) | SegImage _ => [] end.
(** The part of a look that Markdown marks show. *)
Definition no_link (k : look) : look := mk_look (k_code k) (k_bold k) (k_italic k) false (k_strike k) None.
Lemma md_look_link f : md_look f = match anchor_href f with Some h => link_to h (no_link (look_of f)) | None => no_link (look_of f) end.
Proof. unfold md_look, look_of, no_link. cbn. destruct (anchor_href f); reflexivity. Qed.
Lemma wrap_simple t f : gentle_segment bad (SegText t f) -> marked f = true -> simple (wrap f (source f t)) (no_link (look_of f)) t.
Proof.
  intros (T & N & G & _) M. assert (M0 := M). unfold wrap, source. unfold marked in M. cbv zeta in *. unfold no_link.
  destruct (k_code (look_of f)) eqn:Ek.
  - destruct G as (G & Hs & Hb). destruct (k_bold _), (k_italic _), (k_strike _); try discriminate. now apply s_code.
  - destruct G as (H1 & G & W). specialize (W M0). pose proof (escape_reads t H1) as R. clear M0.
    destruct (k_strike (look_of f)).
    + specialize (G eq_refl). destruct (k_bold _), (k_italic _); try discriminate. apply s_mark; [constructor|easy|easy].
    + destruct (k_bold _), (k_italic _); try discriminate; cbn [andb]; apply s_mark; try easy; constructor.
Qed.
Lemma wrap_plain t f : gentle_segment bad (SegText t f) -> marked f = false ->
  wrap f (source f t) = escape_by set t /\ no_link (look_of f) = bare /\ reads md_codes md_active (escape_by set t) t.
Proof.
  intros (T & N & G & _) M. unfold wrap, source. unfold marked in M. cbv zeta in *. unfold no_link.
  destruct (k_code (look_of f)), (k_bold (look_of f)), (k_italic (look_of f)), (k_strike (look_of f)); try discriminate.
  destruct G as (H1 & _). cbn [andb]. split; [easy|]. split; [easy|]. now apply escape_reads.
Qed.

Lemma segment_md t f e l : gentle_segment bad (SegText t f) -> (marked f = true -> anchor_href f = None -> apart (seg0 (SegText t f)) e) ->
  md_inline e l -> md_inline (seg0 (SegText t f) ++ e) (map (fun c => SChar c (md_look f)) t ++ l).
Proof.
  intros G A H. cbn [seg0] in *. rewrite md_look_link. destruct (marked f) eqn:M.
  - pose proof (wrap_simple t f G M) as S. unfold linked_to in *. destruct (anchor_href f) as [h|] eqn:Eh.
    + rewrite <- !app_assoc. apply md_link_simple; [easy| |easy]. destruct G as (_ & _ & _ & G). now apply G.
    + apply md_simple; [easy|now apply A|easy].
  - destruct (wrap_plain t f G M) as (-> & -> & R). unfold linked_to in *. destruct G as (T & N & _ & G). destruct (anchor_href f) as [h|] eqn:Eh.
    + rewrite <- !app_assoc. apply md_link_text; [easy|easy|easy|now apply G|easy].
    + now apply md_text.
Qed.

(** What a piece begins and ends with. *)
Lemma wrap_ends f x : marked f = true -> exists c r r', wrap f x = c :: r /\ wrap f x = r' ++ [c] /\ In c [96; 126; 42]%N.
Proof.
  unfold marked, wrap. cbv zeta. intros M.
  assert (K : forall m c, (exists a, m = c :: a) -> (exists a, m = a ++ [c]) -> In c [96; 126; 42]%N ->
     exists d r r', m ++ x ++ m = d :: r /\ m ++ x ++ m = r' ++ [d] /\ In d [96; 126; 42]%N).
  { intros m c (a & E1) (a' & E2) Hc. exists c, (a ++ x ++ m), (m ++ x ++ a'). split; [now rewrite E1|]. split; [|easy]. rewrite E2 at 2. now rewrite !app_assoc. }
  destruct (k_code _); [apply (K (txt "`") 96%N); [exists []|exists []|]; cbn; tauto|].
  destruct (k_strike _); [apply (K (txt "~~") 126%N); [exists [126%N]|exists [126%N]|]; cbn; tauto|].
  destruct (k_bold _), (k_italic _); try discriminate; cbn [andb].
  - apply (K (txt "***") 42%N); [exists [42; 42]%N|exists [42; 42]%N|]; cbn; tauto.
  - apply (K (txt "**") 42%N); [exists [42%N]|exists [42%N]|]; cbn; tauto.
  - apply (K (txt "*") 42%N); [exists []|exists []|]; cbn; tauto.
Qed.
Lemma escape_head c t : exists d r, escape_by set (c :: t) = d :: r /\ (d = c \/ d = 92%N).
Proof. unfold escape_by. cbn [flat_map]. destruct (existsb _ _); cbn; eauto. Qed.
Lemma escape_last t c : exists r, escape_by set (t ++ [c]) = r ++ [c].
Proof.
  unfold escape_by. rewrite flat_map_app. cbn [flat_map]. destruct (existsb _ _); cbn; [|eauto].
  exists (flat_map (fun x => if existsb (N.eqb x) set then [92%N; x] else [x]) t ++ [92%N]). now rewrite <- app_assoc.
Qed.

Lemma segment_first t f c r : gentle_segment bad (SegText t f) -> seg0 (SegText t f) = c :: r ->
  (marked f = false -> ~ In c [96; 126; 42]%N) /\ ((exists d u, t = d :: u /\ not_space d) -> not_space c).
Proof.
  intros G E. cbn [seg0] in E. unfold linked_to in E. destruct (anchor_href f) as [h|].
  - injection E as <- _. split; [vm_compute; intuition discriminate|easy].
  - destruct (marked f) eqn:M.
    + split; [easy|]. intros _. destruct (wrap_ends f (source f t) M) as (d & s & s' & E2 & _ & Hd). rewrite E in E2. injection E2 as -> _.
      cbn in Hd. destruct Hd as [<-|[<-|[<-|[]]]]; reflexivity.
    + destruct (wrap_plain t f G M) as (E2 & _ & R). rewrite E2 in E. split.
      * intros _. destruct G as (T & _). destruct (reads_head _ _ R T) as (d & s & E3 & Hd). rewrite E in E3. now injection E3 as -> _.
      * intros (d & u & -> & Hd). destruct (escape_head d u) as (d' & s & E3 & Hd'). rewrite E in E3. injection E3 as -> _. destruct Hd' as [-> | ->]; easy.
Qed.
Lemma segment_last t f d u : gentle_segment bad (SegText t f) -> t = u ++ [d] -> not_space d -> exists c r, seg0 (SegText t f) = r ++ [c] /\ not_space c.
Proof.
  intros G E Hd. cbn [seg0]. unfold linked_to. destruct (anchor_href f) as [h|].
  - exists 41%N, (txt "[" ++ wrap f (source f t) ++ txt "](" ++ h). split; [|easy]. now rewrite <- !app_assoc.
  - destruct (marked f) eqn:M.
    + destruct (wrap_ends f (source f t) M) as (c & s & s' & _ & E2 & Hc). exists c, s'. split; [easy|]. cbn in Hc. destruct Hc as [<-|[<-|[<-|[]]]]; reflexivity.
    + destruct (wrap_plain t f G M) as (-> & _ & _). subst t. destruct (escape_last u d) as (r & ->). eauto.
Qed.
Lemma segment_ne t f : gentle_segment bad (SegText t f) -> seg0 (SegText t f) <> [].
Proof.
  intros G. cbn [seg0]. pose proof (source_ne f t (proj1 G)) as S. unfold linked_to. destruct (anchor_href f); [discriminate|].
  unfold wrap. destruct (k_code _); [discriminate|]. destruct (k_strike _); [discriminate|]. destruct (k_bold _), (k_italic _); try discriminate. exact S.
Qed.

Lemma gentle_text ss : gentle bad ss -> Forall is_text ss.
Proof. induction ss as [|s ss IH]; intros H; constructor; [destruct s; [easy|now destruct H]|apply IH, H]. Qed.
Lemma gentle_md ss : gentle bad ss -> md_inline (flat_map seg0 ss) (flat_map md_piece ss).
Proof.
  induction ss as [|s ss IH]; intros H; [constructor|]. destruct H as (G & A & H). cbn [flat_map]. destruct s as [t f|i]; [|easy].
  apply segment_md; [easy| |auto]. intros M Eh c r s E. destruct ss as [|s2 ss]; [easy|].
  destruct s2 as [t2 f2|]; [|now destruct H]. destruct H as (G2 & _ & _).
  assert (M2 : marked f2 = false) by (destruct (marked f2); [now exfalso; apply A|easy]).
  cbn [flat_map] in E. pose proof (segment_ne t2 f2 G2) as Ne. destruct (seg0 (SegText t2 f2)) as [|c2 r2] eqn:E2; [easy|]. injection E as <- _.
  destruct (segment_first _ _ _ _ G2 E2) as [F _]. specialize (F M2). cbn [seg0]. unfold linked_to. rewrite Eh.
  destruct (wrap_ends f (source f t) M) as (d & s1 & s1' & _ & -> & Hd). intros E3. apply app_inj_tail in E3. destruct E3 as [_ ->]. contradiction.
Qed.
Lemma gentle_ends ss : gentle bad ss -> ends not_space (flat_map segment_chars ss) -> ends not_space (flat_map seg0 ss).
Proof.
  intros G [(c & r & E & Hc) (c' & r' & E' & Hc')]. split.
  - destruct ss as [|[t f|] ss]; [discriminate| |now destruct G]. destruct G as (G & _). pose proof (segment_ne t f G) as Ne. cbn [flat_map].
    destruct (seg0 (SegText t f)) as [|d s] eqn:Es; [easy|]. exists d, (s ++ flat_map seg0 ss). split; [easy|].
    destruct (segment_first _ _ _ _ G Es) as [_ F]. apply F. cbn in E. destruct t as [|x t]; [now destruct G|]. injection E as -> _. eauto.
  - destruct (list_eq_dec N.eq_dec (flat_map segment_chars ss) []) as [E0|_]; [congruence|]. revert G E'. clear - Hc' set_ok set_all. revert r'.
    induction ss as [|s ss IH]; intros r' G E; [now destruct r'|]. destruct s as [t f|]; [|now destruct G]. destruct G as (G & _ & Gs). cbn [flat_map segment_chars] in *.
    destruct ss as [|s2 ss].
    + cbn [flat_map] in E |- *. rewrite app_nil_r in *. destruct (segment_last _ _ _ _ G E Hc') as (x & y & -> & Hx). exists x, y. easy.
    + assert (Hn : flat_map segment_chars (s2 :: ss) <> []).
      { destruct s2 as [t2 f2|]; [|now destruct Gs]. destruct Gs as (G2 & _). destruct t2; [now destruct G2|discriminate]. }
      destruct (exists_last Hn) as (y & z & Ey). rewrite Ey in E. rewrite app_assoc in E. apply app_inj_tail in E. destruct E as [_ ->].
      destruct (IH y Gs Ey) as (x & w & E2 & Hx). exists x, (seg0 (SegText t f) ++ w). split; [|easy]. now rewrite E2, app_assoc.
Qed.
End Escape.
Lemma md_pieces ss : Forall is_text ss -> flat_map md_piece ss = flat_map md_item (flat_map seg_items ss).
Proof.
  induction 1 as [|s ss Hs F IH]; [easy|]. destruct s as [t f|]; [|easy]. cbn [flat_map md_piece seg_items]. rewrite flat_map_app, IH. f_equal.
  clear. induction t as [|c t IH]; cbn; [easy|]. now rewrite IH.
Qed.
Lemma seg_chars ss : Forall is_text ss -> flat_map segment_chars ss = chars (flat_map seg_items ss).
Proof.
  unfold chars. induction 1 as [|s ss Hs F IH]; [easy|]. destruct s as [t f|]; [|easy]. cbn [flat_map segment_chars seg_items]. rewrite flat_map_app, IH. f_equal.
  clear. induction t as [|c t IH]; cbn; [easy|]. now rewrite <- IH.
Qed.

(** No line breaks. *)
Lemma simple_no_break x k t : simple x k t -> ~ In 10%N t -> ~ In 10%N x.
Proof.
  assert (R : forall e u, reads md_codes md_active e u -> ~ In 10%N u -> ~ In 10%N e).
  { induction 1 as [|c e u N H IH|kk c e u K H IH]; intros Hn Hi; [easy| |].
    - destruct Hi as [->|Hi]; [apply Hn; now left|]. apply IH; [|easy]. intros Hc. apply Hn. now right.
    - apply md_code in K. destruct K as [-> _]. cbn in Hi. destruct Hi as [Hi|[->|Hi]]; [discriminate|apply Hn; now left|]. apply IH; [|easy]. intros Hc. apply Hn. now right. }
  intros [u Hu _ Hn|m q e u Hm Hr Hw] Ht; rewrite !in_app_iff; intros [H|[H|H]].
  - cbn in H. intuition discriminate.
  - easy.
  - cbn in H. intuition discriminate.
  - destruct Hm; cbn in H; intuition discriminate.
  - now apply (R e u).
  - destruct Hm; cbn in H; intuition discriminate.
Qed.
Lemma md_no_break e l : md_inline e l -> (forall c k, In (SChar c k) l -> c <> 10%N) -> ~ In 10%N e.
Proof.
  assert (R : forall e u, reads md_codes md_active e u -> ~ In 10%N u -> ~ In 10%N e).
  { induction 1 as [|c e0 u N H IH|kk c e0 u K H IH]; intros Hn Hi; [easy| |].
    - destruct Hi as [->|Hi]; [apply Hn; now left|]. apply IH; [|easy]. intros Hc. apply Hn. now right.
    - apply md_code in K. destruct K as [-> _]. cbn in Hi. destruct Hi as [Hi|[->|Hi]]; [discriminate|apply Hn; now left|]. apply IH; [|easy]. intros Hc. apply Hn. now right. }
  assert (Hh : forall h, Forall target_char h -> ~ In 10%N h) by (intros h F Hi; rewrite Forall_forall in F; apply (F _ Hi); vm_compute; tauto).
  assert (T : forall (t : str) k l, (forall c q, In (SChar c q) (map (fun c => SChar c k) t ++ l) -> c <> 10%N) -> ~ In 10%N t /\ forall c q, In (SChar c q) l -> c <> 10%N).
  { intros t k l0 F. split; [|intros c q Hc; apply (F c q); rewrite in_app_iff; now right]. intros Hi. apply (F 10%N k); [|easy]. rewrite in_app_iff. left.
    apply in_map_iff. eauto. }
  induction 1 as [|c e l N N2 H IH|c e l P H IH|x k t e l Hs Ha H IH|x t h e l Hr Ht Hn Hf H IH|x k t h e l Hs Hf H IH]; intros F.
  - easy.
  - intros [->|Hi]; [easy|]. apply IH; [|easy]. intros d k Hd. apply (F d k). now right.
  - intros [Hi|[->|Hi]]; [discriminate|vm_compute in P; intuition discriminate|]. apply IH; [|easy]. intros d k Hd. apply (F d k). now right.
  - apply T in F. destruct F as [F1 F2]. rewrite in_app_iff. intros [Hi|Hi]; [|now apply IH]. now apply (simple_no_break _ _ _ Hs).
  - apply T in F. destruct F as [F1 F2]. rewrite !in_app_iff. intros [Hi|[Hi|[Hi|[Hi|[Hi|Hi]]]]]; [cbn in Hi; intuition discriminate|now apply (R x t)|cbn in Hi; intuition discriminate|now apply (Hh h)|cbn in Hi; intuition discriminate|now apply IH].
  - apply T in F. destruct F as [F1 F2]. rewrite !in_app_iff. intros [Hi|[Hi|[Hi|[Hi|[Hi|Hi]]]]]; [cbn in Hi; intuition discriminate|now apply (simple_no_break _ _ _ Hs)|cbn in Hi; intuition discriminate|now apply (Hh h)|cbn in Hi; intuition discriminate|now apply IH].
Qed.

(** ** The two ways to write a piece *)
Lemma export_set c : In c md_export_escaped -> In c ascii_punctuation.
Proof. intros H. vm_compute in H. vm_compute. tauto. Qed.
Lemma export_all c : In c md_active -> In c md_export_escaped \/ In c [96; 60; 38]%N.
Proof. intros [<-|[<-|[<-|H]]]; [right; cbn; tauto|right; cbn; tauto|right; cbn; tauto|left; exact H]. Qed.
Lemma fragment_set c : In c md_fragment_escaped -> In c ascii_punctuation.
Proof. intros H. vm_compute in H. vm_compute. tauto. Qed.
Lemma fragment_all c : In c md_active -> In c md_fragment_escaped \/ In c [38%N].
Proof. intros H. vm_compute in H. vm_compute. tauto. Qed.
Lemma md_segment_form bad t f : gentle_segment bad (SegText t f) -> md_segment (SegText t f) = seg0 md_export_escaped (SegText t f).
Proof.
  intros (T & _ & G & _). unfold md_segment. change (is_mono f) with (k_code (look_of f)).
  change (is_on (font_strikeout f)) with (k_strike (look_of f)). change (is_on (font_bold f)) with (k_bold (look_of f)).
  change (is_on (font_italic f)) with (k_italic (look_of f)). change (if k_code (look_of f) then t else escape_markdown t) with (source md_export_escaped f t).
  cbn [seg0]. pose proof (source_ne md_export_escaped f t T) as S. destruct (source md_export_escaped f t) as [|c r]; [easy|]. unfold linked_to, wrap. cbv zeta.
  f_equal. destruct (k_code (look_of f)).
  - destruct G as (G & _). destruct (k_bold _), (k_italic _), (k_strike _); try discriminate. reflexivity.
  - destruct G as (_ & G & _). destruct (k_strike (look_of f)); [|reflexivity]. specialize (G eq_refl). destruct (k_bold _), (k_italic _); try discriminate. reflexivity.
Qed.
Lemma md_segments_form bad ss : gentle bad ss -> flat_map md_segment ss = flat_map (seg0 md_export_escaped) ss.
Proof.
  induction ss as [|s ss IH]; intros H; [easy|]. destruct H as (G & _ & H). destruct s as [t f|]; [|easy]. cbn [flat_map]. rewrite IH by easy.
  now rewrite (md_segment_form bad t f G).
Qed.
Lemma frag_segment_form bad t f : gentle_segment bad (SegText t f) -> link_marked (SegText t f) -> frag_md_segment (SegText t f) = seg0 md_fragment_escaped (SegText t f).
Proof.
  intros (T & _ & G & _) [K1 K2]. unfold frag_md_segment. change (is_mono f) with (k_code (look_of f)).
  change (is_on (font_strikeout f)) with (k_strike (look_of f)). change (is_on (font_bold f)) with (k_bold (look_of f)).
  change (is_on (font_italic f)) with (k_italic (look_of f)). change (escape_markdown_fragment t) with (escape_by md_fragment_escaped t).
  cbn [seg0]. unfold linked_to, wrap, source. change (k_link (look_of f)) with (anchor_href f) in *. cbv zeta.
  destruct (k_code (look_of f)); [now rewrite K2|].
  assert (X : (if is_on (is_anchor f) then true else false) = match anchor_href f with Some _ => true | None => false end).
  { destruct (anchor_href f) as [h|]; [replace (is_anchor f) with (Some true) by (symmetry; now apply K1); easy|].
    destruct (is_anchor f) as [[]|]; [exfalso; now apply K1|easy|easy]. }
  destruct G as (_ & G & _). destruct (is_on (is_anchor f)), (anchor_href f) as [h|]; try discriminate; clear X.
  - do 2 f_equal. destruct (k_strike (look_of f)); [|reflexivity]. specialize (G eq_refl). destruct (k_bold _), (k_italic _); try discriminate. reflexivity.
  - destruct (k_strike (look_of f)); [|reflexivity]. specialize (G eq_refl). destruct (k_bold _), (k_italic _); try discriminate. reflexivity.
Qed.
Lemma frag_segments_form bad ss : gentle bad ss -> Forall link_marked ss -> flat_map frag_md_segment ss = flat_map (seg0 md_fragment_escaped) ss.
Proof.
  induction ss as [|s ss IH]; intros H F; [easy|]. inversion F; subst. destruct H as (G & _ & H). destruct s as [t f|]; [|easy]. cbn [flat_map]. rewrite IH by easy.
  now rewrite (frag_segment_form bad t f G).
Qed.

(** ** Blocks *)
Lemma chars_no_break bad ss c k : gentle bad ss -> In (SChar c k) (flat_map md_piece ss) -> c <> 10%N.
Proof.
  induction ss as [|s ss IH]; intros G H; [easy|]. destruct G as (G & _ & Gs). cbn [flat_map] in H. rewrite in_app_iff in H. destruct H as [H|H]; [|auto].
  destruct s as [t f|]; [|easy]. cbn in H. apply in_map_iff in H. destruct H as (x & [= <- _] & Hx). destruct G as (_ & N & _). intros ->. contradiction.
Qed.
Lemma repeated_hash z : repeated (lit "#") z = repeat 35%N (Z.to_nat z).
Proof. unfold repeated. induction (Z.to_nat z) as [|n IH]; [easy|]. cbn [repeat concat]. now rewrite IH. Qed.
Lemma repeated_indent z : (0 <= z <= 1)%Z -> exists k, repeated (lit "  ") z = spaces k /\ k < 4.
Proof. intros H. assert (z = 0 \/ z = 1)%Z as [-> | ->] by lia; [exists 0|exists 2]; split; try lia; reflexivity. Qed.
Lemma no_break_app a b : ~ In 10%N a -> ~ In 10%N b -> ~ In 10%N (a ++ b).
Proof. rewrite in_app_iff. tauto. Qed.
Lemma no_break_repeat c n : c <> 10%N -> ~ In 10%N (repeat c n).
Proof. intros H Hi. apply repeat_spec in Hi. congruence. Qed.

Section Blocks.
Variable L : ldoc.
Let d := l_doc L.
Definition gentle_block (b : block) (a : option id * bfmt) (p : list item) : Prop :=
  forall ss, block_segments d (b_id b) = Ok ss -> gentle_para L a ss p.
Lemma block_line b a p count cur : block_ok d b a p -> gentle_block b a p ->
  exists line item count' cur' src, md_block L count cur b = Ok (line, item, count', cur') /\ reads_line line src /\ block_reads src (md_para L a p).
Proof.
  intros (-> & ss & E & F & <-) G. specialize (G ss E). unfold md_block. fold d. rewrite E. cbn [bind]. unfold gentle_para in G. unfold md_para. cbn [fst snd] in *.
  change (is_on (f_is_code_block (b_fmt b))) with (on (f_is_code_block (b_fmt b))). destruct (on (f_is_code_block (b_fmt b))).
  - destruct G as [G1 G2]. eexists _, _, _, _, (Code (language (match f_code_language (b_fmt b) with Some l => l | None => [] end)), flat_map raw_segment ss).
    split; [reflexivity|]. split.
    + apply code_block.
      * destruct (f_code_language (b_fmt b)); [apply G2|easy].
      * destruct (f_code_language (b_fmt b)); [apply G2|easy].
      * rewrite <- seg_chars in G1 by easy. exact G1.
    + split; cbn [fst snd].
      * unfold language. destruct (f_code_language (b_fmt b)) as [l|]; [|easy]. destruct G2 as (-> & _). now destruct l.
      * symmetry. now apply inline_raw.
  - destruct G as (G & En & Gh & Gl). rewrite <- (seg_chars ss F) in En. pose proof (gentle_md _ _ export_set export_all ss G) as M. pose proof (gentle_ends md_export_escaped _ export_set export_all ss G En) as Ee. rewrite <- (md_segments_form _ ss G) in M, Ee.
    assert (Nb : ~ In 10%N (flat_map md_segment ss)) by (apply (md_no_break _ _ M); intros c k; now apply (chars_no_break [96; 60; 38]%N)).
    rewrite (md_pieces ss F) in M. unfold export_list, listed in *. cbn [fst] in *. destruct (f_heading_level (b_fmt b)) as [h|] eqn:Eh.
    + specialize (Gh h eq_refl). eexists _, _, _, _, (Head (Z.to_N h) [], _). split; [reflexivity|]. split; [|split; [reflexivity|exact M]].
      rewrite repeated_hash. destruct (heading_line (Z.to_nat h) (flat_map md_segment ss)) as (H1 & H2 & H3); [lia|easy|].
      change (repeat 35%N (Z.to_nat h) ++ lit " " ++ flat_map md_segment ss) with (repeat 35%N (Z.to_nat h) ++ 32%N :: flat_map md_segment ss).
      replace (Z.to_N h) with (N.of_nat (Z.to_nat h)) by lia. apply one_line; [|now apply blank_ends|easy|easy|right; rewrite leading_ends by easy; lia].
      apply no_break_app; [now apply no_break_repeat|]. intros [Hi|Hi]; [discriminate|easy].
    + destruct (match b_list b with Some l => get_list L l | None => None end) as [e|] eqn:El.
      * destruct (repeated_indent (l_indent e) (Gl e eq_refl)) as (k & -> & Hk). change (numbered (l_style e)) with (is_ordered (l_style e)). destruct (is_ordered (l_style e)).
        -- eexists _, _, _, _, (Item true, _). split; [reflexivity|]. split; [|split; [reflexivity|exact M]].
           match goal with |- reads_line (_ ++ decimal ?n ++ _) _ => destruct (number_line k n (flat_map md_segment ss) Hk Ee) as (H1 & H2 & H3 & H4) end.
           apply one_line; [|now apply blank_app|apply fence_app; now intros _|exact H1|now left].
           apply no_break_app; [apply no_break_repeat; discriminate|]. apply no_break_app; [easy|]. apply no_break_app; [cbn; intuition discriminate|easy].
        -- eexists _, _, _, _, (Item false, _). split; [reflexivity|]. split; [|split; [reflexivity|exact M]].
           assert (Ea : ends not_space (txt "- " ++ flat_map md_segment ss)) by (apply ends_app; [eexists _, _; split; [reflexivity|easy]|easy]).
           apply one_line; [|now apply (blank_app k)|now apply fence_app|now apply bullet_line|now left].
           apply no_break_app; [apply no_break_repeat; discriminate|]. apply no_break_app; [cbn; intuition discriminate|easy].
      * eexists _, _, _, _, (Para [], _). split; [reflexivity|]. split; [|split; [reflexivity|exact M]].
        apply one_line; [easy|now apply blank_ends|eapply para_no_fence; eauto|eapply para_line; eauto|right; rewrite leading_ends by easy; lia].
Qed.

Inductive gentle_blocks : list block -> list (option id * bfmt) -> list (list item) -> Prop :=
| gb_nil : gentle_blocks [] [] []
| gb_cons b bs a atts p ps : block_ok d b a p -> gentle_block b a p -> gentle_blocks bs atts ps -> gentle_blocks (b :: bs) (a :: atts) (p :: ps).
Lemma blocks_rest bs atts ps : gentle_blocks bs atts ps -> forall prev count cur, exists parts srcs, md_blocks L false prev count cur bs = Ok parts
  /\ Forall2 block_reads srcs (md_doc L atts ps)
  /\ forall line b, reads_line line b -> read_from (join_with [10; 10]%N (line :: parts)) (b :: srcs).
Proof.
  induction 1 as [|b bs a atts p ps Hb Hg H IH]; intros prev count cur.
  - exists [], []. split; [easy|]. split; [constructor|]. intros line b Hl. now apply read_last.
  - destruct (block_line b a p count cur Hb Hg) as (line & item & count' & cur' & src & E & R & B). cbn [md_blocks]. rewrite E. cbn [bind].
    destruct (IH item count' cur') as (parts & srcs & -> & F & K). cbn [bind]. eexists _, (src :: srcs). split; [reflexivity|]. split; [now constructor|].
    intros line0 b0 H0. specialize (K line src R). cbn [app].
    assert (S2 : exists n, (if item && prev then [10%N] else [10; 10]%N) = repeat 10%N n) by (destruct (item && prev); [exists 1|exists 2]; easy). destruct S2 as (n & ->).
    change (join_with [10; 10]%N (line0 :: repeat 10%N n :: line :: parts)) with (line0 ++ [10; 10]%N ++ repeat 10%N n ++ [10; 10]%N ++ join_with [10; 10]%N (line :: parts)).
    replace (line0 ++ [10; 10]%N ++ repeat 10%N n ++ [10; 10]%N ++ join_with [10; 10]%N (line :: parts))
      with (line0 ++ repeat 10%N (S (S (n + 2))) ++ join_with [10; 10]%N (line :: parts)); [now apply read_more|].
    f_equal. change (repeat 10%N (S (S (n + 2)))) with ([10; 10]%N ++ repeat 10%N (n + 2)). rewrite repeat_app. now rewrite <- !app_assoc.
Qed.
Lemma blocks_first bs atts ps : gentle_blocks bs atts ps -> forall count cur, exists parts, md_blocks L true false count cur bs = Ok parts
  /\ md_shows (join_with [10; 10]%N parts) (md_doc L atts ps).
Proof.
  intros [|b bs' a atts' p ps' Hb Hg H] count cur.
  - exists []. split; [easy|]. exists []. split; [easy|constructor].
  - destruct (block_line b a p count cur Hb Hg) as (line & item & count' & cur' & src & E & R & B). cbn [md_blocks]. rewrite E. cbn [bind].
    destruct (blocks_rest _ _ _ H item count' cur') as (parts & srcs & -> & F & K). cbn [bind app]. eexists. split; [reflexivity|]. exists (src :: srcs).
    split; [apply (K line src R); now left|now constructor].
Qed.
End Blocks.

Lemma export_markdown_theorem L its atts : reach (l_doc L) -> doc_items (l_doc L) = Ok its -> para_attrs (l_doc L) = map Some atts ->
  (forall k i a p ss, nth_error (d_order (l_doc L)) k = Some i -> nth_error atts k = Some a -> nth_error (paragraphs its) k = Some p ->
     block_segments (l_doc L) i = Ok ss -> gentle_para L a ss p) ->
  exists s, export_markdown L = Ok s /\ forall r, md_shows s r <-> r = md_doc L atts (paragraphs its).
Proof.
  intros R Ei Ea G. destruct (reach_items _ R) as (ps & W & E). rewrite E in Ei. injection Ei as <-.
  destruct (blocks_ok_doc _ _ W) as (atts' & Ea' & B). assert (atts' = atts).
  { rewrite Ea in Ea'. clear - Ea'. revert atts Ea'. induction atts' as [|x l IH]; intros [|y m]; cbn; try discriminate; [easy|]. intros [= -> Em]. f_equal. auto. }
  subst atts'. rewrite paragraphs_items in G |- * by apply (wf_ne _ _ W).
  assert (Gb : gentle_blocks L (get_multi (l_doc L) (d_order (l_doc L))) atts (map (fun x => styled (snd x) (d_runs (l_doc L) (fst x))) ps)).
  { assert (Eo : d_order (l_doc L) = map b_id (get_multi (l_doc L) (d_order (l_doc L)))) by (symmetry; apply get_multi_ids; intros i Hi; rewrite (wf_order _ _ W) in Hi; now apply (wf_has _ _ _ W)).
    remember (get_multi (l_doc L) (d_order (l_doc L))) as bs eqn:Hbs. clear Hbs. rewrite Eo in G. clear Eo E Ea Ea' W.
    remember (map (fun x => styled (snd x) (d_runs (l_doc L) (fst x))) ps) as qs eqn:Hq. clear Hq.
    induction B as [|b bs a atts p qs Hb H IH]; [constructor|]. constructor; [easy| |apply IH].
    - intros ss Es. apply (G 0 (b_id b) a p ss); easy.
    - intros k i a' p' ss H1 H2 H3 H4. now apply (G (S k) i a' p' ss). }
  destruct (blocks_first L _ _ _ Gb 0%N None) as (parts & Ep & S). unfold export_markdown, export_blocks. rewrite Ep. cbn [bind]. eexists. split; [reflexivity|].
  intros r. split; [intros Hr; eapply md_shows_unique; eauto|now intros ->].
Qed.

(** ** Fragments *)
(** A line that shows one block and may follow another item if it is one. *)
Definition line_shows (part : str * bool) (b : kind * str) : Prop :=
  ~ In 10%N (fst part) /\ blank (fst part) = false /\ fence (fst part) = false /\ line_block (fst part) = Some b /\ snd part = is_item (fst b)
  /\ (snd part = false -> leading_spaces (fst part) <= 1).
Lemma line_shows_line part b : line_shows part b -> reads_line (fst part) b.
Proof.
  destruct b as [k x]. intros (H1 & H2 & H3 & H4 & H5 & H6). apply one_line; try easy. cbn in H5. rewrite <- H5. destruct (snd part); [now left|right; now apply H6].
Qed.
Lemma join_reads parts : forall srcs, Forall2 line_shows parts srcs ->
  read_from (frag_md_join parts) srcs
  /\ (forall part rest, parts = part :: rest -> snd part = true -> md_lines None BelowItem (lines_of (frag_md_join parts)) = Some srcs).
Proof.
  induction parts as [|part parts IH]; intros srcs F; inversion F as [|part' b parts' bs Hp Hps E1 E2]; subst.
  - split; [|easy]. intros p Hp. now destruct Hp as [-> | ->].
  - destruct (IH bs Hps) as [A B]. destruct parts as [|q rest].
    + inversion Hps; subst. split; [now apply read_last, line_shows_line|]. intros p r [= <- _] Hi. destruct b as [k x]. destruct Hp as (H1 & H2 & H3 & H4 & H5 & _).
      cbn [frag_md_join]. rewrite <- (app_nil_r (lines_of _)). rewrite (place_line BelowItem _ k x []); try easy. cbn in H5 |- *. congruence.
    + cbn [frag_md_join]. destruct (snd part && snd q) eqn:J.
      * apply andb_prop in J. destruct J as [J1 J2]. specialize (B q rest eq_refl J2). destruct b as [k x]. destruct Hp as (H1 & H2 & H3 & H4 & H5 & _). cbn [fst] in H5. rewrite J1 in H5.
        assert (X : forall p, p <> Below -> md_lines None p (lines_of (fst part ++ [10%N] ++ frag_md_join (q :: rest))) = Some ((k, x) :: bs)).
        { intros p Np. change (fst part ++ [10%N] ++ frag_md_join (q :: rest)) with (fst part ++ 10%N :: frag_md_join (q :: rest)). rewrite lines_app.
          rewrite (place_line p _ k x); try easy; [rewrite <- H5, B; easy|]. unfold fits. rewrite <- H5. now destruct p. }
        split; [intros p [-> | ->]; now apply X|]. intros p r E _. injection E as <- _. now apply X.
      * assert (X : read_from (fst part ++ [10; 10]%N ++ frag_md_join (q :: rest)) (b :: bs)) by (apply (read_more _ _ 0); [now apply line_shows_line|exact A]).
        split; [exact X|]. intros p r [= <- _] Hi. rewrite Hi in J. cbn in J. destruct b as [k x]. destruct Hp as (H1 & H2 & H3 & H4 & H5 & _). cbn [fst] in H5. rewrite Hi in H5.
        change (md_lines None BelowItem (lines_of (fst part ++ 10%N :: ([] ++ 10%N :: frag_md_join (q :: rest)))) = Some ((k, x) :: bs)). rewrite !lines_app.
        rewrite (place_line BelowItem _ k x); try easy.
        rewrite <- H5. cbn [lines_of app md_lines blank forallb after_blank].
        now rewrite (A InList (or_intror eq_refl)).
Qed.
Lemma frag_parts_show fbs : Forall gentle_fblock fbs -> forall prev count, exists srcs,
  Forall2 line_shows (frag_md_parts prev count fbs) srcs /\ Forall2 block_reads srcs (map frag_md_para fbs).
Proof.
  induction 1 as [|fb fbs Hf F IH]; intros prev count; [exists []; split; constructor|].
  destruct Hf as (G & Lk & En & _ & Hi).
  pose proof (gentle_md _ _ fragment_set fragment_all _ G) as M. pose proof (gentle_ends md_fragment_escaped _ fragment_set fragment_all _ G En) as Ee.
  rewrite <- (frag_segments_form _ _ G Lk) in M, Ee.
  assert (Nb : ~ In 10%N (flat_map frag_md_segment (fb_elems fb))) by (apply (md_no_break _ _ M); intros c k; now apply (chars_no_break [38%N])).
  cbn [frag_md_parts map]. unfold frag_md_para at 1. destruct (f_heading_level (fb_fmt fb)) as [h|] eqn:Eh.
  - destruct (IH false 0%N) as (srcs & S1 & S2). eexists ((Head (Z.to_N (Z.max 1 (Z.min 6 h))) [], _) :: srcs). split; [constructor; [|exact S1]|constructor; [|exact S2]; split; [reflexivity|exact M]].
    rewrite repeated_hash. destruct (heading_line (Z.to_nat (Z.max 1 (Z.min 6 h))) (flat_map frag_md_segment (fb_elems fb))) as (H1 & H2 & H3); [lia|easy|].
    change (repeat 35%N (Z.to_nat (Z.max 1 (Z.min 6 h))) ++ lit " " ++ flat_map frag_md_segment (fb_elems fb)) with (repeat 35%N (Z.to_nat (Z.max 1 (Z.min 6 h))) ++ 32%N :: flat_map frag_md_segment (fb_elems fb)).
    replace (Z.to_N (Z.max 1 (Z.min 6 h))) with (N.of_nat (Z.to_nat (Z.max 1 (Z.min 6 h)))) by lia. split; [|split; [now apply blank_ends|split; [easy|split; [easy|split; [easy|]]]]].
    + cbn [fst]. apply no_break_app; [now apply no_break_repeat|]. intros [Hx|Hx]; [discriminate|easy].
    + intros _. cbn [fst]. rewrite leading_ends by easy. lia.
  - specialize (fun n => Hi n eq_refl). destruct (fb_list fb) as [e|].
    + assert (K : exists k, match f_indent (fb_fmt fb) with Some n => if (0 <? n)%Z then repeated (lit "  ") n else [] | None => [] end = spaces k /\ k < 4).
      { destruct (f_indent (fb_fmt fb)) as [n|]; [|exists 0; split; [easy|lia]]. specialize (Hi n eq_refl). destruct (Z.ltb_spec 0 n); [|exists 0; split; [easy|lia]].
        apply repeated_indent. lia. }
      destruct K as (k & -> & Hk). change (numbered (l_style e)) with (is_ordered (l_style e)). destruct (is_ordered (l_style e)).
      * match goal with |- context [frag_md_parts true ?c fbs] => destruct (IH true c) as (srcs & S1 & S2) end.
        eexists ((Item true, _) :: srcs). split; [constructor; [|exact S1]|constructor; [|exact S2]; split; [reflexivity|exact M]].
        match goal with |- line_shows (_ ++ decimal ?n ++ _, _) _ => destruct (number_line k n (flat_map frag_md_segment (fb_elems fb)) Hk Ee) as (H1 & H2 & H3 & H4) end.
        split; [|split; [now apply blank_app|split; [apply fence_app; now intros _|split; [exact H1|split; easy]]]]. cbn [fst].
        apply no_break_app; [apply no_break_repeat; discriminate|]. apply no_break_app; [easy|]. apply no_break_app; [cbn; intuition discriminate|easy].
      * match goal with |- context [frag_md_parts true ?c fbs] => destruct (IH true c) as (srcs & S1 & S2) end.
        eexists ((Item false, _) :: srcs). split; [constructor; [|exact S1]|constructor; [|exact S2]; split; [reflexivity|exact M]].
        assert (Ea : ends not_space (txt "- " ++ flat_map frag_md_segment (fb_elems fb))) by (apply ends_app; [eexists _, _; split; [reflexivity|easy]|easy]).
        split; [|split; [now apply (blank_app k)|split; [now apply fence_app|split; [now apply bullet_line|split; easy]]]]. cbn [fst].
        apply no_break_app; [apply no_break_repeat; discriminate|]. apply no_break_app; [cbn; intuition discriminate|easy].
    + assert (E0 : match f_indent (fb_fmt fb) with Some n => if (0 <? n)%Z then repeated (lit "  ") n else [] | None => [] end = []).
      { destruct (f_indent (fb_fmt fb)) as [n|]; [|easy]. specialize (Hi n eq_refl). destruct (Z.ltb_spec 0 n); [lia|easy]. }
      rewrite E0. cbn [app]. destruct (IH false 0%N) as (srcs & S1 & S2). eexists ((Para [], _) :: srcs). split; [constructor; [|exact S1]|constructor; [|exact S2]; split; [reflexivity|exact M]].
      split; [easy|split; [now apply blank_ends|split; [eapply para_no_fence; eauto|split; [eapply para_line; eauto|split; [easy|]]]]]. intros _. cbn [fst]. rewrite leading_ends by easy. lia.
Qed.
Lemma fragment_markdown_theorem x fbs : df_data x = Some fbs -> Forall gentle_fblock fbs ->
  forall r, md_shows (frag_to_markdown x) r <-> r = map frag_md_para fbs.
Proof.
  intros E F r. unfold frag_to_markdown. rewrite E. destruct (frag_parts_show fbs F false 0%N) as (srcs & S1 & S2).
  assert (S : md_shows (frag_md_join (frag_md_parts false 0%N fbs)) (map frag_md_para fbs)).
  { exists srcs. split; [|easy]. apply (join_reads _ _ S1). now left. }
  split; [intros H; eapply md_shows_unique; eauto|now intros ->].
Qed.
