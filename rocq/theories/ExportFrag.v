(** The HTML of fragments, and images. *)
From Coq Require Import Ascii String.
From Verif Require Import Base BaseFacts FormatRunsModel FormatRunsSpec RopeModel RopeSpec DocModel DocSpec DocInv DocFacts HistModel HistSpec DocHist
  QueryModel QuerySpec QueryFacts QueryText PropSpec DocTheorems QueryTheorems ListModel ListSpec ListFacts ListDocModel
  FragmentModel FragmentText FragmentSpec FragmentCopySpec FragmentTheorems EscapeModel EscapeSpec EscapeFacts ExportModel ExportSpec ExportHtml.

Lemma show_int_text z : int_text z (show_int z).
Proof.
  unfold int_text, show_int. destruct (decimal_good (Z.abs_N z)) as [V P]. destruct (Z.ltb_spec z 0) as [H|H].
  - exists (decimal (Z.abs_N z)). repeat split; try apply P. rewrite V. lia.
  - split; [exact P|]. rewrite V. lia.
Qed.
Lemma show_int_calm z : calm (show_int z).
Proof.
  assert (D : calm (decimal (Z.abs_N z))).
  { destruct (decimal_good (Z.abs_N z)) as [_ [D _]]. rewrite Forall_forall in D. intros c Hc Ha. specialize (D c Hc). unfold digit in D.
    vm_compute in Ha. repeat (destruct Ha as [Ha|Ha]; [lia|]). easy. }
  unfold show_int. destruct (z <? 0)%Z; [|easy]. apply (calm_app [45%N]); [now apply calm_lit|easy].
Qed.

Lemma image_gives e (name_src : str) i : e = txt ">" \/ e = txt " />" -> reads html_codes html_active name_src (iname i) ->
  gives (lit "<img src=""" ++ name_src ++ lit """ width=""" ++ show_int (iwidth i) ++ lit """ height=""" ++ show_int (iheight i) ++ lit """" ++ e)
    (fun k => [SImage (iname i) (show_int (iwidth i)) (show_int (iheight i)) k]).
Proof.
  intros He R. exists [Elem (txt "img") [(txt "src", iname i); (txt "width", show_int (iwidth i)); (txt "height", show_int (iheight i))] []]. split.
  - pose proof (h_void (txt "img") _ _ e [] [] ltac:(cbn; auto)
      (attrs_cons (txt "src") _ _ _ _ ltac:(name) R
       (attrs_cons (txt "width") _ _ _ _ ltac:(name) (calm_reads _ (show_int_calm (iwidth i)))
        (attrs_cons (txt "height") _ _ [] [] ltac:(name) (calm_reads _ (show_int_calm (iheight i))) attrs_nil))) He h_nil) as P.
    cbn in P |- *. rewrite <- ?app_assoc in P. cbn in P. rewrite <- ?app_assoc in P. cbn in P. rewrite <- ?app_assoc in P. cbn in P. rewrite ?app_nil_r in P. exact P.
  - intros k. rewrite inline_one, inline1_elem. reflexivity.
Qed.

Lemma image_starts i : html_image i <> [] /\ starts_with (lit "<img ") (html_image i) = true.
Proof. split; [easy|]. unfold html_image. reflexivity. Qed.
Lemma html_segments ss : (forall i, In (SegImage i) ss -> look_of (ifmt i) = bare) ->
  exists ns, html (flat_map html_segment ss) ns /\ inline bare ns = Some (flat_map (shown_segment show_int) ss).
Proof.
  induction ss as [|s ss IH]; intros F; [exists []; split; [constructor|easy]|].
  destruct IH as (b & Hb & Ib); [intros i Hi; apply F; now right|].
  assert (exists g, gives (html_segment s) g /\ g bare = shown_segment show_int s) as (g & (a & Ha & Ia) & Hg).
  { destruct s as [t f|i]; [apply segment_gives|]. exists (fun k => [SImage (iname i) (show_int (iwidth i)) (show_int (iheight i)) k]). split.
    - unfold html_segment. destruct (image_starts i) as [N S]. destruct (html_image i) as [|c r] eqn:E; [easy|]. rewrite <- E in *. rewrite S.
      unfold html_image. change (lit """ />") with (lit """" ++ lit " />"). apply image_gives; [now right|]. apply (html_reads (iname i)).
    - cbn [shown_segment]. rewrite F; [easy|now left]. }
  exists (a ++ b). split; [cbn [flat_map]; now apply html_app|]. rewrite inline_app, Ia, Ib, Hg. reflexivity.
Qed.

(** ** Fragments *)
Lemma frag_segment_gives s : (forall h, anchor_href (segment_format s) = Some h -> is_anchor (segment_format s) = Some true) ->
  exists g, gives (frag_html_segment s) g /\ g bare = shown_segment show_int s.
Proof.
  intros Hl. unfold frag_html_segment.
  assert (exists g0, gives (match s with SegText t _ => escape_html_fragment t | SegImage i => frag_html_image i end) g0
    /\ forall k, match s with SegText t _ => g0 k = map (fun c => SChar c k) t
                 | SegImage i => g0 k = [SImage (iname i) (show_int (iwidth i)) (show_int (iheight i)) k] end) as (g0 & G & Hg0).
  { destruct s as [t f|i].
    - eexists. split; [apply gives_text; apply (html_reads t)|easy].
    - eexists. split; [|cbn; reflexivity]. unfold frag_html_image. change (lit """>") with (lit """" ++ lit ">"). apply image_gives; [now left|]. apply (html_reads (iname i)). }
  change (match s with SegText _ f => f | SegImage i => ifmt i end) with (segment_format s).
  apply (gives_five (segment_format s)) in G.
  assert (K : forall l, g0 (mk_look (is_mono (segment_format s)) (is_on (font_bold (segment_format s))) (is_on (font_italic (segment_format s)))
     (is_on (font_underline (segment_format s))) (is_on (font_strikeout (segment_format s))) l) =
     match s with SegText t _ => map (fun c => SChar c (mk_look (is_mono (segment_format s)) (is_on (font_bold (segment_format s))) (is_on (font_italic (segment_format s)))
     (is_on (font_underline (segment_format s))) (is_on (font_strikeout (segment_format s))) l)) t
      | SegImage i => [SImage (iname i) (show_int (iwidth i)) (show_int (iheight i)) (mk_look (is_mono (segment_format s)) (is_on (font_bold (segment_format s))) (is_on (font_italic (segment_format s)))
     (is_on (font_underline (segment_format s))) (is_on (font_strikeout (segment_format s))) l)] end).
  { intros l. specialize (Hg0 (mk_look (is_mono (segment_format s)) (is_on (font_bold (segment_format s))) (is_on (font_italic (segment_format s)))
     (is_on (font_underline (segment_format s))) (is_on (font_strikeout (segment_format s))) l)). destruct s; exact Hg0. }
  destruct (anchor_href (segment_format s)) as [h|] eqn:Eh.
  - rewrite (Hl h eq_refl). cbn [is_on]. eexists. split; [apply gives_link; [apply (html_reads h)|exact G]|].
    cbn beta. rewrite five_bare, K, <- Eh. destruct s; reflexivity.
  - exists (fun k => g0 (five (segment_format s) k)). split; [destruct (is_on (is_anchor _)); exact G|].
    change bare with (mk_look false false false false false None). rewrite five_bare, K, <- Eh. destruct s; reflexivity.
Qed.
Lemma frag_inline_shows ss : (forall s h, In s ss -> anchor_href (segment_format s) = Some h -> is_anchor (segment_format s) = Some true) ->
  exists ns, html (frag_html_inline ss) ns /\ inline bare ns = Some (flat_map (shown_segment show_int) ss).
Proof.
  unfold frag_html_inline. induction ss as [|s ss IH]; intros F; [exists []; split; [constructor|easy]|].
  destruct IH as (b & Hb & Ib); [intros x h Hx; apply F; now right|].
  destruct (frag_segment_gives s) as (g & (a & Ha & Ia) & Hg); [intros h; apply F; now left|].
  exists (a ++ b). split; [cbn [flat_map]; now apply html_app|]. rewrite inline_app, Ia, Ib, Hg. reflexivity.
Qed.

Lemma frag_styles_css f : frag_styles f = frag_css show_int f.
Proof.
  unfold frag_styles, frag_css. f_equal.
  - destruct (f_alignment f) as [a|]; [|easy].
    destruct a as [|p]; [reflexivity|]. destruct p as [p|p|]; try reflexivity; destruct p; reflexivity.
  - f_equal. f_equal. destruct (f_text_indent f) as [[|n|n]|]; reflexivity.
Qed.
Lemma frag_css_empty number number' f : frag_css number f = [] -> frag_css number' f = [].
Proof.
  unfold frag_css. intros H. repeat (apply app_eq_nil in H; destruct H as [? H]).
  repeat match goal with H : ?x = [] |- context [?x] => rewrite H end.
  destruct (f_indent f) as [n|]; [destruct (0 <? n)%Z|]; try discriminate; destruct (f_text_indent f) as [[| |]|]; try discriminate;
  destruct (f_top_margin f); try discriminate; destruct (f_bottom_margin f); try discriminate; destruct (f_left_margin f); try discriminate;
  destruct (f_right_margin f); try discriminate; reflexivity.
Qed.
Lemma calm_number a z b : calm a -> calm b -> calm (a ++ show_int z ++ b).
Proof. intros Ha Hb. apply calm_app; [easy|]. apply calm_app; [apply show_int_calm|easy]. Qed.
Lemma frag_css_calm f : Forall calm (frag_css show_int f).
Proof.
  unfold frag_css. rewrite !Forall_app. repeat split.
  - destruct (f_alignment f) as [a|]; [|constructor]. destruct a as [|p]; [|destruct p as [p|p|]; [|destruct p|]]; repeat constructor; now apply calm_lit.
  - destruct (f_indent f) as [n|]; [destruct (0 <? n)%Z|]; repeat constructor; apply calm_number; now apply calm_lit.
  - destruct (f_text_indent f) as [[| |]|]; repeat constructor; apply calm_number; now apply calm_lit.
  - destruct (f_top_margin f); repeat constructor; apply calm_number; now apply calm_lit.
  - destruct (f_bottom_margin f); repeat constructor; apply calm_number; now apply calm_lit.
  - destruct (f_left_margin f); repeat constructor; apply calm_number; now apply calm_lit.
  - destruct (f_right_margin f); repeat constructor; apply calm_number; now apply calm_lit.
Qed.

Lemma frag_para_shows fb : fb_list fb = None -> links_marked fb -> no_code_no_styled_heading fb ->
  shows (frag_html_para fb) [frag_shown show_int fb].
Proof.
  intros Hl Hm [Hc Hs]. unfold frag_html_para, frag_shown. rewrite Hc, Hl. destruct (frag_inline_shows _ Hm) as (ns & H & I).
  destruct (f_heading_level (fb_fmt fb)) as [z|] eqn:Eh.
  - rewrite (frag_css_empty (fun _ => []) show_int _ (Hs ltac:(discriminate))).
    pose proof (shows_para [] [] _ ns _ (Some z) attrs_nil H I) as P. cbn in P |- *. exact P.
  - rewrite frag_styles_css. pose proof (shows_para _ _ _ ns _ None (style_attr_source _ (frag_css_calm (fb_fmt fb))) H I) as P.
    destruct (frag_css show_int (fb_fmt fb)) as [|x l]; cbn in P |- *; [exact P|]. rewrite <- ?app_assoc in P. cbn in P. exact P.
Qed.

Lemma frag_blocks_show fbs : Forall links_marked fbs -> Forall no_code_no_styled_heading fbs -> forall open r,
  match open with Some (o, items) => items_show o items r | None => r = [] end ->
  shows (frag_html_blocks open fbs) (r ++ map (frag_shown show_int) fbs).
Proof.
  induction fbs as [|fb fbs IH]; intros Hm Hc open r Hr.
  - cbn. rewrite app_nil_r. destruct open as [[o items]|]; [now apply items_close|]. subst r. apply shows_nil.
  - inversion Hm as [|? ? Hm1 Hm2]; inversion Hc as [|? ? Hc1 Hc2]; subst. specialize (IH Hm2 Hc2).
    set (closed := match open with Some (o, items) => html_list o items | None => [] end).
    assert (Cl : shows closed r).
    { unfold closed. destruct open as [[o items]|]; [now apply items_close|]. subst r. apply shows_nil. }
    destruct (frag_inline_shows (fb_elems fb) Hm1) as (ns & H & I).
    cbn [frag_html_blocks map]. fold closed. destruct (fb_list fb) as [e|] eqn:El.
    + assert (Ef : frag_shown show_int fb = (Item (is_ordered (l_style e)), flat_map (shown_segment show_int) (fb_elems fb))).
      { unfold frag_shown. rewrite El. destruct Hc1 as [-> _]. reflexivity. }
      assert (New : shows (frag_html_blocks (Some (is_ordered (l_style e), [tag (lit "li") (frag_html_inline (fb_elems fb))])) fbs)
        ([frag_shown show_int fb] ++ map (frag_shown show_int) fbs)).
      { apply IH. rewrite Ef. exact (items_add _ [] [] _ ns _ (items_nil _) H I). }
      destruct open as [[o items]|].
      * destruct (Bool.eqb_spec (is_ordered (l_style e)) o) as [<-|_].
        -- replace (r ++ frag_shown show_int fb :: map (frag_shown show_int) fbs) with ((r ++ [frag_shown show_int fb]) ++ map (frag_shown show_int) fbs)
             by now rewrite <- app_assoc.
           apply IH. rewrite Ef. now apply (items_add _ _ _ _ ns).
        -- apply shows_app; [exact Cl|exact New].
      * subst r. exact New.
    + assert (G : shows (closed ++ frag_html_para fb ++ frag_html_blocks None fbs) (r ++ frag_shown show_int fb :: map (frag_shown show_int) fbs)).
      { apply shows_app; [exact Cl|]. change (?x :: ?y) with ([x] ++ y). apply shows_app; [now apply frag_para_shows|]. now apply (IH None []). }
      destruct open as [[o items]|]; exact G.
Qed.

Lemma fragment_html_theorem : exists number, (forall z, int_text z (number z))
  /\ forall x fbs, df_data x = Some fbs -> Forall links_marked fbs -> Forall no_code_no_styled_heading fbs ->
     exists ns, html (frag_to_html x) (page ns)
       /\ ((forall fb, fbs = [fb] -> ~ without_format fb) -> blocks ns = Some (map (frag_shown number) fbs))
       /\ (forall fb, fbs = [fb] -> without_format fb -> inline bare ns = Some (flat_map (shown_segment number) (fb_elems fb))).
Proof.
  exists show_int. split; [apply show_int_text|]. intros x fbs Ex Hm Hc. unfold frag_to_html. rewrite Ex.
  destruct (frag_blocks_show fbs Hm Hc None [] eq_refl) as (ns & H & I). cbn [app] in I.
  destruct fbs as [|fb [|fb2 rest]].
  - exists ns. split; [now apply page_html|]. split; [auto|easy].
  - destruct (is_inline_only fb) eqn:Ei.
    + inversion Hm; subst. destruct (frag_inline_shows (fb_elems fb)) as (ms & H' & I'); [easy|]. exists ms. split; [now apply page_html|].
      split; [|now intros ? [= <-]]. intros Hn. exfalso. apply (Hn fb eq_refl). now apply inline_theorem.
    + exists ns. split; [now apply page_html|]. split; [auto|]. intros y [= <-] Hw. apply inline_theorem in Hw. congruence.
  - exists ns. split; [now apply page_html|]. split; [auto|easy].
Qed.
Lemma html_segments_theorem : exists number, (forall z, int_text z (number z))
  /\ forall ss, (forall i, In (SegImage i) ss -> look_of (ifmt i) = bare) ->
     exists ns, html (flat_map html_segment ss) ns /\ inline bare ns = Some (flat_map (shown_segment number) ss).
Proof. exists show_int. split; [apply show_int_text|apply html_segments]. Qed.
