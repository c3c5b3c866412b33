(** The exported HTML shows the document. *)
From Coq Require Import Ascii String.
From Verif Require Import Base BaseFacts FormatRunsModel FormatRunsSpec RopeModel RopeSpec DocModel DocSpec DocInv DocFacts HistModel HistSpec DocHist
  QueryModel QuerySpec QueryFacts QueryText PropSpec DocTheorems QueryTheorems ListModel ListDocModel FragmentModel FragmentText
  EscapeModel EscapeSpec EscapeFacts ExportModel ExportSpec.

Lemma html_app e1 l1 : html e1 l1 -> forall e2 l2, html e2 l2 -> html (e1 ++ e2) (l1 ++ l2).
Proof.
  induction 1; intros e2 l2 HH; cbn [app]; rewrite <- ?app_assoc; [easy|now constructor; auto|constructor; auto| |].
  - change (txt "<" ++ n ++ a ++ txt ">" ++ inner ++ (txt "</" ++ n ++ txt ">" ++ rest) ++ e2) with
      (txt "<" ++ n ++ a ++ txt ">" ++ inner ++ txt "</" ++ n ++ txt ">" ++ rest ++ e2). constructor; auto.
  - constructor; auto.
Qed.
Lemma html_reads_nodes e t : reads html_codes html_active e t -> html e (map Ch t).
Proof. induction 1; cbn [map]; constructor; auto. Qed.
Lemma html_flat {A} (f : A -> str) (g : A -> list node) l : (forall x, In x l -> html (f x) (g x)) -> html (flat_map f l) (flat_map g l).
Proof.
  induction l as [|x l IH]; intros H; cbn; [constructor|]. apply html_app; [apply H; now left|]. apply IH. intros y Hy. apply H. now right.
Qed.

Ltac name := split; [discriminate|repeat constructor].
Ltac notvoid := let H := fresh in intros H; vm_compute in H; repeat (destruct H as [H|H]; [discriminate|]); easy.
Lemma html_tag n inner kids : is_name n -> ~ In n void_names -> html inner kids -> html (tag n inner) [Elem n [] kids].
Proof.
  intros Hn Hv H. unfold tag. change lit with txt. rewrite <- (app_nil_r (txt ">")) at 2.
  exact (h_elem n [] [] inner kids [] [] Hn Hv attrs_nil H h_nil).
Qed.

Lemma inline_app k a b : inline k (a ++ b) = also (inline k a) (inline k b).
Proof.
  induction a as [|x a IH]; cbn [inline app]; [now destruct (inline k b)|]. rewrite IH.
  destruct (inline1 k x), (inline k a), (inline k b); cbn; rewrite ?app_assoc; easy.
Qed.
Lemma inline1_elem k n attrs kids : inline1 k (Elem n attrs kids) =
  if named n "img" then
    match attrs with
    | [(a, x); (b, y); (c, z)] => if named a "src" && named b "width" && named c "height" then Some [SImage x y z k] else None
    | _ => None
    end
  else match inside n attrs k with None => None | Some k' => inline k' kids end.
Proof.
  cbn [inline1]. destruct (named n "img"); [easy|]. destruct (inside n attrs k) as [k'|]; [|easy]. clear.
  induction kids as [|x kids IH]; cbn [inline]; [easy|]. now rewrite IH.
Qed.
Lemma inline_one k n : inline k [n] = inline1 k n.
Proof. cbn. destruct (inline1 k n) as [l|]; cbn; now rewrite ?app_nil_r. Qed.
Lemma inline_chars k t : inline k (map Ch t) = Some (map (fun c => SChar c k) t).
Proof. induction t as [|c t IH]; cbn [map inline inline1]; [easy|]. now rewrite IH. Qed.

(** Source [x] shows [g k] inside look [k]. *)
Definition gives (x : str) (g : look -> list shown) : Prop := exists ns, html x ns /\ forall k, inline k ns = Some (g k).
Lemma gives_app x y g h : gives x g -> gives y h -> gives (x ++ y) (fun k => g k ++ h k).
Proof.
  intros (a & Ha & Ia) (b & Hb & Ib). exists (a ++ b). split; [now apply html_app|]. intros k. rewrite inline_app, Ia, Ib. reflexivity.
Qed.
Lemma gives_nil : gives [] (fun _ => []). Proof. exists []. split; [constructor|easy]. Qed.
Lemma gives_text e t : reads html_codes html_active e t -> gives e (fun k => map (fun c => SChar c k) t).
Proof. intros H. exists (map Ch t). split; [now apply html_reads_nodes|]. intros k. apply inline_chars. Qed.
Lemma gives_tag n (up : look -> look) x g (b : bool) : is_name n -> ~ In n void_names -> named n "img" = false -> (forall k, inside n [] k = Some (up k)) ->
  gives x g -> gives (tag_if b n x) (fun k => g (if b then up k else k)).
Proof.
  intros Hn Hv Hi Hk (ns & H & I). destruct b; cbn [tag_if]; [|now exists ns].
  exists [Elem n [] ns]. split; [now apply html_tag|]. intros k. rewrite inline_one, inline1_elem, Hi, Hk. apply I.
Qed.
Lemma gives_link e href x g : reads html_codes html_active e href -> gives x g ->
  gives (lit "<a href=""" ++ e ++ lit """>" ++ x ++ lit "</a>")
    (fun k => g (mk_look (k_code k) (k_bold k) (k_italic k) (k_underline k) (k_strike k) (Some href))).
Proof.
  intros He (ns & H & I). exists [Elem (txt "a") [(txt "href", href)] ns]. split.
  - pose proof (h_elem (txt "a") _ _ x ns [] [] ltac:(name) ltac:(notvoid)
      (attrs_cons (txt "href") e href [] [] ltac:(name) He attrs_nil) H h_nil) as P.
    replace (lit "<a href=""" ++ e ++ lit """>" ++ x ++ lit "</a>")
      with (txt "<" ++ txt "a" ++ (txt " " ++ txt "href" ++ txt "=""" ++ e ++ txt """" ++ []) ++ txt ">" ++ x ++ txt "</" ++ txt "a" ++ txt ">" ++ []); [exact P|].
    cbn. rewrite <- !app_assoc. reflexivity.
  - intros k. rewrite inline_one, inline1_elem. destruct k. cbn [named]. apply I.
Qed.

Lemma first_amp t : starts_with (lit "<img ") (escape_html t) = false.
Proof.
  rewrite escape_html_flat. destruct t as [|c t]; [reflexivity|]. cbn [flat_map].
  unfold starts_with, str_eqb. destruct (list_eq_dec _ _ _) as [E|]; [|easy]. exfalso. unfold html_one in E.
  repeat match type of E with context [(c =? ?k)%N] => destruct (N.eqb_spec c k); [now vm_compute in E|] end.
  cbn in E. injection E as -> _. easy.
Qed.

Lemma look_up f k : k = bare ->
  mk_look (is_mono f || k_code k) (is_on (font_bold f) || k_bold k) (is_on (font_italic f) || k_italic k)
    (is_on (font_underline f) || k_underline k) (is_on (font_strikeout f) || k_strike k) (anchor_href f) = look_of f.
Proof. intros ->. cbn. rewrite !orb_false_r. reflexivity. Qed.

Definition set_code k := mk_look true (k_bold k) (k_italic k) (k_underline k) (k_strike k) (k_link k).
Definition set_bold k := mk_look (k_code k) true (k_italic k) (k_underline k) (k_strike k) (k_link k).
Definition set_italic k := mk_look (k_code k) (k_bold k) true (k_underline k) (k_strike k) (k_link k).
Definition set_under k := mk_look (k_code k) (k_bold k) (k_italic k) true (k_strike k) (k_link k).
Definition set_strike k := mk_look (k_code k) (k_bold k) (k_italic k) (k_underline k) true (k_link k).

(** The five tags around a text. *)
Definition five (f : cfmt) (k : look) : look :=
  let k := if is_on (font_strikeout f) then set_strike k else k in
  let k := if is_on (font_underline f) then set_under k else k in
  let k := if is_on (font_italic f) then set_italic k else k in
  let k := if is_on (font_bold f) then set_bold k else k in
  if is_mono f then set_code k else k.
Lemma gives_five f x g : gives x g -> gives
  (tag_if (is_on (font_strikeout f)) (lit "s") (tag_if (is_on (font_underline f)) (lit "u") (tag_if (is_on (font_italic f)) (lit "em")
     (tag_if (is_on (font_bold f)) (lit "strong") (tag_if (is_mono f) (lit "code") x))))) (fun k => g (five f k)).
Proof.
  intros H.
  apply (gives_tag (lit "code") set_code _ _ (is_mono f)) in H; [|name|notvoid|reflexivity|now intros []].
  apply (gives_tag (lit "strong") set_bold _ _ (is_on (font_bold f))) in H; [|name|notvoid|reflexivity|now intros []].
  apply (gives_tag (lit "em") set_italic _ _ (is_on (font_italic f))) in H; [|name|notvoid|reflexivity|now intros []].
  apply (gives_tag (lit "u") set_under _ _ (is_on (font_underline f))) in H; [|name|notvoid|reflexivity|now intros []].
  apply (gives_tag (lit "s") set_strike _ _ (is_on (font_strikeout f))) in H; [|name|notvoid|reflexivity|now intros []].
  exact H.
Qed.
Lemma five_bare f (link : option str) : five f (mk_look false false false false false link)
  = mk_look (is_mono f) (is_on (font_bold f)) (is_on (font_italic f)) (is_on (font_underline f)) (is_on (font_strikeout f)) link.
Proof.
  unfold five. destruct (is_mono f), (is_on (font_bold f)), (is_on (font_italic f)), (is_on (font_underline f)), (is_on (font_strikeout f)); reflexivity.
Qed.

Lemma segment_gives t f : exists g, gives (html_segment (SegText t f)) g /\ g bare = map (fun c => SChar c (look_of f)) t.
Proof.
  unfold html_segment. destruct (escape_html t) as [|c e] eqn:E.
  - destruct t as [|c t]; [|exfalso; rewrite escape_html_flat in E; cbn in E; unfold html_one in E;
      repeat (destruct (_ =? _)%N in E; [discriminate|]); discriminate].
    eexists. split; [apply gives_nil|easy].
  - rewrite <- E, first_amp. pose proof (gives_five f _ _ (gives_text _ _ (proj1 (html_reads t)))) as H.
    destruct (anchor_href f) as [href|] eqn:Eh.
    + eexists. split; [apply gives_link; [apply (proj1 (html_reads href))|exact H]|]. cbn beta. rewrite five_bare, <- Eh. reflexivity.
    + eexists. split; [exact H|]. cbn beta. change bare with (mk_look false false false false false None). rewrite five_bare, <- Eh. reflexivity.
Qed.
Lemma segments_give ss : Forall is_text ss ->
  exists ns, html (flat_map html_segment ss) ns /\ inline bare ns = Some (flat_map shown_item (flat_map seg_items ss)).
Proof.
  induction ss as [|s ss IH]; intros F; [exists []; split; [constructor|easy]|]. inversion F as [|? ? Hs Fs]; subst.
  destruct s as [t f|]; [|easy]. destruct (segment_gives t f) as (g & (a & Ha & Ia) & Hg). destruct (IH Fs) as (b & Hb & Ib).
  exists (a ++ b). split; [cbn [flat_map]; now apply html_app|]. rewrite inline_app, Ia, Ib, Hg. cbn [flat_map also]. rewrite flat_map_app. f_equal. f_equal.
  cbn [seg_items]. clear. induction t as [|c t IH]; cbn; [easy|]. now rewrite IH.
Qed.

(** *** Paragraphs *)
Lemma calm_reads t : calm t -> reads html_codes html_active t t.
Proof. induction t as [|c t IH]; intros H; constructor; [apply H; now left|]. apply IH. intros x Hx. apply H. now right. Qed.
Lemma calm_app a b : calm a -> calm b -> calm (a ++ b).
Proof. intros Ha Hb c Hc. rewrite in_app_iff in Hc. destruct Hc; auto. Qed.
Definition calmb (t : str) : bool := forallb (fun c => negb (existsb (N.eqb c) html_active)) t.
Lemma calm_lit t : calmb t = true -> calm t.
Proof.
  unfold calmb. rewrite forallb_forall. intros H c Hc Ha. specialize (H c Hc).
  assert (existsb (N.eqb c) html_active = true) by (rewrite existsb_exists; exists c; now rewrite N.eqb_refl). rewrite H0 in H. discriminate.
Qed.
Lemma semicolons_join l : join_with (lit "; ") l = semicolons l.
Proof. induction l as [|x [|y l] IH]; cbn [join_with semicolons] in *; [easy|easy|]. now rewrite IH. Qed.
Lemma calm_semicolons l : Forall calm l -> calm (semicolons l).
Proof.
  induction l as [|x [|y l] IH]; intros F; cbn [semicolons]; [easy|now inversion F|]. inversion F; subst.
  apply calm_app; [easy|]. apply calm_app; [now apply calm_lit|]. now apply IH.
Qed.
Lemma styles_css height f : html_styles height f = css height f.
Proof.
  unfold html_styles, css. f_equal. destruct (f_alignment f) as [a|]; [|easy].
  destruct a as [|p]; [reflexivity|]. destruct p as [p|p|]; try reflexivity; destruct p; reflexivity.
Qed.
Lemma css_calm height f : (forall z, calm (height z)) -> (forall c, f_background_color f = Some c -> calm c) -> Forall calm (css height f).
Proof.
  intros Hh Hc. unfold css. rewrite !Forall_app. repeat split.
  - destruct (f_alignment f) as [a|]; [|constructor]. destruct a as [|p]; [|destruct p as [p|p|]; [|destruct p|]]; repeat constructor; now apply calm_lit.
  - destruct (f_line_height f); constructor; [|constructor]. apply calm_app; [now apply calm_lit|apply Hh].
  - destruct (on _); repeat constructor. now apply calm_lit.
  - destruct (f_direction f) as [[|[| |]]|]; repeat constructor. now apply calm_lit.
  - destruct (f_background_color f); constructor; [|constructor]. apply calm_app; [now apply calm_lit|now apply Hc].
Qed.
Lemma style_attr_source (l : list str) : Forall calm l ->
  attrs_source (match l with [] => [] | y :: m => lit " style=""" ++ join_with (lit "; ") (y :: m) ++ lit """" end) (style_attrs l).
Proof.
  intros F. destruct l as [|x l]; [constructor|]. rewrite semicolons_join. unfold style_attrs.
  pose proof (attrs_cons (txt "style") _ _ [] [] ltac:(name) (calm_reads _ (calm_semicolons _ F)) attrs_nil) as P.
  replace (lit " style=""" ++ semicolons (x :: l) ++ lit """") with (txt " " ++ txt "style" ++ txt "=""" ++ semicolons (x :: l) ++ txt """" ++ []); [exact P|].
  cbn. rewrite ?app_nil_r. reflexivity.
Qed.

Definition shows (x : str) (r : list (kind * list shown)) : Prop := exists ns, html x ns /\ blocks ns = Some r.
Lemma blocks_app a b : blocks (a ++ b) = also (blocks a) (blocks b).
Proof.
  induction a as [|x a IH]; cbn [blocks app]; [now destruct (blocks b)|]. rewrite IH.
  destruct (block1 x), (blocks a), (blocks b); cbn; rewrite ?app_assoc; easy.
Qed.
Lemma shows_app x y a b : shows x a -> shows y b -> shows (x ++ y) (a ++ b).
Proof.
  intros (n & H & I) (m & H' & I'). exists (n ++ m). split; [now apply html_app|]. rewrite blocks_app, I, I'. reflexivity.
Qed.
Lemma shows_nil : shows [] []. Proof. exists []. split; [constructor|easy]. Qed.
Lemma blocks_one n : blocks [n] = block1 n.
Proof. cbn. destruct (block1 n) as [l|]; cbn; now rewrite ?app_nil_r. Qed.

Lemma elem_attr n a attrs inner kids : is_name n -> ~ In n void_names -> attrs_source a attrs -> html inner kids ->
  html (lit "<" ++ n ++ a ++ lit ">" ++ inner ++ lit "</" ++ n ++ lit ">") [Elem n attrs kids].
Proof.
  intros Hn Hv Ha H. rewrite <- (app_nil_r (lit ">")) at 2. change lit with txt.
  exact (h_elem n a attrs inner kids [] [] Hn Hv Ha H h_nil).
Qed.

Lemma level_cases z : let m := Z.max 1 (Z.min 6 z) in m = 1%Z \/ m = 2%Z \/ m = 3%Z \/ m = 4%Z \/ m = 5%Z \/ m = 6%Z.
Proof. lia. Qed.
Lemma heading_ok z : let n := lit "h" ++ show_int (Z.max 1 (Z.min 6 z)) in
  is_name n /\ ~ In n void_names /\ named n "p" = false /\ heading_level n = Some (Z.to_N (Z.max 1 (Z.min 6 z))).
Proof.
  cbv zeta. destruct (level_cases z) as [E|[E|[E|[E|[E|E]]]]]; cbv zeta in E; rewrite E; (split; [name|split; [notvoid|split; reflexivity]]).
Qed.
Lemma head_block h attrs kids l z : named h "p" = false -> heading_level h = Some z -> inline bare kids = Some l ->
  block1 (Elem h attrs kids) = Some [(Head z attrs, l)].
Proof. intros H1 H2 H3. cbn [block1]. now rewrite H1, H2, H3. Qed.
Lemma para_block attrs kids l : inline bare kids = Some l -> block1 (Elem (txt "p") attrs kids) = Some [(Para attrs, l)].
Proof. intros H. cbn [block1]. replace (named (txt "p") "p") with true by reflexivity. now rewrite H. Qed.

(** A paragraph or heading with style attributes. *)
Lemma shows_para a attrs inner kids l (h : option Z) : attrs_source a attrs -> html inner kids -> inline bare kids = Some l ->
  shows (match h with
         | Some level =>
             let n := show_int (Z.max 1 (Z.min 6 level)) in
             lit "<h" ++ n ++ a ++ lit ">" ++ inner ++ lit "</h" ++ n ++ lit ">"
         | None => lit "<p" ++ a ++ lit ">" ++ inner ++ lit "</p>"
         end)
    [(match h with Some z => Head (Z.to_N (Z.max 1 (Z.min 6 z))) attrs | None => Para attrs end, l)].
Proof.
  intros Ha H I. destruct h as [z|].
  - destruct (heading_ok z) as (H1 & H2 & H3 & H4). cbv zeta in *. eexists. split.
    + pose proof (elem_attr _ a attrs inner kids H1 H2 Ha H) as P. cbn in P |- *. exact P.
    + rewrite blocks_one. now apply head_block.
  - eexists. split.
    + pose proof (elem_attr (txt "p") a attrs inner kids ltac:(name) ltac:(notvoid) Ha H) as P. cbn in P |- *. exact P.
    + rewrite blocks_one. now apply para_block.
Qed.

Lemma inline_raw ss : Forall is_text ss ->
  map (fun c => SChar c bare) (flat_map raw_segment ss) = flat_map shown_raw (flat_map seg_items ss).
Proof.
  induction 1 as [|s ss Hs F IH]; [easy|]. destruct s as [t f|]; [|easy]. cbn [flat_map raw_segment seg_items]. rewrite map_app, IH, flat_map_app.
  f_equal. clear. induction t as [|c t IH]; cbn; [easy|]. now rewrite IH.
Qed.
Lemma shows_code (lang : option str) text :
  shows (lit "<pre>" ++ (match lang with
                         | Some (c :: l) => lit "<code class=""language-" ++ escape_html (c :: l) ++ lit """>"
                         | _ => lit "<code>"
                         end) ++ escape_html text ++ lit "</code></pre>")
    [(Code (match lang with Some (c :: l) => Some (txt "language-" ++ c :: l) | _ => None end), map (fun c => SChar c bare) text)].
Proof.
  assert (T : html (escape_html text) (map Ch text)) by (apply html_reads_nodes, html_reads).
  assert (K : forall v a, attrs_source a v -> v = [] \/ (exists x, v = [(txt "class", x)]) ->
     shows (lit "<pre>" ++ (lit "<code" ++ a ++ lit ">") ++ escape_html text ++ lit "</code></pre>")
       [(Code (match v with [(_, x)] => Some x | _ => None end), map (fun c => SChar c bare) text)]).
  { intros v a Ha Hv. exists [Elem (txt "pre") [] [Elem (txt "code") v (map Ch text)]]. split.
    - pose proof (elem_attr (txt "pre") [] [] _ _ ltac:(name) ltac:(notvoid) attrs_nil
        (elem_attr (txt "code") a v _ _ ltac:(name) ltac:(notvoid) Ha T)) as P.
      cbn in P |- *. rewrite <- !app_assoc in *. cbn in P |- *. rewrite <- ?app_assoc in *. exact P.
    - rewrite blocks_one. destruct Hv as [-> |[x ->]]; cbn [block1]; (replace (inline bare (map Ch text)) with (Some (map (fun c => SChar c bare) text)) by (symmetry; apply inline_chars)); reflexivity. }
  destruct lang as [[|c l]|].
  - specialize (K [] [] attrs_nil ltac:(now left)). exact K.
  - assert (R : reads html_codes html_active (lit "language-" ++ escape_html (c :: l)) (txt "language-" ++ c :: l)).
    { change (lit "language-") with (txt "language-"). generalize (proj1 (html_reads (c :: l))). set (e := escape_html (c :: l)). clearbody e.
      intros R. repeat (cbn [txt app map list_ascii_of_string]; apply reads_plain; [vm_compute; intuition discriminate|]). exact R. }
    specialize (K [(txt "class", txt "language-" ++ c :: l)] _ (attrs_cons (txt "class") _ _ [] [] ltac:(name) R attrs_nil) ltac:(right; eauto)).
    cbn in K |- *. rewrite <- !app_assoc in *. cbn in K |- *. exact K.
  - specialize (K [] [] attrs_nil ltac:(now left)). exact K.
Qed.

(** The items of an open list. *)
Definition items_show (o : bool) (items : list str) (r : list (kind * list shown)) : Prop :=
  exists ns, html (concat items) ns /\ items_in o ns = Some r.
Lemma items_in_app o a b : items_in o (a ++ b) = also (items_in o a) (items_in o b).
Proof.
  induction a as [|x a IH]; cbn [items_in app]; [now destruct (items_in o b)|]. destruct x as [|n [|] kids]; try easy.
  destruct (named n "li"); [|easy]. rewrite IH. destruct (with_kind _ _), (items_in o a), (items_in o b); cbn; rewrite ?app_assoc; easy.
Qed.
Lemma items_add o items r inner kids l : items_show o items r -> html inner kids -> inline bare kids = Some l ->
  items_show o (items ++ [tag (lit "li") inner]) (r ++ [(Item o, l)]).
Proof.
  intros (ns & H & I) H' I'. exists (ns ++ [Elem (txt "li") [] kids]). split.
  - rewrite concat_app. apply html_app; [easy|]. cbn [concat]. rewrite app_nil_r. apply html_tag; [name|notvoid|easy].
  - rewrite items_in_app, I. cbn [items_in]. replace (named (txt "li") "li") with true by reflexivity. rewrite I'. reflexivity.
Qed.
Lemma items_nil o : items_show o [] []. Proof. exists []. split; [constructor|easy]. Qed.
Lemma items_close o items r : items_show o items r -> shows (html_list o items) r.
Proof.
  intros (ns & H & I). unfold html_list. destruct o.
  - exists [Elem (txt "ol") [] ns]. split; [apply html_tag; [name|notvoid|easy]|]. rewrite blocks_one. exact I.
  - exists [Elem (txt "ul") [] ns]. split; [apply html_tag; [name|notvoid|easy]|]. rewrite blocks_one. exact I.
Qed.

(** What is known of the blocks to export. *)
Definition block_ok (d : doc) (b : block) (a : option id * bfmt) (p : list item) : Prop :=
  a = (b_list b, b_fmt b)
  /\ exists ss, block_segments d (b_id b) = Ok ss /\ Forall is_text ss /\ flat_map seg_items ss = p.
Inductive blocks_ok (d : doc) : list block -> list (option id * bfmt) -> list (list item) -> Prop :=
| ok_nil : blocks_ok d [] [] []
| ok_cons b bs a atts p ps : block_ok d b a p -> blocks_ok d bs atts ps -> blocks_ok d (b :: bs) (a :: atts) (p :: ps).

Lemma inline_shows d b a p : block_ok d b a p ->
  exists inner kids, html_inline d (b_id b) = Ok inner /\ html inner kids /\ inline bare kids = Some (flat_map shown_item p).
Proof.
  intros (_ & ss & E & F & <-). unfold html_inline. rewrite E. cbn [bind]. destruct (segments_give ss F) as (ns & H & I). eauto.
Qed.

Section Blocks.
Variable height : Z -> str.
Hypothesis Hh : forall z, calm (height z).
Variable L : ldoc.

Definition steady_after (o : bool) (atts : list (option id * bfmt)) : Prop :=
  match atts with
  | b :: _ => match listed L b with
              | Some e => on (f_is_code_block (snd b)) = false /\ o = numbered (l_style e)
              | None => True
              end
  | [] => True
  end.
Lemma steady_tail a atts : steady L (a :: atts) -> steady L atts.
Proof. destruct atts; [easy|]. now intros [_ H]. Qed.
Lemma steady_next a atts e : steady L (a :: atts) -> listed L a = Some e -> on (f_is_code_block (snd a)) = false ->
  steady_after (numbered (l_style e)) atts.
Proof.
  destruct atts as [|b atts]; [easy|]. intros [H _] He Hc. rewrite He in H. cbn. destruct (listed L b); [|easy]. now apply H.
Qed.

Lemma blocks_show bs atts ps : blocks_ok (l_doc L) bs atts ps -> steady L atts -> calm_colors atts -> forall open r,
  match open with Some (o, items) => items_show o items r /\ steady_after o atts | None => r = [] end ->
  exists x, html_blocks height L open bs = Ok x /\ shows x (r ++ doc_shown height L atts ps).
Proof.
  induction 1 as [|b bs a atts p ps Hb H IH]; intros S C open r Hr.
  - destruct open as [[o items]|]; cbn [html_blocks doc_shown].
    + eexists. split; [reflexivity|]. rewrite app_nil_r. now apply items_close.
    + subst r. exists []. split; [easy|]. apply shows_nil.
  - assert (C' : calm_colors atts) by (intros a' c Ha; apply C; now right).
    pose proof (steady_tail _ _ S) as S'. specialize (IH S' C').
    destruct (inline_shows _ _ _ _ Hb) as (inner & kids & Ei & Hk & Ik). pose proof Hb as (Ea & ss & Es & Fs & Hp).
    assert (Ll : export_list L b = listed L a) by (subst a; reflexivity).
    assert (Ec : f_is_code_block (b_fmt b) = f_is_code_block (snd a)) by (subst a; reflexivity).
    set (closed := match open with Some (o, items) => html_list o items | None => [] end).
    assert (Cl : shows closed r).
    { unfold closed. destruct open as [[o items]|]; [now apply items_close|]. subst r. apply shows_nil. }
    (* a block that is no item of an open list *)
    assert (Out : (open = None \/ export_list L b = None) ->
      exists x, (if is_on (f_is_code_block (b_fmt b)) then
            let! x := html_code (l_doc L) b in
            let! more := html_blocks height L None bs in
            Ok (closed ++ x ++ more)
          else
            match export_list L b with
            | Some e =>
                let! inner := html_inline (l_doc L) (b_id b) in
                let! more := html_blocks height L (Some (is_ordered (l_style e), [tag (lit "li") inner])) bs in
                Ok (closed ++ more)
            | None =>
                let! x := html_para height (l_doc L) b in
                let! more := html_blocks height L None bs in
                Ok (closed ++ x ++ more)
            end) = Ok x /\ shows x (r ++ doc_shown height L (a :: atts) (p :: ps))).
    { intros _. cbn [doc_shown]. unfold para_shown. change is_on with on. rewrite Ec. destruct (on (f_is_code_block (snd a))) eqn:Ecode.
      - unfold html_code. rewrite Es. cbn [bind]. destruct (IH None [] eq_refl) as (more & -> & Hm). cbn [bind]. eexists. split; [reflexivity|].
        apply shows_app; [exact Cl|]. change (?x :: ?y) with ([x] ++ y). apply shows_app; [|exact Hm].
        rewrite <- Hp, <- (inline_raw ss Fs). subst a. cbn [snd]. apply shows_code.
      - rewrite Ll. destruct (listed L a) as [e|] eqn:El.
        + rewrite Ei. cbn [bind].
          destruct (IH (Some (is_ordered (l_style e), [tag (lit "li") inner])) [(Item (numbered (l_style e)), flat_map shown_item p)]) as (more & -> & Hm).
          { split; [|now apply (steady_next a)]. exact (items_add (is_ordered (l_style e)) [] [] inner kids _ (items_nil _) Hk Ik). }
          cbn [bind]. eexists. split; [reflexivity|]. apply shows_app; [exact Cl|exact Hm].
        + unfold html_para. rewrite Ei. cbn [bind]. destruct (IH None [] eq_refl) as (more & -> & Hm). cbn [bind]. eexists. split; [reflexivity|].
          apply shows_app; [exact Cl|]. change (?x :: ?y) with ([x] ++ y). apply shows_app; [|exact Hm].
          subst a. cbn [snd]. apply (shows_para _ _ _ kids); try easy. unfold html_style_attr. rewrite styles_css.
          apply style_attr_source. apply css_calm; [exact Hh|]. intros c Hc'. apply (C (b_list b, b_fmt b) c); [now left|exact Hc']. }
    cbn [html_blocks]. fold closed. destruct open as [[o items]|].
    + destruct (export_list L b) as [e|] eqn:El.
      * rewrite Ei. cbn [bind]. destruct Hr as [Hi Hs]. cbn in Hs. rewrite <- Ll in Hs. destruct Hs as [Hc Ho]. subst o.
        destruct (IH (Some (numbered (l_style e), items ++ [tag (lit "li") inner])) (r ++ [(Item (numbered (l_style e)), flat_map shown_item p)])) as (x & Ex & Hx).
        { split; [now apply (items_add _ _ _ _ kids)|]. apply (steady_next a); try easy. }
        exists x. split; [exact Ex|]. rewrite <- app_assoc in Hx. cbn [doc_shown]. unfold para_shown. rewrite Hc, <- Ll. exact Hx.
      * apply Out. now right.
    + apply Out. now left.
Qed.

Lemma page_html body ns : html body ns -> html (html_page body) (page ns).
Proof.
  intros H. unfold html_page, page.
  pose proof (elem_attr (txt "html") [] [] _ _ ltac:(name) ltac:(notvoid) attrs_nil
    (html_app _ _ (elem_attr (txt "head") [] [] _ _ ltac:(name) ltac:(notvoid) attrs_nil
        (h_void (txt "meta") _ _ (txt ">") [] [] ltac:(cbn; auto)
          (attrs_cons (txt "charset") (txt "utf-8") (txt "utf-8") [] [] ltac:(name) (calm_reads (txt "utf-8") ltac:(now apply calm_lit)) attrs_nil) ltac:(now left) h_nil)) _ _
      (elem_attr (txt "body") [] [] body ns ltac:(name) ltac:(notvoid) attrs_nil H))) as P.
  cbn in P |- *. rewrite <- ?app_assoc in P. cbn in P. exact P.
Qed.
End Blocks.

Lemma blocks_ok_doc d ps : wf d ps -> exists atts, para_attrs d = map Some atts
  /\ blocks_ok d (get_multi d (d_order d)) atts (map (fun x => styled (snd x) (d_runs d (fst x))) ps).
Proof.
  intros W. unfold para_attrs. rewrite (wf_order _ _ W).
  assert (K : forall l, (forall x, In x l -> In x ps) -> exists atts, map (attr d) (map fst l) = map Some atts
    /\ blocks_ok d (get_multi d (map fst l)) atts (map (fun x => styled (snd x) (d_runs d (fst x))) l)).
  { induction l as [|[i t] l IH]; intros Hl; [exists []; split; [easy|constructor]|]. destruct IH as (atts & E & B); [intros x Hx; apply Hl; now right|].
    assert (Hin : In (i, t) ps) by (apply Hl; now left).
    destruct (wf_get _ _ i W) as (b & Eb & Ei); [now apply (in_map fst) in Hin|].
    exists ((b_list b, b_fmt b) :: atts). cbn [map get_multi fst snd]. unfold attr at 1. rewrite Eb. cbn [option_map]. rewrite E. split; [easy|].
    constructor; [|exact B]. split; [easy|]. rewrite Ei.
    apply in_split in Hin. destruct Hin as (pre & post & ->). unfold block_segments.
    rewrite (wf_content _ _ _ _ _ W). cbn [bind]. rewrite (wf_images _ _ W).
    destruct (segments_ok t (d_runs d i)) as (ss & Es & H).
    { apply (wf_runs_in _ _ W). rewrite in_app_iff. right. now left. }
    exists ss. split; [easy|]. split; [|exact H]. apply view_no in Es. eapply Forall_impl; [|exact Es]. now intros [|]. }
  apply K. auto.
Qed.

Lemma export_html_theorem height L its atts : reach (l_doc L) -> doc_items (l_doc L) = Ok its -> para_attrs (l_doc L) = map Some atts ->
  steady L atts -> calm_colors atts -> (forall z, calm (height z)) ->
  exists s ns, export_html height L = Ok s /\ html s (page ns) /\ blocks ns = Some (doc_shown height L atts (paragraphs its)).
Proof.
  intros R Ei Ea S C Hh. destruct (reach_items _ R) as (ps & W & E). rewrite E in Ei. injection Ei as <-.
  destruct (blocks_ok_doc _ _ W) as (atts' & Ea' & B). assert (atts' = atts).
  { rewrite Ea in Ea'. clear - Ea'. revert atts Ea'. induction atts' as [|x l IH]; intros [|y m]; cbn; try discriminate; [easy|]. intros [= -> Em]. f_equal. auto. }
  subst atts'. unfold export_html, export_blocks.
  destruct (blocks_show height Hh L _ _ _ B S C None [] eq_refl) as (x & -> & ns & H & I). cbn [bind]. exists (html_page x), ns. split; [easy|].
  split; [now apply page_html|]. rewrite I. cbn [app]. f_equal. f_equal. symmetry. apply paragraphs_items. apply (wf_ne _ _ W).
Qed.
