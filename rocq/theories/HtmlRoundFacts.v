(** Reading back an exported page: heights, trees, styles. *)
From Coq Require Import Ascii String.
From Verif Require Import Base BaseFacts FormatRunsModel RopeModel DocModel DocSpec ListModel ListDocModel PropSpec QueryModel EscapeSpec EscapeModel EscapeFacts
  ExportModel ExportSpec ExportHtml MdReadModel DocShows MdReadSpec MdReadFacts HtmlReadModel HtmlReadSpec HtmlReadFacts HtmlRoundSpec.

Section NodeInd.
  Variable P : node -> Prop.
  Hypothesis HCh : forall c, P (Ch c).
  Hypothesis HElem : forall n a kids, Forall P kids -> P (Elem n a kids).
  Fixpoint node_ind' (d : node) : P d :=
    let all := fix all (l : list node) : Forall P l :=
      match l with [] => Forall_nil _ | y :: r => Forall_cons _ (node_ind' y) (all r) end in
    match d with Ch c => HCh c | Elem n a kids => HElem n a kids (all kids) end.
End NodeInd.

(** ** Exported pages are not deep *)
Fixpoint nheight (n : node) : nat := match n with Ch _ => 0 | Elem _ _ kids => S (fold_right (fun k m => Nat.max (nheight k) m) 0 kids) end.
Definition nheights (l : list node) : nat := fold_right (fun k m => Nat.max (nheight k) m) 0 l.
Lemma nheights_app a b : nheights (a ++ b) = Nat.max (nheights a) (nheights b).
Proof. induction a as [|x a IH]; cbn; [easy|]. fold (nheights (a ++ b)). rewrite IH. fold (nheights a). lia. Qed.
Lemma nheights_chars t : nheights (map Ch t) = 0. Proof. induction t; cbn; easy. Qed.
Definition shallow (m : nat) (x : str) : Prop := exists ns, html x ns /\ nheights ns <= m.
Lemma shallow_nil m : shallow m []. Proof. exists []. split; [constructor|cbn; lia]. Qed.
Lemma shallow_app m x y : shallow m x -> shallow m y -> shallow m (x ++ y).
Proof. intros (a & A & Ha) (b & B & Hb). exists (a ++ b). split; [now apply html_app|]. rewrite nheights_app. lia. Qed.
Lemma shallow_le m n x : m <= n -> shallow m x -> shallow n x.
Proof. intros H (a & A & Ha). exists a. split; [easy|lia]. Qed.
Lemma shallow_text e t : reads html_codes html_active e t -> shallow 0 e.
Proof. intros H. exists (map Ch t). split; [now apply html_reads_nodes|]. now rewrite nheights_chars. Qed.
Lemma shallow_elem m n a attrs x : is_name n -> ~ In n void_names -> attrs_source a attrs -> shallow m x ->
  shallow (S m) (lit "<" ++ n ++ a ++ lit ">" ++ x ++ lit "</" ++ n ++ lit ">").
Proof.
  intros Hn Hv Ha (ns & H & Hm). exists [Elem n attrs ns]. split; [now apply elem_attr|]. cbn. fold (nheights ns). lia.
Qed.
Lemma shallow_tag m n x : is_name n -> ~ In n void_names -> shallow m x -> shallow (S m) (tag n x).
Proof. intros Hn Hv H. exact (shallow_elem m n [] [] x Hn Hv attrs_nil H). Qed.
Lemma shallow_tag_if m n x (b : bool) : is_name n -> ~ In n void_names -> shallow m x -> shallow (S m) (tag_if b n x).
Proof. intros Hn Hv H. destruct b; [now apply shallow_tag|]. apply (shallow_le m); [lia|exact H]. Qed.
Lemma shallow_segment t f : shallow 6 (html_segment (SegText t f)).
Proof.
  unfold html_segment. destruct (escape_html t) as [|c e] eqn:E; [apply shallow_nil|]. rewrite <- E, first_amp.
  pose proof (shallow_text _ _ (proj1 (html_reads t))) as H.
  apply (shallow_tag_if 0 (lit "code") _ (is_mono f)) in H; [|name|notvoid].
  apply (shallow_tag_if 1 (lit "strong") _ (is_on (font_bold f))) in H; [|name|notvoid].
  apply (shallow_tag_if 2 (lit "em") _ (is_on (font_italic f))) in H; [|name|notvoid].
  apply (shallow_tag_if 3 (lit "u") _ (is_on (font_underline f))) in H; [|name|notvoid].
  apply (shallow_tag_if 4 (lit "s") _ (is_on (font_strikeout f))) in H; [|name|notvoid].
  destruct (anchor_href f) as [href|]; [|apply (shallow_le 5); [lia|exact H]].
  pose proof (shallow_elem 5 (txt "a") _ _ _ ltac:(name) ltac:(notvoid)
    (attrs_cons (txt "href") _ _ [] [] ltac:(name) (proj1 (html_reads href)) attrs_nil) H) as P.
  cbn in P |- *. rewrite <- !app_assoc in P. cbn in P. exact P.
Qed.
Lemma shallow_inline d b a p : block_ok d b a p -> exists inner, html_inline d (b_id b) = Ok inner /\ shallow 6 inner.
Proof.
  intros (_ & ss & E & F & _). unfold html_inline. rewrite E. cbn [bind]. eexists. split; [reflexivity|].
  clear E. induction F as [|s ss Hs _ IH]; [apply shallow_nil|]. destruct s as [t f|]; [|easy]. cbn [flat_map]. apply shallow_app; [apply shallow_segment|exact IH].
Qed.
Lemma shallow_list o items : shallow 7 (concat items) -> shallow 8 (html_list o items).
Proof. intros H. unfold html_list. destruct o; (apply shallow_tag; [name|notvoid|exact H]). Qed.
Section Blocks.
Variable height : Z -> str.
Hypothesis Hh : forall z, calm (height z).
Variable L : ldoc.
Lemma shallow_blocks bs atts ps : blocks_ok (l_doc L) bs atts ps -> calm_colors atts -> forall open,
  match open with Some (o, items) => shallow 7 (concat items) | None => True end ->
  exists x, html_blocks height L open bs = Ok x /\ shallow 8 x.
Proof.
  induction 1 as [|b bs a atts p ps Hb H IH]; intros C open Ho.
  - eexists. split; [reflexivity|]. destruct open as [[o items]|]; [now apply shallow_list|apply shallow_nil].
  - assert (C' : calm_colors atts) by (intros a' c Ha; apply C; now right). specialize (IH C').
    destruct (shallow_inline _ _ _ _ Hb) as (inner & Ei & Si). pose proof Hb as (Ea & ss & Es & Fs & Hp).
    assert (Cl : shallow 8 (match open with Some (o, items) => html_list o items | None => [] end)).
    { destruct open as [[o items]|]; [now apply shallow_list|apply shallow_nil]. }
    assert (Li : shallow 7 (tag (lit "li") inner)) by (apply shallow_tag; [name|notvoid|exact Si]).
    cbn [html_blocks]. set (closed := match open with Some (o, items) => html_list o items | None => [] end) in *. clearbody closed.
    assert (Out : exists x, (if is_on (f_is_code_block (b_fmt b)) then
            let! x := html_code (l_doc L) b in
            let! more := html_blocks height L None bs in
            Ok (closed ++ x ++ more)
          else
            match export_list L b with
            | Some e =>
                let! inner := html_inline (l_doc L) (b_id b) in
                let! more := html_blocks height L (Some (is_ordered (l_style e), [tag (lit "li") inner])) bs in
                Ok (closed ++ more)
            | None =>
                let! x := html_para height (l_doc L) b in
                let! more := html_blocks height L None bs in
                Ok (closed ++ x ++ more)
            end) = Ok x /\ shallow 8 x).
    { destruct (is_on (f_is_code_block (b_fmt b))).
      - unfold html_code. rewrite Es. cbn [bind]. destruct (IH None I) as (more & -> & Hm). cbn [bind]. eexists. split; [reflexivity|].
        apply shallow_app; [exact Cl|]. apply shallow_app; [|exact Hm].
        pose proof (shallow_text _ _ (proj1 (html_reads (flat_map raw_segment ss)))) as T. set (e := escape_html (flat_map raw_segment ss)) in *. clearbody e.
        assert (K : forall v a, attrs_source a v -> shallow 8 (lit "<pre>" ++ (lit "<code" ++ a ++ lit ">") ++ e ++ lit "</code></pre>")).
        { intros v a' Ha. pose proof (shallow_elem 1 (txt "pre") [] [] _ ltac:(name) ltac:(notvoid) attrs_nil
            (shallow_elem 0 (txt "code") a' v _ ltac:(name) ltac:(notvoid) Ha T)) as P. apply (shallow_le 2); [lia|].
          cbn in P |- *. rewrite <- !app_assoc in *. cbn in P |- *. rewrite <- ?app_assoc in *. exact P. }
        assert (N : shallow 8 (lit "<pre>" ++ lit "<code>" ++ e ++ lit "</code></pre>")) by exact (K [] [] attrs_nil).
        destruct (f_code_language (b_fmt b)) as [[|c l]|]; [exact N| |exact N].
        assert (R : reads html_codes html_active (lit "language-" ++ escape_html (c :: l)) (txt "language-" ++ c :: l)).
        { change (lit "language-") with (txt "language-"). generalize (proj1 (html_reads (c :: l))). set (g := escape_html (c :: l)). clearbody g.
          intros R. repeat (cbn [txt app map list_ascii_of_string]; apply reads_plain; [vm_compute; intuition discriminate|]). exact R. }
        specialize (K _ _ (attrs_cons (txt "class") _ _ [] [] ltac:(name) R attrs_nil)).
        cbn in K |- *. rewrite <- !app_assoc in *. cbn in K |- *. exact K.
      - destruct (export_list L b) as [e|].
        + rewrite Ei. cbn [bind]. destruct (IH (Some (is_ordered (l_style e), [tag (lit "li") inner]))) as (more & -> & Hm).
          { cbn [concat]. now rewrite app_nil_r. }
          cbn [bind]. eexists. split; [reflexivity|]. now apply shallow_app.
        + unfold html_para. rewrite Ei. cbn [bind]. destruct (IH None I) as (more & -> & Hm). cbn [bind]. eexists. split; [reflexivity|].
          apply shallow_app; [exact Cl|]. apply shallow_app; [|exact Hm].
          assert (A : attrs_source (html_style_attr height (b_fmt b)) (style_attrs (css height (b_fmt b)))).
          { unfold html_style_attr. rewrite styles_css. apply style_attr_source. apply css_calm; [exact Hh|]. intros c Hc.
            apply (C a c); [now left|]. now subst a. }
          apply (shallow_le 7); [lia|]. destruct (f_heading_level (b_fmt b)) as [z|].
          * destruct (heading_ok z) as (H1 & H2 & _). cbv zeta in *. pose proof (shallow_elem 6 _ _ _ _ H1 H2 A Si) as P. cbn in P |- *. exact P.
          * pose proof (shallow_elem 6 (txt "p") _ _ _ ltac:(name) ltac:(notvoid) A Si) as P. cbn in P |- *. exact P. }
    destruct open as [[o items]|]; [|exact Out]. destruct (export_list L b) as [e|]; [|exact Out].
    rewrite Ei. cbn [bind]. apply (IH (Some (o, items ++ [tag (lit "li") inner]))). rewrite concat_app. cbn [concat]. rewrite app_nil_r.
    now apply shallow_app.
Qed.
End Blocks.

(** ** Trees *)
Lemma joined_flat k l : flat_map (dom_chars k) (texts_joined l) = flat_map (dom_chars k) l.
Proof.
  induction l as [|d l IH]; [easy|]. destruct d as [t|n a kids|kids]; cbn [texts_joined flat_map]; try now rewrite <- IH.
  rewrite <- IH. destruct (texts_joined l) as [|[b|n a kids|kids] r]; try easy. cbn [flat_map dom_chars]. now rewrite map_app, app_assoc.
Qed.
Lemma joined_inline l : forallb inline_only (texts_joined l) = forallb inline_only l.
Proof.
  induction l as [|d l IH]; [easy|]. destruct d as [t|n a kids|kids]; cbn [texts_joined forallb inline_only]; try now rewrite <- IH.
  rewrite <- IH. now destruct (texts_joined l) as [|[b|n a kids|kids] r].
Qed.
Lemma joined_heights l : heights (texts_joined l) = heights l.
Proof.
  induction l as [|d l IH]; [easy|]. destruct d as [t|n a kids|kids]; cbn [texts_joined heights fold_right HtmlReadSpec.height];
    fold (heights l); try (fold (heights (texts_joined l)); now rewrite IH).
  rewrite <- IH. destruct (texts_joined l) as [|[b|n a kids|kids] r]; easy.
Qed.
Lemma tree_height n : HtmlReadSpec.height (tree n) = nheight n.
Proof.
  induction n as [c|n a kids IH] using node_ind'; [easy|]. cbn [tree HtmlReadSpec.height nheight]. f_equal.
  change (heights (texts_joined (map tree kids)) = nheights kids). rewrite joined_heights.
  induction IH as [|x l Hx _ IHl]; [easy|]. cbn [map heights fold_right nheights]. fold (heights (map tree l)). fold (nheights l). now rewrite Hx, IHl.
Qed.

(** The characters of shown content, when there are no images. *)
Fixpoint chars_of (l : list shown) : option (list (char * look)) :=
  match l with
  | [] => Some []
  | SChar c k :: rest => option_map (cons (c, k)) (chars_of rest)
  | SImage _ _ _ _ :: _ => None
  end.
Lemma chars_app a b x : chars_of (a ++ b) = Some x -> exists u v, chars_of a = Some u /\ chars_of b = Some v /\ x = u ++ v.
Proof.
  revert x. induction a as [|[c k|] a IH]; intros x; cbn [app chars_of]; [now exists [], x| |easy].
  destruct (chars_of (a ++ b)) as [y|]; [|easy]. intros [= <-]. destruct (IH y eq_refl) as (u & v & -> & E & ->). now exists ((c, k) :: u), v.
Qed.
Lemma inside_mark n a k k' : ExportSpec.inside n a k = Some k' -> special n = false /\ mark n a k = k'.
Proof.
  destruct k as [c b i u s h]. unfold ExportSpec.inside.
  do 5 (match goal with |- context [named n ?x] => let E := fresh in destruct (named n x) eqn:E;
    [apply named_eq in E; subst n; intros [= <-]; split; reflexivity|] end).
  destruct (named n "a") eqn:E; [|easy]. apply named_eq in E. subst n. destruct a as [|[x v] [|]]; try easy. destruct (named x "href") eqn:E1; [|easy]. intros [= <-]. apply named_eq in E1. subst x. split; reflexivity.
Qed.
Lemma inline_tree : forall n k l x, inline1 k n = Some l -> chars_of l = Some x -> inline_only (tree n) = true /\ dom_chars k (tree n) = x.
Proof.
  induction n as [c|n a kids IH] using node_ind'; intros k l x H Hx.
  - injection H as <-. injection Hx as <-. easy.
  - rewrite inline1_elem in H. destruct (named n "img").
    { repeat (destruct a as [|[? ?] a]; try easy). destruct (_ && _ && _); [|easy]. injection H as <-. easy. }
    destruct (ExportSpec.inside n a k) as [k'|] eqn:Ek; [|easy]. destruct (inside_mark _ _ _ _ Ek) as [Hs Hm].
    cbn [tree inline_only dom_chars]. rewrite Hs, Hm, joined_inline, joined_flat. cbn [negb andb]. clear Ek Hs Hm. revert l x H Hx.
    induction IH as [|d r Hd _ IHr]; intros l x H Hx; cbn [inline] in H.
    + injection H as <-. injection Hx as <-. easy.
    + destruct (inline1 k' d) as [l1|] eqn:E1; [|easy]. destruct (inline k' r) as [l2|]; [|easy]. injection H as <-.
      destruct (chars_app _ _ _ Hx) as (u & v & U & V & ->). destruct (Hd _ _ _ E1 U) as [I1 C1]. destruct (IHr _ _ eq_refl V) as [I2 C2].
      cbn [map forallb flat_map]. now rewrite I1, I2, C1, C2.
Qed.
Lemma inline_trees kids k l x : inline k kids = Some l -> chars_of l = Some x ->
  forallb inline_only (texts_joined (map tree kids)) = true /\ flat_map (dom_chars k) (texts_joined (map tree kids)) = x.
Proof.
  rewrite joined_inline, joined_flat. revert l x. induction kids as [|d r IH]; intros l x H Hx; cbn [inline] in H.
  - injection H as <-. injection Hx as <-. easy.
  - destruct (inline1 k d) as [l1|] eqn:E1; [|easy]. destruct (inline k r) as [l2|]; [|easy]. injection H as <-.
    destruct (chars_app _ _ _ Hx) as (u & v & U & V & ->). destruct (inline_tree _ _ _ _ E1 U) as [I1 C1]. destruct (IH _ _ eq_refl V) as [I2 C2].
    cbn [map forallb flat_map]. now rewrite I1, I2, C1, C2.
Qed.

(** ** Blocks *)
Definition made_fmt (lh : str -> option Z) (level : option Z) (attrs : list (str * str)) : bfmt :=
  mk_bfmt None None None None None level None None None []
    (line_height_said lh attrs) (nowrap_said attrs) (direction_said attrs) (background_said attrs) None None.
Definition conv (lh : str -> option Z) (x : kind * list shown) : dpara :=
  let cs := match chars_of (snd x) with Some cs => cs | None => [] end in
  match fst x with
  | Para attrs => mk_dpara (shown_items cs) (made_fmt lh None attrs) Other
  | Head h attrs => mk_dpara (shown_items cs) (made_fmt lh (Some (Z.of_N h)) attrs) Other
  | Code v => mk_dpara (shown_items (map code_char cs))
      (mk_bfmt None None None None None None None None None [] None None None None (Some true)
         (match v with Some c => class_language c | None => None end)) Other
  | Item o => mk_dpara (shown_items cs) bfmt_default (ListModel.Item (if o then Decimal else Disc) 0)
  end.
Definition readable (x : kind * list shown) : Prop := exists cs, chars_of (snd x) = Some cs /\ cs <> [].
Definition is_elem (d : dom) : Prop := match d with DElem _ _ _ => True | _ => False end.
Lemma joined_elems l : Forall is_elem l -> texts_joined l = l.
Proof. induction 1 as [|d l Hd _ IH]; [easy|]. destruct d; try easy. cbn [texts_joined]. now rewrite IH. Qed.
Lemma named_refl x : named (txt x) x = true.
Proof. unfold named. now destruct (list_eq_dec N.eq_dec (txt x) (txt x)). Qed.
Lemma nonempty_match {A B} (l : list A) (x y : B) : l <> [] -> match l with [] => x | _ => y end = y.
Proof. now destruct l. Qed.

Lemma line_read kids l cs : inline bare kids = Some l -> chars_of l = Some cs -> cs <> [] ->
  forallb inline_only (texts_joined (map tree kids)) = true /\ some_chars (texts_joined (map tree kids)) = true
  /\ inline_first (texts_joined (map tree kids)) = true
  /\ (own_chars bare (texts_joined (map tree kids)) = cs)
  /\ forall lh st dp, flat_map (elem_paras lh st dp) (texts_joined (map tree kids)) = [].
Proof.
  intros H Hc Hn. destruct (inline_trees _ _ _ _ H Hc) as [A B]. set (ks := texts_joined (map tree kids)) in *. clearbody ks.
  rewrite own_inline by exact A. split; [exact A|]. split; [|split; [|split]].
  - unfold some_chars. rewrite own_inline, B by exact A. now destruct cs.
  - clear - A. induction ks as [|d r IH]; [easy|]. cbn [forallb] in A. apply andb_prop in A as [A1 A2]. cbn [inline_first].
    rewrite (inline_not_block _ A1). now apply IH.
  - easy.
  - intros. now apply inline_no_paras.
Qed.
Lemma items_tree lh o : forall ns R, items_in o ns = Some R -> Forall readable R ->
  Forall is_elem (map tree ns) /\ Forall (fun d => is_item d = true /\ gentle_elem true d = true) (map tree ns)
  /\ flat_map (elem_paras lh (Some (if o then Decimal else Disc)) 1) (map tree ns) = map (conv lh) R.
Proof.
  induction ns as [|n ns IH]; intros R H F; cbn [items_in] in H; [injection H as <-; split; [constructor|split; [constructor|easy]]|].
  destruct n as [|n [|] kids]; try easy. destruct (named n "li") eqn:E; [|easy]. apply named_eq in E. subst n.
  destruct (inline bare kids) as [l|] eqn:El; [|easy]. destruct (items_in o ns) as [R'|]; [|easy]. injection H as <-.
  cbn [app] in F. inversion F as [|? ? [cs [Hc Hn]] F']; subst. cbn [snd] in Hc. destruct (IH R' eq_refl F') as (I1 & I2 & I3).
  destruct (line_read _ _ _ El Hc Hn) as (L1 & L2 & L3 & L4 & L5). cbn [map tree]. set (ks := texts_joined (map tree kids)) in *. clearbody ks.
  split; [now constructor|]. split.
  - constructor; [|exact I2]. split; [reflexivity|]. cbn [gentle_elem].
    replace (among (txt "li") ["ul"; "ol"]%string) with false by reflexivity. replace (named (txt "li") "li") with true by reflexivity.
    rewrite L2, L3. cbn [andb]. rewrite forallb_forall in *. intros k Hk. now rewrite (L1 k Hk).
  - cbn [flat_map]. rewrite I3. cbn [map app]. cbn [elem_paras].
    replace (special (txt "li")) with true by reflexivity. replace (style_of (txt "li")) with (@None list_style) by reflexivity.
    replace (named (txt "li") "li") with true by reflexivity. replace (named (txt "li") "pre") with false by reflexivity.
    cbn [negb]. rewrite L4, L5, app_nil_r. replace (named (txt "li") "div") with false by reflexivity.
    destruct cs as [|c cs']; [easy|]. unfold conv. cbn [fst snd]. rewrite Hc. reflexivity.
Qed.
Lemma heading_name n h : heading_level n = Some h ->
  among n headings = true /\ level_of n = Some (Z.of_N h) /\ among n ["ul"; "ol"; "li"; "div"; "p"; "pre"]%string = false.
Proof.
  unfold heading_level. destruct n as [|a [|c [|]]]; try easy. destruct (_ && _ && _) eqn:E; [|easy]. intros [= <-].
  apply andb_prop in E as [E1 E3]. apply andb_prop in E1 as [E1 E2]. apply N.eqb_eq in E1. apply N.leb_le in E2, E3. subst a.
  assert (C : (c = 49 \/ c = 50 \/ c = 51 \/ c = 52 \/ c = 53 \/ c = 54)%N) by lia.
  destruct C as [->|[->|[->|[->|[->| ->]]]]]; (split; [reflexivity|split; reflexivity]).
Qed.

Lemma block_tree lh : forall n R, block1 n = Some R -> Forall readable R ->
  is_elem (tree n) /\ gentle_elem false (tree n) = true /\ without_frame n = [n] /\ elem_paras lh None 0 (tree n) = map (conv lh) R.
Proof.
  intros [c|n a kids] R H F; [easy|]. cbn [block1] in H. cbn [tree]. split; [easy|].
  destruct (named n "p") eqn:Ep.
  { apply named_eq in Ep. subst n. destruct (inline bare kids) as [l|] eqn:El; [|easy]. injection H as <-.
    inversion F as [|? ? [cs [Hc Hn]] F']; subst. cbn [snd] in Hc. destruct (line_read _ _ _ El Hc Hn) as (L1 & L2 & L3 & L4 & L5).
    set (ks := texts_joined (map tree kids)) in *. clearbody ks. split; [|split; [reflexivity|]].
    - cbn [gentle_elem]. replace (among (txt "p") ["ul"; "ol"]%string) with false by reflexivity. replace (named (txt "p") "li") with false by reflexivity.
      replace (named (txt "p") "div") with false by reflexivity. replace (among (txt "p") ["p"; "pre"]%string) with true by reflexivity. now rewrite L1, L2.
    - cbn [elem_paras]. replace (special (txt "p")) with true by reflexivity. replace (style_of (txt "p")) with (@None list_style) by reflexivity.
      replace (named (txt "p") "pre") with false by reflexivity. cbn [negb]. rewrite L4, L5, app_nil_r.
      destruct cs as [|c cs']; [easy|]. cbn [map]. unfold conv. cbn [fst snd]. rewrite Hc. reflexivity. }
  destruct (heading_level n) as [h|] eqn:Eh.
  { destruct (heading_name _ _ Eh) as (Hn1 & Hn2 & Hn3). destruct (inline bare kids) as [l|] eqn:El; [|easy]. injection H as <-.
    inversion F as [|? ? [cs [Hc Hn]] F']; subst. cbn [snd] in Hc. destruct (line_read _ _ _ El Hc Hn) as (L1 & L2 & L3 & L4 & L5).
    set (ks := texts_joined (map tree kids)) in *. clearbody ks.
    unfold among in Hn3. cbn [existsb] in Hn3. repeat (apply orb_false_iff in Hn3; destruct Hn3 as [? Hn3]).
    split; [|split].
    - cbn [gentle_elem]. unfold among at 1. unfold among at 1. cbn [existsb]. repeat match goal with H : named n _ = false |- _ => rewrite H; clear H end. cbn [orb]. now rewrite Hn1, L1.
    - cbn [without_frame]. assert (named n "html" || named n "head" || named n "body" = false) as ->; [|easy].
      apply among_in in Hn1. destruct Hn1 as (x & Hx & ->). cbn in Hx. repeat (destruct Hx as [<-|Hx]; [reflexivity|]). easy.
    - cbn [elem_paras]. unfold special, style_of. rewrite Hn1. cbn [orb negb].
      repeat match goal with H : named n _ = false |- _ => rewrite H end.
      rewrite L4, L5, app_nil_r. destruct cs as [|c cs']; [easy|]. cbn [map]. unfold conv. cbn [fst snd]. rewrite Hc.
      unfold elem_fmt, made_fmt. repeat match goal with H : named n _ = false |- _ => rewrite H end. now rewrite Hn2. }
  destruct a as [|]; [|easy].
  destruct (named n "ul") eqn:Eu; [|destruct (named n "ol") eqn:Eo].
  { apply named_eq in Eu. subst n. destruct (items_tree lh false _ _ H F) as (I1 & I2 & I3). rewrite joined_elems by exact I1. split; [|split; [reflexivity|exact I3]].
    cbn [gentle_elem]. replace (among (txt "ul") ["ul"; "ol"]%string) with true by reflexivity. rewrite forallb_forall. intros d Hd.
    rewrite Forall_forall in I1, I2. specialize (I1 d Hd). destruct (I2 d Hd) as [-> ->]. now destruct d. }
  { apply named_eq in Eo. subst n. destruct (items_tree lh true _ _ H F) as (I1 & I2 & I3). rewrite joined_elems by exact I1. split; [|split; [reflexivity|exact I3]].
    cbn [gentle_elem]. replace (among (txt "ol") ["ul"; "ol"]%string) with true by reflexivity. rewrite forallb_forall. intros d Hd.
    rewrite Forall_forall in I1, I2. specialize (I1 d Hd). destruct (I2 d Hd) as [-> ->]. now destruct d. }
  destruct (named n "pre") eqn:Er; [|easy]. apply named_eq in Er. subst n.
  destruct kids as [|[|c v inner] [|]]; try easy. destruct (named c "code") eqn:Ec; [|easy]. apply named_eq in Ec. subst c.
  assert (exists l, inline bare inner = Some l /\ R = [(Code (match v with [(_, x)] => Some x | _ => None end), l)] /\ (v = [] \/ exists x, v = [(txt "class", x)]))
    as (l & El & -> & Hv).
  { destruct v as [|[x y] [|]]; try easy.
    - destruct (inline bare inner) as [l|]; [|easy]. injection H as <-. exists l. split; [easy|]. split; [easy|now left].
    - destruct (named x "class") eqn:Ex; [|easy]. apply named_eq in Ex. subst x. destruct (inline bare inner) as [l|]; [|easy]. injection H as <-. exists l. eauto. }
  inversion F as [|? ? [cs [Hc Hn]] F']; subst. cbn [snd] in Hc. destruct (line_read _ _ _ El Hc Hn) as (L1 & L2 & L3 & L4 & L5).
  cbn [map tree texts_joined]. set (ks := texts_joined (map tree inner)) in *. clearbody ks.
  assert (In1 : inline_only (DElem (txt "code") v ks) = true) by (cbn [inline_only]; now rewrite L1).
  assert (Own : own_chars bare [DElem (txt "code") v ks] = map code_char cs).
  { rewrite own_inline by (cbn [forallb]; now rewrite In1). cbn [flat_map dom_chars]. rewrite app_nil_r.
    replace (mark (txt "code") v bare) with (with_code bare) by reflexivity.
    pose proof (own_code bare ks) as Oc. rewrite L4 in Oc. rewrite own_inline in Oc by exact L1. exact Oc. }
  split; [|split; [reflexivity|]].
  - cbn [gentle_elem]. replace (among (txt "pre") ["ul"; "ol"]%string) with false by reflexivity. replace (named (txt "pre") "li") with false by reflexivity.
    replace (named (txt "pre") "div") with false by reflexivity. replace (among (txt "pre") ["p"; "pre"]%string) with true by reflexivity.
    cbn [forallb]. rewrite In1. cbn [andb]. unfold some_chars. rewrite Own. now destruct cs.
  - cbn [elem_paras]. replace (special (txt "pre")) with true by reflexivity. replace (style_of (txt "pre")) with (@None list_style) by reflexivity.
    replace (named (txt "pre") "pre") with true by reflexivity. replace (named (txt "pre") "li") with false by reflexivity. cbn [negb].
    rewrite own_code, Own. rewrite (inline_no_paras lh None 0 [DElem (txt "code") v ks]) by (cbn [forallb]; now rewrite In1). rewrite app_nil_r.
    assert (Tw : map code_char (map code_char cs) = map code_char cs).
    { rewrite map_map. apply map_ext. intros [x k]. reflexivity. }
    rewrite Tw. cbn [map]. unfold conv. cbn [fst snd]. rewrite Hc. destruct cs as [|c cs']; [easy|]. cbn [map].
    unfold elem_fmt. f_equal. f_equal. replace (named (txt "pre") "pre") with true by reflexivity.
    destruct Hv as [->|[x ->]]; [reflexivity|]. unfold code_language. cbn [find_map].
    replace (is_ (txt "code") "code") with true by reflexivity. replace (attr_of "class" [(txt "class", x)]) with (Some x) by reflexivity.
    destruct (class_language x); reflexivity.
Qed.
Lemma blocks_tree lh : forall ns R, blocks ns = Some R -> Forall readable R ->
  Forall is_elem (map tree ns) /\ forallb (gentle_elem false) (map tree ns) = true /\ flat_map without_frame ns = ns
  /\ flat_map (elem_paras lh None 0) (map tree ns) = map (conv lh) R.
Proof.
  induction ns as [|n ns IH]; intros R H F; cbn [blocks] in H; [injection H as <-; split; [constructor|now repeat split]|].
  destruct (block1 n) as [R1|] eqn:E; [|easy]. destruct (blocks ns) as [R2|]; [|easy]. injection H as <-. apply Forall_app in F as [F1 F2].
  destruct (block_tree lh _ _ E F1) as (A1 & A2 & A3 & A4). destruct (IH _ eq_refl F2) as (B1 & B2 & B3 & B4).
  cbn [map forallb flat_map]. rewrite A2, A3, A4, B2, B3, B4, map_app. repeat split; try easy. now constructor.
Qed.
(** The tree of an exported page is gentle, and shows the blocks. *)
Lemma page_tree lh ns R : blocks ns = Some R -> Forall readable R -> R <> [] -> nheights ns <= 127 ->
  gentle_html (fragment_tree (page ns)) /\ page_shown lh (fragment_tree (page ns)) = map (conv lh) R.
Proof.
  intros H F N Hh. destruct (blocks_tree lh _ _ H F) as (B1 & B2 & B3 & B4).
  assert (E : fragment_tree (page ns) = DElem (txt "meta") [(txt "charset", txt "utf-8")] [] :: map tree ns).
  { unfold fragment_tree, page. cbn [flat_map without_frame]. rewrite named_refl. cbn [orb flat_map without_frame].
    replace (named (txt "head") "html" || named (txt "head") "head" || named (txt "head") "body") with true by reflexivity.
    replace (named (txt "body") "html" || named (txt "body") "head" || named (txt "body") "body") with true by reflexivity.
    rewrite B3. cbn [flat_map without_frame app]. rewrite !app_nil_r.
    replace (named (txt "meta") "html" || named (txt "meta") "head" || named (txt "meta") "body") with false by reflexivity. cbn [app map tree texts_joined].
    now rewrite joined_elems. }
  rewrite E. pose proof (gentle_no_own _ B2) as Ow. split; [split|].
  - right. split.
    + cbn [forallb]. replace (inline_only (DElem (txt "meta") [(txt "charset", txt "utf-8")] [])) with true by reflexivity. cbn [orb andb].
      rewrite forallb_forall in *. intros d Hd. rewrite (B2 d Hd). apply orb_true_r.
    + unfold some_chars. cbn [own_chars flat_map]. fold (own_chars bare (map tree ns)). rewrite Ow. reflexivity.
  - constructor; [cbn; lia|]. rewrite Forall_forall. intros d Hd. apply in_map_iff in Hd as (n & <- & Hn). rewrite tree_height.
    assert (nheight n <= nheights ns); [|lia]. clear - Hn. induction ns as [|m ns IH]; [easy|]. cbn [nheights fold_right]. fold (nheights ns).
    destruct Hn as [->|Hn]; [lia|]. specialize (IH Hn). lia.
  - unfold page_shown. cbn [own_chars flat_map]. fold (own_chars bare (map tree ns)). rewrite Ow.
    replace (elem_paras lh None 0 (DElem (txt "meta") [(txt "charset", txt "utf-8")] [])) with (@nil dpara) by reflexivity.
    cbn [is_block]. replace (special (txt "meta")) with false by reflexivity. cbn [dom_chars flat_map app]. rewrite B4. destruct R; easy.
Qed.

(** ** Styles *)
Lemma split_no_sep sep a b c : sep c = true -> Forall (fun x => sep x = false) a -> split_at sep (a ++ c :: b) = a :: split_at sep b.
Proof.
  intros Hc. induction 1 as [|x a Hx _ IH]; cbn [app split_at]; [now rewrite Hc|]. now rewrite Hx, IH.
Qed.
Lemma split_alone sep a : Forall (fun x => sep x = false) a -> split_at sep a = [a].
Proof. induction 1 as [|x a Hx _ IH]; cbn [split_at]; [easy|]. now rewrite Hx, IH. Qed.
Definition no_semi (x : str) : Prop := Forall (fun c => N.eqb c 59 = false) x.
Lemma decl_space x : decl_of (32%N :: x) = decl_of x. Proof. reflexivity. Qed.
Lemma declarations_of l : l <> [] -> Forall no_semi l -> declarations (semicolons l) = flat_map decl_of l.
Proof.
  intros N F. induction F as [|x l Hx F IH]; [easy|]. destruct l as [|y l].
  - cbn [semicolons]. unfold declarations. now rewrite split_alone.
  - unfold declarations. replace (semicolons (x :: y :: l)) with (x ++ 59%N :: 32%N :: semicolons (y :: l)) by reflexivity.
    rewrite split_no_sep by easy. cbn [flat_map]. change (decl_of y ++ flat_map decl_of l) with (flat_map decl_of (y :: l)). fold (decl_of x). f_equal.
    specialize (IH ltac:(easy)). unfold declarations in IH. cbn [split_at]. replace (32 =? 59)%N with false by reflexivity.
    rewrite <- IH. destruct (split_at (fun c => (c =? 59)%N) (semicolons (y :: l))) as [|p ps]; [reflexivity|]. reflexivity.
Qed.
Definition tend (s : str) : str := rev (trim_start (rev s)).
Lemma neat_trim v : neat v -> trim v = v.
Proof.
  intros (_ & A & B). unfold trim. replace (trim_start v) with v.
  - destruct (rev v) as [|c r] eqn:E.
    + apply (f_equal (@rev char)) in E. rewrite rev_involutive in E. now subst v.
    + cbn [trim_start]. rewrite (B c (rev r)); [|rewrite <- (rev_involutive v), E; reflexivity]. now rewrite <- E, rev_involutive.
  - destruct v as [|c r]; [easy|]. cbn [trim_start]. now rewrite (A c r).
Qed.
Lemma split_first (n r : str) : Forall (fun x => (x =? 58)%N = false) n -> split_once 58%N (n ++ 58%N :: r) = Some (n, r).
Proof. induction 1 as [|x n Hx _ IH]; cbn [app split_once]; [easy|]. now rewrite Hx, IH. Qed.
Definition word (n : str) : Prop := n <> [] /\ Forall (fun c => is_white c = false /\ (c =? 58)%N = false) n.
Lemma word_neat n : ~ In 59%N n -> word n -> neat n.
Proof.
  intros Hs [_ F]. rewrite Forall_forall in F. split; [easy|]. split; intros c r ->; apply F; [now left|]. rewrite in_app_iff. right. now left.
Qed.
Lemma decl_value n v : word n -> ~ In 59%N n -> neat v -> decl_of (n ++ txt ": " ++ v) = [(ascii_lower n, v)].
Proof.
  intros W Hs V. pose proof (word_neat _ Hs W) as Wn. destruct W as [Hn F]. unfold decl_of.
  assert (T : exists r, trim (n ++ txt ": " ++ v) = n ++ 58%N :: r /\ trim r = v).
  { unfold trim at 1. assert (trim_start (n ++ txt ": " ++ v) = n ++ txt ": " ++ v) as ->.
    { destruct n as [|c n]; [easy|]. inversion F as [|? ? [F1 _] _]; subst. cbn [app trim_start]. now rewrite F1. }
    destruct V as (V1 & V2 & V3). destruct (rev v) as [|c r] eqn:E.
    - apply (f_equal (@rev char)) in E. rewrite rev_involutive in E. cbn in E. subst v. exists []. split; [|reflexivity].
      rewrite app_nil_r, rev_app_distr. cbn [rev app txt list_ascii_of_string map]. cbn [trim_start]. 
      replace (is_white (N_of_ascii " ")) with true by reflexivity. replace (is_white (N_of_ascii ":")) with false by reflexivity.
      change (N_of_ascii ":") with 58%N. cbn [rev]. now rewrite rev_involutive.
    - exists (32%N :: v). split.
      + rewrite !rev_app_distr, E. cbn [app trim_start]. rewrite (V3 c (rev r)); [|rewrite <- (rev_involutive v), E; reflexivity].
        change (c :: (r ++ rev (txt ": ")) ++ rev n) with (((c :: r) ++ rev (txt ": ")) ++ rev n).
        rewrite <- E. rewrite <- !rev_app_distr, rev_involutive. rewrite <- ?app_assoc. reflexivity.
      + change (trim (32%N :: v)) with (trim v). apply neat_trim. split; [exact V1|]. split; [exact V2|exact V3]. }
  destruct T as (r & -> & Tr). rewrite split_first; [|eapply Forall_impl; [|exact F]; now intros c [_ H]]. now rewrite Tr, (neat_trim n).
Qed.
Definition rules (height : Z -> str) (f : bfmt) : list (str * str) :=
  match f_alignment f with
  | None => []
  | Some 0%N => [(txt "text-align", txt "left")] | Some 1%N => [(txt "text-align", txt "right")]
  | Some 2%N => [(txt "text-align", txt "center")] | Some _ => [(txt "text-align", txt "justify")]
  end
  ++ match f_line_height f with Some h => [(txt "line-height", height h)] | None => [] end
  ++ (if on (f_non_breakable_lines f) then [(txt "white-space", txt "pre")] else [])
  ++ match f_direction f with Some 1%N => [(txt "direction", txt "rtl")] | _ => [] end
  ++ match f_background_color f with Some c => [(txt "background-color", c)] | None => [] end.
Lemma neat_lit x : forallb (fun c => negb (is_white c) && negb (c =? 59)%N) (txt x) = true -> neat (txt x).
Proof.
  rewrite forallb_forall. intros H. split; [|split].
  - intros Hin. specialize (H _ Hin). now apply andb_prop in H as [_ H].
  - intros c r E. specialize (H c). rewrite E in H. specialize (H ltac:(now left)). apply andb_prop in H as [H _]. now apply negb_true_iff in H.
  - intros c r E. specialize (H c). rewrite E, in_app_iff in H. specialize (H ltac:(right; now left)). apply andb_prop in H as [H _]. now apply negb_true_iff in H.
Qed.
Lemma word_lit x : forallb (fun c => negb (is_white c) && negb (c =? 58)%N) (txt x) = true -> txt x <> [] -> word (txt x).
Proof.
  rewrite forallb_forall. intros H N. split; [exact N|]. rewrite Forall_forall. intros c Hc. specialize (H c Hc). apply andb_prop in H as [H1 H2].
  split; now apply negb_true_iff.
Qed.
Lemma no_semi_app a b : no_semi a -> ~ In 59%N b -> no_semi (a ++ b).
Proof.
  intros A B. apply Forall_app. split; [exact A|]. rewrite Forall_forall. intros c Hc. apply N.eqb_neq. intros ->. easy.
Qed.
Ltac nosemi := unfold no_semi; repeat (constructor; [reflexivity|]); constructor.
Ltac rule n := apply (decl_value (txt n)); [apply word_lit; [reflexivity|discriminate]|vm_compute; intuition discriminate|].
Lemma css_rules height f : (forall z, f_line_height f = Some z -> neat (height z)) -> (forall c, f_background_color f = Some c -> neat c) ->
  Forall no_semi (css height f) /\ flat_map decl_of (css height f) = rules height f.
Proof.
  intros Hh Hc. unfold css, rules. rewrite !Forall_app, !flat_map_app.
  assert (One : forall x y, decl_of x = [y] -> flat_map decl_of [x] = [y]) by (intros x y H; cbn [flat_map]; now rewrite H, app_nil_r).
  assert (P1 : Forall no_semi (match f_alignment f with None => [] | Some 0%N => [txt "text-align: left"] | Some 1%N => [txt "text-align: right"]
      | Some 2%N => [txt "text-align: center"] | Some _ => [txt "text-align: justify"] end)
    /\ flat_map decl_of (match f_alignment f with None => [] | Some 0%N => [txt "text-align: left"] | Some 1%N => [txt "text-align: right"]
      | Some 2%N => [txt "text-align: center"] | Some _ => [txt "text-align: justify"] end)
     = match f_alignment f with None => [] | Some 0%N => [(txt "text-align", txt "left")] | Some 1%N => [(txt "text-align", txt "right")]
       | Some 2%N => [(txt "text-align", txt "center")] | Some _ => [(txt "text-align", txt "justify")] end).
  { destruct (f_alignment f) as [[|[p|[p|p|]|]]|]; (split; [|vm_compute; reflexivity]); repeat constructor. }
  assert (P2 : Forall no_semi (match f_line_height f with Some h => [txt "line-height: " ++ height h] | None => [] end)
    /\ flat_map decl_of (match f_line_height f with Some h => [txt "line-height: " ++ height h] | None => [] end)
     = match f_line_height f with Some h => [(txt "line-height", height h)] | None => [] end).
  { destruct (f_line_height f) as [h|]; [|split; [constructor|easy]]. specialize (Hh h eq_refl). split.
    - constructor; [|constructor]. apply no_semi_app; [nosemi|apply Hh].
    - apply One. rule "line-height"%string. exact Hh. }
  assert (P3 : Forall no_semi (if on (f_non_breakable_lines f) then [txt "white-space: pre"] else [])
    /\ flat_map decl_of (if on (f_non_breakable_lines f) then [txt "white-space: pre"] else [])
     = if on (f_non_breakable_lines f) then [(txt "white-space", txt "pre")] else []).
  { destruct (on (f_non_breakable_lines f)); (split; [|vm_compute; reflexivity]); repeat constructor. }
  assert (P4 : Forall no_semi (match f_direction f with Some 1%N => [txt "direction: rtl"] | _ => [] end)
    /\ flat_map decl_of (match f_direction f with Some 1%N => [txt "direction: rtl"] | _ => [] end)
     = match f_direction f with Some 1%N => [(txt "direction", txt "rtl")] | _ => [] end).
  { destruct (f_direction f) as [[|[p|p|]]|]; (split; [|vm_compute; reflexivity]); repeat constructor. }
  assert (P5 : Forall no_semi (match f_background_color f with Some c => [txt "background-color: " ++ c] | None => [] end)
    /\ flat_map decl_of (match f_background_color f with Some c => [txt "background-color: " ++ c] | None => [] end)
     = match f_background_color f with Some c => [(txt "background-color", c)] | None => [] end).
  { destruct (f_background_color f) as [c|]; [|split; [constructor|easy]]. specialize (Hc c eq_refl). split.
    - constructor; [|constructor]. apply no_semi_app; [nosemi|apply Hc].
    - apply One. rule "background-color"%string. exact Hc. }
  destruct P1 as [A1 ->], P2 as [A2 ->], P3 as [A3 ->], P4 as [A4 ->], P5 as [A5 ->]. repeat split; assumption.
Qed.
Lemma said_rules {A} height f (g : str -> str -> option A) :
  (forall z, f_line_height f = Some z -> neat (height z)) -> (forall c, f_background_color f = Some c -> neat c) ->
  said (style_attrs (css height f)) g = last_of (fun x => g (fst x) (snd x)) (rules height f).
Proof.
  intros Hh Hc. destruct (css_rules height f Hh Hc) as [C1 C2]. unfold said. destruct (css height f) as [|x l] eqn:E.
  - cbn in C2. rewrite <- C2. reflexivity.
  - unfold style_attrs. replace (value_of "style" [(txt "style", semicolons (x :: l))]) with (Some (semicolons (x :: l))) by reflexivity.
    rewrite declarations_of by easy. now rewrite C2.
Qed.
Lemma made_css lh height f level : (forall z, f_line_height f = Some z -> neat (height z) /\ lh (height z) = Some z) ->
  (forall c, f_background_color f = Some c -> neat c) ->
  made_fmt lh level (style_attrs (css height f)) =
  mk_bfmt None None None None None level None None None [] (f_line_height f) (yes (f_non_breakable_lines f))
    (match f_direction f with Some 1%N => Some 1%N | _ => None end) (f_background_color f) None None.
Proof.
  intros Hh Hc. unfold made_fmt, line_height_said, nowrap_said, direction_said, background_said.
  assert (Hh' : forall z, f_line_height f = Some z -> neat (height z)) by (intros z Hz; now apply Hh).
  rewrite !(said_rules height f) by assumption. unfold rules. rewrite !last_of_or.
  assert (Hl : forall z, f_line_height f = Some z -> lh (height z) = Some z) by (intros z Hz; now apply Hh). clear Hh Hh' Hc.
  assert (A : forall B (g : str * str -> option B), (forall v, g (txt "text-align", v) = None) ->
    last_of g (match f_alignment f with None => [] | Some 0%N => [(txt "text-align", txt "left")] | Some 1%N => [(txt "text-align", txt "right")]
       | Some 2%N => [(txt "text-align", txt "center")] | Some _ => [(txt "text-align", txt "justify")] end) = None).
  { intros B g Hg. destruct (f_alignment f) as [[|[p|[p|p|]|]]|]; cbn [last_of]; rewrite ?Hg; reflexivity. }
  rewrite !A by reflexivity. clear A.
  assert (Lr : forall B (g : str * str -> option B), last_of g (match f_line_height f with Some h => [(txt "line-height", height h)] | None => [] end)
    = match f_line_height f with Some h => g (txt "line-height", height h) | None => None end) by (intros B g; now destruct (f_line_height f)).
  assert (Dr : forall B (g : str * str -> option B), last_of g (match f_direction f with Some 1%N => [(txt "direction", txt "rtl")] | _ => [] end)
    = match f_direction f with Some 1%N => g (txt "direction", txt "rtl") | _ => None end) by (intros B g; now destruct (f_direction f) as [[|[p|p|]]|]).
  assert (Br : forall B (g : str * str -> option B), last_of g (match f_background_color f with Some c => [(txt "background-color", c)] | None => [] end)
    = match f_background_color f with Some c => g (txt "background-color", c) | None => None end) by (intros B g; now destruct (f_background_color f)).
  rewrite !Lr, !Dr, !Br. clear Lr Dr Br. cbn [fst snd].
  destruct (f_line_height f) as [z|]; destruct (on (f_non_breakable_lines f)) eqn:En; destruct (f_background_color f) as [c|];
    destruct (f_direction f) as [[|[p|p|]]|]; unfold yes; rewrite En; try (specialize (Hl _ eq_refl)); cbn [or_else last_of fst snd];
    rewrite ?named_refl, ?Hl; reflexivity.
Qed.
Lemma class_read lang : Forall (fun x => is_white x = false) lang -> lang <> [] -> class_language (txt "language-" ++ lang) = Some lang.
Proof.
  intros F N. unfold class_language. rewrite split_alone; [reflexivity|]. apply Forall_app. split; [|exact F]. repeat (constructor; [reflexivity|]). constructor.
Qed.
Lemma shown_chars p : (forall x, In x p -> x <> Brk) ->
  exists cs, chars_of (flat_map shown_item p) = Some cs /\ shown_items cs = map kept_char p /\ (p <> [] -> cs <> []).
Proof.
  induction p as [|x p IH]; intros H; [now exists []|]. destruct IH as (cs & E1 & E2 & _); [intros y Hy; apply H; now right|].
  destruct x as [c f|]; [|exfalso; apply (H Brk); [now left|easy]]. exists ((c, look_of f) :: cs). cbn [flat_map shown_item app chars_of]. rewrite E1.
  split; [easy|]. split; [|easy]. cbn. now rewrite <- E2.
Qed.
Lemma raw_chars p : (forall x, In x p -> x <> Brk) ->
  exists cs, chars_of (flat_map shown_raw p) = Some cs /\ shown_items (map code_char cs) = map kept_code_char p /\ (p <> [] -> cs <> []).
Proof.
  induction p as [|x p IH]; intros H; [now exists []|]. destruct IH as (cs & E1 & E2 & _); [intros y Hy; apply H; now right|].
  destruct x as [c f|]; [|exfalso; apply (H Brk); [now left|easy]]. exists ((c, bare) :: cs). cbn [flat_map shown_raw app chars_of]. rewrite E1.
  split; [easy|]. split; [|easy]. cbn. now rewrite <- E2.
Qed.
Lemma conv_para lh height L a p : (forall x, In x p -> x <> Brk) -> p <> [] ->
  (forall z, f_line_height (snd a) = Some z -> neat (height z) /\ lh (height z) = Some z) ->
  (forall c, f_background_color (snd a) = Some c -> neat c) ->
  (forall c, f_code_language (snd a) = Some c -> Forall (fun x => is_white x = false) c) ->
  readable (para_shown height L a p) /\ conv lh (para_shown height L a p) = kept_para L a p.
Proof.
  intros Hp N Hh Hc Hl. unfold para_shown, kept_para, readable. destruct (on (f_is_code_block (snd a))).
  - destruct (raw_chars p Hp) as (cs & E1 & E2 & E3). cbn [snd]. split; [exists cs; auto|]. unfold conv. cbn [fst snd]. rewrite E1, E2. f_equal. f_equal.
    destruct (f_code_language (snd a)) as [[|c l]|]; try easy. rewrite class_read; [easy|now apply Hl|easy].
  - destruct (shown_chars p Hp) as (cs & E1 & E2 & E3). cbn [snd]. split; [exists cs; auto|]. unfold conv. cbn [fst snd]. rewrite E1, E2.
    destruct (listed L a) as [e|]; [reflexivity|]. destruct (f_heading_level (snd a)) as [h|]; rewrite made_css by assumption; [|reflexivity].
    cbn [option_map]. now rewrite Z2N.id by lia.
Qed.
