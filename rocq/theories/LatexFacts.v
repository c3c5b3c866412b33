(** The exported LaTeX shows the document. *)
From Coq Require Import Ascii String.
From Verif Require Import Base BaseFacts FormatRunsModel FormatRunsSpec RopeModel RopeSpec DocModel DocSpec DocInv DocFacts HistModel HistSpec DocHist
  QueryModel QuerySpec QueryFacts QueryText PropSpec DocTheorems QueryTheorems ListModel ListDocModel FragmentModel FragmentText
  EscapeModel EscapeSpec EscapeFacts ExportModel ExportSpec ExportHtml LatexModel LatexSpec LatexUnique.

(** No command without arguments. *)
Definition wordless (l : list tex) : Prop := Forall (fun x => match x with TCmd _ [] => False | _ => True end) l.
Lemma latex_app e1 l1 : latex e1 l1 -> wordless l1 -> forall e2 l2, latex e2 l2 -> latex (e1 ++ e2) (l1 ++ l2).
Proof.
  unfold wordless. induction 1; intros W e2 l2 HH; cbn [app]; try (inversion W; subst); rewrite <- ?app_assoc; try easy.
  - constructor; auto.
  - constructor; auto.
  - change (txt "{" ++ e ++ (txt "}" ++ rest) ++ e2) with (txt "{" ++ e ++ txt "}" ++ (rest ++ e2)). constructor; auto.
  - change (txt "\" ++ n ++ txt "{" ++ e ++ (txt "}" ++ rest) ++ e2) with (txt "\" ++ n ++ txt "{" ++ e ++ txt "}" ++ (rest ++ e2)). constructor; auto.
  - change (txt "\" ++ n ++ txt "{" ++ e ++ txt "}{" ++ e' ++ (txt "}" ++ rest) ++ e2)
      with (txt "\" ++ n ++ txt "{" ++ e ++ txt "}{" ++ e' ++ txt "}" ++ (rest ++ e2)). constructor; auto.
Qed.
Lemma latex_reads_nodes e t : reads latex_codes latex_active e t -> ~ In NL t -> latex e (map TChar t).
Proof.
  induction 1; intros N; cbn [map]; [constructor| |].
  - constructor; [easy| |apply IHreads; intros I; apply N; now right]. intros ->. apply N. now left.
  - constructor; [easy|]. apply IHreads. intros I. apply N. now right.
Qed.
Lemma plain_latex t : plain_tex t -> latex t (map TChar t).
Proof.
  induction t as [|c t IH]; intros H; cbn [map]; [constructor|]. destruct (H c) as [A N]; [now left|]. constructor; [easy|easy|]. apply IH. intros x Hx. apply H. now right.
Qed.
Lemma chars_of_map t : chars_of (map TChar t) = Some t.
Proof. induction t as [|c t IH]; cbn; [easy|]. now rewrite IH. Qed.
Lemma one_source n e g : In n commands1 -> latex e g -> latex (command n e) [TCmd n [g]].
Proof. intros K H. unfold command. change lit with txt. rewrite <- (app_nil_r (txt "}")). exact (x_one n e g [] [] K H x_nil). Qed.

Lemma tex_inline_app k a b : tex_inline k (a ++ b) = also (tex_inline k a) (tex_inline k b).
Proof.
  induction a as [|x a IH]; cbn [tex_inline app]; [now destruct (tex_inline k b)|]. rewrite IH.
  destruct (tex_inline1 k x), (tex_inline k a), (tex_inline k b); cbn; rewrite ?app_assoc; easy.
Qed.
Lemma tex_inline_one k x : tex_inline k [x] = tex_inline1 k x.
Proof. cbn [tex_inline]. destruct (tex_inline1 k x) as [l|]; cbn; now rewrite ?app_nil_r. Qed.
Lemma tex_inline_chars k t : tex_inline k (map TChar t) = Some (map (fun c => SChar c k) t).
Proof. induction t as [|c t IH]; cbn [map tex_inline tex_inline1]; [easy|]. now rewrite IH. Qed.
Lemma tex_inline1_one k n g : named n "includegraphics" = false ->
  tex_inline1 k (TCmd n [g]) = match within n k with Some k' => tex_inline k' g | None => None end.
Proof.
  intros E. cbn [tex_inline1]. rewrite E. destruct (within n k) as [k'|]; [|easy]. clear. induction g as [|x g IH]; cbn [tex_inline]; [easy|]. now rewrite IH.
Qed.
Lemma tex_inline1_href k u href g : chars_of u = Some href ->
  tex_inline1 k (TCmd (txt "href") [u; g]) = tex_inline (mk_look (k_code k) (k_bold k) (k_italic k) (k_underline k) (k_strike k) (Some href)) g.
Proof.
  intros E. cbn [tex_inline1]. replace (named (txt "href") "href") with true by reflexivity. rewrite E. clear.
  generalize (mk_look (k_code k) (k_bold k) (k_italic k) (k_underline k) (k_strike k) (Some href)). intros k'. induction g as [|x g IH]; cbn [tex_inline]; [easy|]. now rewrite IH.
Qed.

Definition inline_names : list str := [txt "texttt"; txt "textbf"; txt "textit"; txt "underline"; txt "sout"; txt "href"].
Lemma used_app a b : used (a ++ b) = used a ++ used b. Proof. apply flat_map_app. Qed.
Lemma used_chars t : used (map TChar t) = [].
Proof. induction t; cbn; auto. Qed.
Lemma used_cmd n args : used [TCmd n args] = n :: flat_map used args.
Proof. cbn. now rewrite app_nil_r. Qed.

(** Source [x] shows [g k] inside look [k], with commands for inline content. *)
Definition gives (x : str) (g : look -> list shown) : Prop :=
  exists ns, latex x ns /\ wordless ns /\ incl (used ns) inline_names /\ forall k, tex_inline k ns = Some (g k).
Lemma gives_nil : gives [] (fun _ => []).
Proof. exists []. split; [constructor|]. split; [constructor|]. split; [now intros x|easy]. Qed.
Lemma gives_text e t : reads latex_codes latex_active e t -> ~ In NL t -> gives e (fun k => map (fun c => SChar c k) t).
Proof.
  intros H N. exists (map TChar t). split; [now apply latex_reads_nodes|]. split; [unfold wordless; clear; induction t; cbn; constructor; easy|].
  split; [rewrite used_chars; now intros x|]. intros k. apply tex_inline_chars.
Qed.
Lemma gives_one n (up : look -> look) x g (b : bool) : In n commands1 -> In n inline_names -> named n "includegraphics" = false ->
  (forall k, within n k = Some (up k)) -> gives x g -> gives (command_if b n x) (fun k => g (if b then up k else k)).
Proof.
  intros K I Hn Hk (ns & H & W & U & S). destruct b; cbn [command_if]; [|now exists ns].
  exists [TCmd n [ns]]. split; [now apply one_source|]. split; [now repeat constructor|]. split.
  - rewrite used_cmd. cbn [flat_map]. rewrite app_nil_r. intros y [<-|Hy]; auto.
  - intros k. rewrite tex_inline_one, tex_inline1_one, Hk; [apply S|easy].
Qed.
Lemma gives_href e href x g : reads latex_codes latex_active e href -> ~ In NL href -> gives x g ->
  gives (lit "\href{" ++ e ++ lit "}{" ++ x ++ lit "}")
    (fun k => g (mk_look (k_code k) (k_bold k) (k_italic k) (k_underline k) (k_strike k) (Some href))).
Proof.
  intros He N (ns & H & W & U & S). exists [TCmd (txt "href") [map TChar href; ns]]. split.
  - pose proof (x_two (txt "href") e _ x ns [] [] ltac:(now left) (latex_reads_nodes _ _ He N) H x_nil) as P. exact P.
  - split; [now repeat constructor|]. split.
    + rewrite used_cmd. cbn [flat_map]. rewrite used_chars, app_nil_r. intros y [<-|Hy]; [cbn; tauto|auto].
    + intros k. rewrite tex_inline_one. rewrite (tex_inline1_href _ _ href); [apply S|apply chars_of_map].
Qed.

Lemma first_slash t : starts_with (lit "\includegraphics") (escape_latex t) = false.
Proof.
  rewrite escape_latex_flat. destruct t as [|c t]; [reflexivity|]. cbn [flat_map].
  unfold starts_with, str_eqb. destruct (list_eq_dec _ _ _) as [E|]; [|easy]. exfalso. unfold latex_one in E.
  repeat match type of E with context [(c =? ?k)%N] => destruct (N.eqb_spec c k); [now vm_compute in E|] end.
  cbn in E. injection E as -> _. easy.
Qed.
Lemma gives_five_latex f x g : gives x g -> gives
  (command_if (is_on (font_strikeout f)) (lit "sout") (command_if (is_on (font_underline f)) (lit "underline")
     (command_if (is_on (font_italic f)) (lit "textit") (command_if (is_on (font_bold f)) (lit "textbf") (command_if (is_mono f) (lit "texttt") x)))))
  (fun k => g (five f k)).
Proof.
  intros H.
  apply (gives_one (lit "texttt") set_code _ _ (is_mono f)) in H; [|cbn; tauto|cbn; tauto|reflexivity|now intros []].
  apply (gives_one (lit "textbf") set_bold _ _ (is_on (font_bold f))) in H; [|cbn; tauto|cbn; tauto|reflexivity|now intros []].
  apply (gives_one (lit "textit") set_italic _ _ (is_on (font_italic f))) in H; [|cbn; tauto|cbn; tauto|reflexivity|now intros []].
  apply (gives_one (lit "underline") set_under _ _ (is_on (font_underline f))) in H; [|cbn; tauto|cbn; tauto|reflexivity|now intros []].
  apply (gives_one (lit "sout") set_strike _ _ (is_on (font_strikeout f))) in H; [|cbn; tauto|cbn; tauto|reflexivity|now intros []].
  exact H.
Qed.
Lemma latex_one_ne c : latex_one c <> [].
Proof. unfold latex_one. repeat (destruct (_ =? _)%N; [discriminate|]). discriminate. Qed.
Lemma latex_segment_gives t f : ~ In NL t -> (forall c, In c t -> forall h, anchor_href f = Some h -> ~ In NL h) ->
  exists g, gives (latex_segment (SegText t f)) g /\ g bare = map (fun c => SChar c (look_of f)) t.
Proof.
  intros N Nh. unfold latex_segment. destruct (escape_latex t) as [|c e] eqn:E.
  - destruct t as [|c t]; [|exfalso; rewrite escape_latex_flat in E; cbn in E; apply app_eq_nil in E as [E _]; now apply latex_one_ne in E].
    eexists. split; [apply gives_nil|easy].
  - rewrite <- E, first_slash. pose proof (gives_five_latex f _ _ (gives_text _ _ (latex_reads t) N)) as H.
    destruct (anchor_href f) as [href|] eqn:Eh.
    + assert (Nn : ~ In NL href). { destruct t as [|c0 t]; [discriminate|]. apply (Nh c0); [now left|reflexivity]. }
      eexists. split; [apply gives_href; [apply (latex_reads href)|exact Nn|exact H]|]. cbn beta. rewrite five_bare, <- Eh. reflexivity.
    + eexists. split; [exact H|]. cbn beta. change bare with (mk_look false false false false false None). rewrite five_bare, <- Eh. reflexivity.
Qed.

(** Nodes of inline content, and what they show. *)
Definition inline_nodes (ns : list tex) (r : list shown) : Prop :=
  wordless ns /\ incl (used ns) inline_names /\ tex_inline bare ns = Some r.
Lemma latex_segments_give ss : Forall is_text ss -> one_line (flat_map seg_items ss) ->
  exists ns, latex (flat_map latex_segment ss) ns /\ inline_nodes ns (flat_map shown_item (flat_map seg_items ss)).
Proof.
  induction ss as [|s ss IH]; intros F N; [exists []; split; [constructor|]; split; [constructor|]; split; [now intros x|easy]|].
  inversion F as [|? ? Hs Fs]; subst. destruct s as [t f|]; [|easy]. cbn [flat_map] in N.
  destruct (latex_segment_gives t f) as (g & (a & Ha & Wa & Ua & Ia) & Hg).
  { intros I. destruct (N NL f) as [Q _]; [|easy]. rewrite in_app_iff. left. cbn [seg_items]. now apply (in_map (fun c => Chr c f)). }
  { intros c I. destruct (N c f) as [_ Q]; [|exact Q]. rewrite in_app_iff. left. cbn [seg_items]. now apply (in_map (fun c => Chr c f)). }
  destruct IH as (b & Hb & Wb & Ub & Ib); [easy| |].
  { intros c f' I. apply N. rewrite in_app_iff. now right. }
  exists (a ++ b). split; [cbn [flat_map]; now apply latex_app|]. split; [now apply Forall_app|]. split; [rewrite used_app; now apply incl_app|].
  rewrite tex_inline_app, Ia, Ib, Hg. cbn [flat_map also]. rewrite flat_map_app. f_equal. f_equal.
  cbn [seg_items]. clear. induction t as [|c t IH]; cbn; [easy|]. now rewrite IH.
Qed.
Lemma seg_chars ss x : Forall is_text ss -> In x (flat_map seg_items ss) -> exists c f, x = Chr c f.
Proof.
  intros F I. apply in_flat_map in I as (s & Is & I). rewrite Forall_forall in F. specialize (F _ Is). destruct s as [t f|]; [|easy].
  cbn [seg_items] in I. apply in_map_iff in I as (c & <- & _). eauto.
Qed.

(** A source that shows something is not empty; one that begins with a bracket shows it first. *)
Lemma source_ne e ns r : latex e ns -> tex_inline bare ns = Some r -> r <> [] -> e <> [].
Proof. intros H I N ->. rewrite (latex_same [] ns [] H x_nil) in I. injection I as <-. easy. Qed.
Lemma source_bracket q ns r : latex (91%N :: q) ns -> tex_inline bare ns = Some r -> exists r', r = SChar 91%N bare :: r'.
Proof.
  intros H I. inversion H as [|c rest l A N H' E|k c rest l K H' E|e g rest l He H' E|n rest l K Hn H' E|n e g rest l K He H' E|n e g e' g' rest l K He He' H' E]; subst.
  - cbn [tex_inline tex_inline1] in I. destruct (tex_inline bare l); [|discriminate]. injection I as <-. eexists. reflexivity.
  - exfalso. destruct (tok_head _ _ (tok_code _ _ K)) as (? & ->). discriminate.
Qed.

(** *** Paragraphs *)
Definition para_names : list str :=
  inline_names ++ [txt "section"; txt "subsection"; txt "subsubsection"; txt "paragraph"; txt "setstretch"; txt "colorbox"; txt "parbox"; txt "linewidth"; txt "mbox"].
Definition heading_name (level : Z) : str :=
  match level with 1%Z => txt "section" | 2%Z => txt "subsection" | 3%Z => txt "subsubsection" | _ => txt "paragraph" end.
Lemma heading_cases z : (heading_name z = txt "section" /\ depth_of z = 1%N) \/ (heading_name z = txt "subsection" /\ depth_of z = 2%N)
  \/ (heading_name z = txt "subsubsection" /\ depth_of z = 3%N) \/ (heading_name z = txt "paragraph" /\ depth_of z = 4%N).
Proof.
  unfold heading_name, depth_of. destruct z as [|p|p]; try tauto. destruct p as [p|p|]; try tauto; destruct p; tauto.
Qed.
Definition head_nodes (h : option Z) (ns : list tex) : list tex := match h with Some z => [TCmd (heading_name z) [ns]] | None => ns end.
Definition stretch_nodes (h : option str) (ns : list tex) : list tex :=
  match h with Some x => [TGroup (TCmd (txt "setstretch") [map TChar x] :: ns)] | None => ns end.
Definition rl_nodes (b : bool) (ns : list tex) : list tex := if b then [TCmd (txt "RL") [ns]] else ns.
Definition box_nodes (c : option str) (ns : list tex) : list tex :=
  match c with
  | Some x => [TCmd (txt "colorbox") [map TChar x; [TCmd (txt "parbox") [[TCmd (txt "linewidth") []]; ns]]]]
  | None => ns
  end.
Definition mbox_nodes (b : bool) (ns : list tex) : list tex := if b then [TCmd (txt "mbox") [ns]] else ns.

Lemma inline_plain ns r : inline_nodes ns r ->
  open_mbox ns = (false, ns) /\ open_box ns = (None, ns) /\ open_rl ns = (false, ns) /\ open_stretch ns = (None, ns) /\ open_heading ns = (None, ns).
Proof.
  intros (W & U & I).
  assert (K : forall n args rest, ns = TCmd n args :: rest -> In n inline_names).
  { intros n args rest ->. apply U. cbn. now left. }
  assert (G : forall g rest, ns <> TGroup g :: rest).
  { intros g rest ->. cbn [tex_inline tex_inline1 also] in I. discriminate. }
  destruct ns as [|[c|n args|g] rest]; [easy|now destruct rest| |now destruct (G g rest)].
  specialize (K _ _ _ eq_refl).
  assert (B : forall n args rest, (rest <> [] \/ named n "colorbox" = false) -> open_box (TCmd n args :: rest) = (None, TCmd n args :: rest)).
  { clear. intros n args rest H. unfold open_box. destruct args as [|a1 [|a2 [|]]]; try easy.
    all: destruct a2 as [|[|m ms|] a2]; try easy; destruct ms as [|[|[|w ws|] b] ms]; try easy; destruct ws, b, ms as [|g ms]; try easy; destruct ms, a2, rest; try easy; destruct H as [H| ->]; easy. }
  destruct rest as [|y rest].
  - rewrite B by (right; cbn in K; repeat destruct K as [<-|K]; try easy; reflexivity).
    cbn in K. repeat destruct K as [<-|K]; try easy; destruct args as [|a1 [|a2 [|]]]; try easy; repeat split; reflexivity.
  - rewrite B by (left; easy). repeat split; cbn; destruct args as [|? [|? [|]]]; easy.
Qed.

Lemma head_source h e ns : latex e ns -> latex (latex_heading h e) (head_nodes h ns).
Proof.
  intros H. destruct h as [z|]; [|exact H]. cbn [latex_heading head_nodes].
  change (match z with 1 => lit "section" | 2 => lit "subsection" | 3 => lit "subsubsection" | _ => lit "paragraph" end%Z) with (heading_name z).
  apply one_source; [|exact H]. destruct (heading_cases z) as [[-> _]|[[-> _]|[[-> _]|[-> _]]]]; cbn; tauto.
Qed.
Lemma stretch_source x e ns : plain_tex x -> latex e ns -> latex (lit "{\setstretch{" ++ x ++ lit "}" ++ e ++ lit "}") [TGroup (TCmd (txt "setstretch") [map TChar x] :: ns)].
Proof.
  intros Hx H. pose proof (x_one (txt "setstretch") x _ e ns ltac:(cbn; tauto) (plain_latex _ Hx) H) as P.
  pose proof (x_group _ _ [] [] P x_nil) as Q. rewrite <- !app_assoc in Q. exact Q.
Qed.
Lemma box_source x e ns : plain_tex x -> latex e ns ->
  latex (lit "\colorbox{" ++ x ++ lit "}{\parbox{\linewidth}{" ++ e ++ lit "}}")
    [TCmd (txt "colorbox") [map TChar x; [TCmd (txt "parbox") [[TCmd (txt "linewidth") []]; ns]]]].
Proof.
  intros Hx H. pose proof (x_word (txt "linewidth") [] [] ltac:(now left) ltac:(discriminate) x_nil) as P.
  pose proof (x_two (txt "parbox") _ _ e ns [] [] ltac:(cbn; tauto) P H x_nil) as Q.
  pose proof (x_two (txt "colorbox") x _ _ _ [] [] ltac:(cbn; tauto) (plain_latex _ Hx) Q x_nil) as R.
  replace (lit "\colorbox{" ++ x ++ lit "}{\parbox{\linewidth}{" ++ e ++ lit "}}") with
    (txt "\" ++ txt "colorbox" ++ txt "{" ++ x ++ txt "}{" ++ (txt "\" ++ txt "parbox" ++ txt "{" ++ (txt "\" ++ txt "linewidth" ++ []) ++ txt "}{" ++ e ++ txt "}" ++ []) ++ txt "}" ++ []);
    [exact R|]. cbn. rewrite <- !app_assoc. reflexivity.
Qed.

Section Wraps.
Variable stretch : Z -> str.
Hypothesis Hs : forall z, plain_tex (stretch z).
Definition is_rtl (f : bfmt) : bool := match f_direction f with Some 1%N => true | _ => false end.
Definition wrap_nodes (f : bfmt) (ns : list tex) : list tex :=
  mbox_nodes (on (f_non_breakable_lines f)) (box_nodes (f_background_color f) (rl_nodes (is_rtl f)
    (stretch_nodes (option_map stretch (f_line_height f)) (head_nodes (f_heading_level f) ns)))).
Lemma wrap_source f e ns : (forall c, f_background_color f = Some c -> plain_tex c) -> latex e ns ->
  latex (latex_wraps stretch f (latex_heading (f_heading_level f) e)) (wrap_nodes f ns).
Proof.
  intros Hc H. apply (head_source (f_heading_level f)) in H. unfold latex_wraps, wrap_nodes.
  set (e0 := latex_heading _ e) in *. set (n0 := head_nodes _ ns) in *. clearbody e0 n0.
  assert (H1 : latex (match f_line_height f with Some lh => lit "{\setstretch{" ++ stretch lh ++ lit "}" ++ e0 ++ lit "}" | None => e0 end)
    (stretch_nodes (option_map stretch (f_line_height f)) n0)).
  { destruct (f_line_height f); cbn [option_map stretch_nodes]; [now apply stretch_source|easy]. }
  set (e1 := match f_line_height f with Some _ => _ | None => _ end) in *. set (n1 := stretch_nodes _ n0) in *. clearbody e1 n1.
  assert (H2 : latex (match f_direction f with Some 1%N => command (lit "RL") e1 | _ => e1 end) (rl_nodes (is_rtl f) n1)).
  { unfold is_rtl. destruct (f_direction f) as [[|[| |]]|]; cbn [rl_nodes]; try easy. apply one_source; [cbn; tauto|easy]. }
  set (e2 := match f_direction f with Some _ => _ | None => _ end) in *. set (n2 := rl_nodes _ n1) in *. clearbody e2 n2.
  assert (H3 : latex (match f_background_color f with Some c => lit "\colorbox{" ++ c ++ lit "}{\parbox{\linewidth}{" ++ e2 ++ lit "}}" | None => e2 end)
    (box_nodes (f_background_color f) n2)).
  { destruct (f_background_color f) as [c|]; cbn [box_nodes]; [|easy]. apply box_source; [now apply Hc|easy]. }
  set (e3 := match f_background_color f with Some _ => _ | None => _ end) in *. set (n3 := box_nodes _ n2) in *. clearbody e3 n3.
  change is_on with on. destruct (on (f_non_breakable_lines f)); cbn [command_if mbox_nodes]; [|easy]. apply one_source; [cbn; tauto|easy].
Qed.
Lemma wrap_shown f ns r : inline_nodes ns r ->
  text_shown (wrap_nodes f ns) = Some [(match f_heading_level f with Some h => LHead (depth_of h) (set_of stretch f) | None => LText (set_of stretch f) end, r)].
Proof.
  intros H. destruct (inline_plain _ _ H) as (P1 & P2 & P3 & P4 & P5). destruct H as (_ & _ & I).
  unfold wrap_nodes, set_of. change (match f_direction f with Some 1%N => true | _ => false end) with (is_rtl f).
  assert (H5 : open_heading (head_nodes (f_heading_level f) ns) = (option_map depth_of (f_heading_level f), ns)).
  { destruct (f_heading_level f) as [z|]; cbn [head_nodes option_map]; [|easy]. destruct (heading_cases z) as [[-> ->]|[[-> ->]|[[-> ->]|[-> ->]]]]; reflexivity. }
  assert (K : forall o, o = open_mbox \/ o = open_rl -> o (head_nodes (f_heading_level f) ns) = (false, head_nodes (f_heading_level f) ns)).
  { intros o [->| ->]; (destruct (f_heading_level f) as [z|]; cbn [head_nodes]; [|easy]); destruct (heading_cases z) as [[-> _]|[[-> _]|[[-> _]|[-> _]]]]; reflexivity. }
  pose proof (K _ (or_introl eq_refl)) as K1. pose proof (K _ (or_intror eq_refl)) as K3. clear K.
  assert (K2 : open_box (head_nodes (f_heading_level f) ns) = (None, head_nodes (f_heading_level f) ns)) by now destruct (f_heading_level f).
  assert (K4 : open_stretch (head_nodes (f_heading_level f) ns) = (None, head_nodes (f_heading_level f) ns)) by now destruct (f_heading_level f).
  assert (F : forall s, option_map (fun x => [(match option_map depth_of (f_heading_level f) with Some d => LHead d s | None => LText s end, x)]) (tex_inline bare ns)
    = Some [(match f_heading_level f with Some h => LHead (depth_of h) s | None => LText s end, r)]).
  { intros s. rewrite I. now destruct (f_heading_level f). }
  set (n0 := head_nodes _ ns) in *. clearbody n0. unfold text_shown.
  destruct (on (f_non_breakable_lines f)), (f_background_color f) as [c|], (is_rtl f), (f_line_height f) as [h|]; cbn [mbox_nodes box_nodes rl_nodes stretch_nodes option_map];
    repeat (first [rewrite K1|rewrite K2|rewrite K3|rewrite K4|rewrite H5|progress cbn [open_mbox open_box open_rl open_stretch]
                  |match goal with |- context [named ?a ?b] => let v := eval vm_compute in (named a b) in change (named a b) with v; cbn [andb] end]); apply F.
Qed.
Lemma wrap_used f ns r : inline_nodes ns r -> is_rtl f = false -> incl (used (wrap_nodes f ns)) para_names.
Proof.
  intros (_ & U & _) R. unfold wrap_nodes. rewrite R. cbn [rl_nodes].
  assert (H0 : incl (used (head_nodes (f_heading_level f) ns)) para_names).
  { destruct (f_heading_level f) as [z|]; cbn [head_nodes].
    - rewrite used_cmd. cbn [flat_map]. rewrite app_nil_r. intros y [<-|Hy].
      + destruct (heading_cases z) as [[-> _]|[[-> _]|[[-> _]|[-> _]]]]; unfold para_names; cbn; tauto.
      + apply in_or_app. left. now apply U.
    - intros y Hy. apply in_or_app. left. now apply U. }
  set (n0 := head_nodes _ ns) in *. clearbody n0.
  assert (H1 : incl (used (stretch_nodes (option_map stretch (f_line_height f)) n0)) para_names).
  { destruct (f_line_height f); cbn [option_map stretch_nodes]; [|easy]. cbn [used flat_map used1]. rewrite !app_nil_r. fold (used n0). fold (used (map TChar (stretch z))).
    rewrite used_chars. intros y [<-|Hy]; [unfold para_names; cbn; tauto|now apply H0]. }
  set (n1 := stretch_nodes _ n0) in *. clearbody n1.
  assert (H2 : incl (used (box_nodes (f_background_color f) n1)) para_names).
  { destruct (f_background_color f) as [c|]; cbn [box_nodes]; [|easy]. rewrite used_cmd. cbn [flat_map]. rewrite used_chars, used_cmd. cbn [flat_map app]. rewrite used_cmd, !app_nil_r. cbn [flat_map app].
    intros y [<-|[<-|[<-|Hy]]]; try (unfold para_names; cbn; tauto). now apply H1. }
  set (n2 := box_nodes _ n1) in *. clearbody n2. destruct (on (f_non_breakable_lines f)); cbn [mbox_nodes]; [|easy].
  rewrite used_cmd. cbn [flat_map]. rewrite app_nil_r. intros y [<-|Hy]; [unfold para_names; cbn; tauto|now apply H2].
Qed.
End Wraps.
