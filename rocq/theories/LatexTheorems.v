(** The exported source has one reading, which shows the document. *)
From Coq Require Import Ascii String.
From Verif Require Import Base BaseFacts FormatRunsModel FormatRunsSpec RopeModel RopeSpec DocModel DocSpec DocInv DocFacts HistModel HistSpec DocHist
  QueryModel QuerySpec QueryFacts QueryText PropSpec DocTheorems QueryTheorems ListModel ListDocModel FragmentModel FragmentText
  EscapeModel EscapeSpec EscapeFacts ExportModel ExportSpec ExportHtml LatexModel LatexSpec LatexUnique LatexFacts.

(** *** Lists *)
Lemma join_snoc sep (l : list str) x : l <> [] -> join_with sep (l ++ [x]) = join_with sep l ++ sep ++ x.
Proof.
  induction l as [|y [|z l] IH]; intros N; [easy|easy|]. change (join_with sep ((y :: z :: l) ++ [x])) with (y ++ sep ++ join_with sep ((z :: l) ++ [x])).
  rewrite IH by easy. cbn [join_with]. now rewrite <- !app_assoc.
Qed.
Lemma items_source_snoc e l : items_source e l -> forall x i, item_source x i -> items_source (e ++ [NL] ++ x) (l ++ [i]).
Proof.
  induction 1 as [e i H|e i rest l H Hr IH]; intros x j Hx; cbn [app].
  - apply (is_more e i x [j] H). now constructor.
  - rewrite <- app_assoc. apply (is_more e i _ (l ++ [j]) H). now apply IH.
Qed.
Lemma items_shown_app o a b : items_shown o (a ++ b) = also (items_shown o a) (items_shown o b).
Proof.
  induction a as [|[[la|] g] a IH]; cbn [items_shown app]; [now destruct (items_shown o b)|easy|]. rewrite IH.
  destruct (tex_inline bare g), (items_shown o a), (items_shown o b); cbn; rewrite ?app_assoc; easy.
Qed.
Definition items_ok (o : bool) (items : list str) (r : list (lkind * list shown)) : Prop :=
  items <> [] /\ exists l, items_source (join_with newline items) l /\ items_shown o l = Some r /\ incl (part_used (PList o l)) para_names.
Definition item_ok (inner : str) (r : list shown) : Prop :=
  exists ns, latex inner ns /\ inline_nodes ns r /\ forall q, inner <> 91%N :: q.
Lemma item_used ns r o : inline_nodes ns r -> incl (part_used (PList o [(None, ns)])) para_names.
Proof. intros (_ & U & _) y Hy. cbn [part_used flat_map fst snd app] in Hy. rewrite app_nil_r in Hy. apply in_or_app. left. now apply U. Qed.
Lemma items_one o inner r : item_ok inner r -> items_ok o [lit "\item " ++ inner] [(LItem o, r)].
Proof.
  intros (ns & H & I & N). split; [easy|]. exists [(None, ns)]. split; [constructor; now constructor|].
  split; [|now apply (item_used ns r)]. cbn [items_shown]. destruct I as (_ & _ & ->). reflexivity.
Qed.
Lemma items_more o items q inner r : items_ok o items q -> item_ok inner r -> items_ok o (items ++ [lit "\item " ++ inner]) (q ++ [(LItem o, r)]).
Proof.
  intros (Ne & l & H & S & U) (ns & H' & I & N). split; [now destruct items|]. exists (l ++ [(None, ns)]).
  split; [rewrite join_snoc by easy; apply items_source_snoc; [easy|now constructor]|].
  split.
  - rewrite items_shown_app, S. cbn [items_shown]. destruct I as (_ & _ & ->). reflexivity.
  - cbn [part_used]. rewrite flat_map_app. apply incl_app; [exact U|]. exact (item_used ns r o I).
Qed.

(** *** Parts *)
Definition parts_ok (names : Prop) (xs : list str) (r : list (lkind * list shown)) : Prop :=
  exists ps, Forall2 part_source xs ps /\ parts_shown ps = Some r /\ (names -> incl (flat_map part_used ps) para_names).
Lemma parts_nil names : parts_ok names [] [].
Proof. exists []. split; [constructor|]. split; [easy|]. now intros _ x. Qed.
Lemma parts_cons (names : Prop) x p r xs q : part_source x p -> part_shown p = Some r -> (names -> incl (part_used p) para_names) ->
  parts_ok names xs q -> parts_ok names (x :: xs) (r ++ q).
Proof.
  intros H S U (ps & F & S' & U'). exists (p :: ps). split; [now constructor|]. split; [cbn [parts_shown]; now rewrite S, S'|].
  intros Hn. cbn [flat_map]. apply incl_app; auto.
Qed.
Lemma items_part names o items r xs q : items_ok o items r -> parts_ok names xs q -> parts_ok names (latex_list o items :: xs) (r ++ q).
Proof.
  intros (_ & l & H & S & U) P. apply (parts_cons names _ (PList o l)); [|exact S|easy|exact P].
  exact (p_list o _ l H).
Qed.
Lemma parts_weaken (a b : Prop) xs r : (b -> a) -> parts_ok a xs r -> parts_ok b xs r.
Proof. intros K (ps & F & S & U). exists ps. split; [easy|]. split; [easy|]. auto. Qed.

(** *** Paragraphs *)
Lemma inline_latex d b a p : block_ok d b a p -> one_line p ->
  exists inner ns, latex_inline d (b_id b) = Ok inner /\ latex inner ns /\ inline_nodes ns (flat_map shown_item p)
   /\ (p <> [] -> inner <> []) /\ ((forall f r, p <> Chr 91%N f :: r) -> forall q, inner <> 91%N :: q).
Proof.
  intros (_ & ss & E & F & <-) O. unfold latex_inline. rewrite E. cbn [bind]. destruct (latex_segments_give ss F O) as (ns & H & I).
  exists (flat_map latex_segment ss), ns. split; [easy|]. split; [easy|]. split; [easy|]. pose proof I as (_ & _ & I').
  pose proof (fun x => seg_chars ss x F) as Ch. split.
  - intros Ne. apply (source_ne _ _ _ H I'). destruct (flat_map seg_items ss) as [|x p]; [easy|]. destruct (Ch x) as (c & f & ->); [now left|]. discriminate.
  - intros Nb q Eq. rewrite Eq in H. destruct (source_bracket _ _ _ H I') as (r' & Er).
    destruct (flat_map seg_items ss) as [|x p]; [discriminate|]. destruct (Ch x) as (c & f & ->); [now left|].
    cbn in Er. injection Er as -> _. now apply (Nb f p).
Qed.
Lemma raw_text ss : Forall is_text ss ->
  flat_map latex_raw_segment ss = flat_map (fun x => match x with Chr c _ => [c] | Brk => [] end) (flat_map seg_items ss).
Proof.
  induction 1 as [|s ss Hs F IH]; [easy|]. destruct s as [t f|]; [|easy]. cbn [flat_map latex_raw_segment seg_items]. rewrite IH, flat_map_app. f_equal.
  clear. induction t as [|c t IH]; cbn; [easy|]. now rewrite <- IH.
Qed.
Lemma raw_shown_chars p : map (fun c => SChar c bare) (flat_map (fun x => match x with Chr c _ => [c] | Brk => [] end) p) = flat_map shown_raw p.
Proof. induction p as [|[c f|] p IH]; cbn; [easy| |easy]. now rewrite IH. Qed.

Section Blocks.
Variable stretch : Z -> str.
Hypothesis Hs : forall z, plain_tex (stretch z).
Variable L : ldoc.

Definition kinds_after (o : bool) (atts : list (option id * bfmt)) : Prop :=
  match atts with b :: _ => match listed L b with Some e => o = numbered (l_style e) | None => True end | [] => True end.
Lemma kinds_tail a atts : same_kinds L (a :: atts) -> same_kinds L atts.
Proof. destruct atts; [easy|]. now intros [_ H]. Qed.
Lemma kinds_next a atts e : same_kinds L (a :: atts) -> listed L a = Some e -> kinds_after (numbered (l_style e)) atts.
Proof. destruct atts as [|b atts]; [easy|]. intros [H _] He. rewrite He in H. cbn. now destruct (listed L b). Qed.
Lemma heading_ne h e : h <> None -> latex_heading h e <> [].
Proof. destruct h as [z|]; [|easy]. intros _. discriminate. Qed.
Lemma wraps_ne f x : x <> [] -> latex_wraps stretch f x <> [].
Proof.
  intros N. unfold latex_wraps, command_if, command. destruct (is_on (f_non_breakable_lines f)); [discriminate|]. destruct (f_background_color f); [discriminate|].
  destruct (f_direction f) as [[|[| |]]|]; try discriminate; destruct (f_line_height f); try discriminate; exact N.
Qed.

Lemma parts_show bs atts ps : blocks_ok (l_doc L) bs atts ps -> same_kinds L atts -> Forall2 (keeps L) atts ps -> forall open r,
  match open with Some (o, items) => items_ok o items r /\ kinds_after o atts | None => r = [] end ->
  exists xs, latex_blocks stretch L open bs = Ok xs /\ parts_ok (left_to_right atts) xs (r ++ latex_shown stretch L atts ps).
Proof.
  induction 1 as [|b bs a atts p ps Hb H IH]; intros S C open r Hr.
  - cbn [latex_blocks latex_shown]. rewrite app_nil_r. destruct open as [[o items]|].
    + eexists. split; [reflexivity|]. rewrite <- (app_nil_r r). apply items_part; [easy|apply parts_nil].
    + subst r. eexists. split; [reflexivity|apply parts_nil].
  - inversion C as [|? ? ? ? Ka C']; subst. specialize (IH (kinds_tail _ _ S) C').
    assert (W : left_to_right (a :: atts) -> left_to_right atts) by (intros Hl y Hy; apply Hl; now right).
    pose proof Hb as (Ea & ss & Es & Fs & Hp). assert (Ll : export_list L b = listed L a) by (subst a; reflexivity).
    cbn [latex_blocks latex_shown]. unfold latex_para_shown. rewrite Ll. unfold keeps in Ka. destruct (listed L a) as [e|] eqn:El.
    + destruct Ka as (Kc & Ko & Kb). rewrite Kc. destruct (inline_latex _ _ _ _ Hb Ko) as (inner & ns & -> & Hl & Hi & _ & Hn). cbn [bind].
      assert (It : item_ok inner (flat_map shown_item p)) by (exists ns; auto).
      destruct open as [[o items]|].
      * destruct Hr as [Hi' Hk]. cbn in Hk. rewrite El in Hk. subst o.
        destruct (IH (Some (numbered (l_style e), items ++ [lit "\item " ++ inner])) (r ++ [(LItem (numbered (l_style e)), flat_map shown_item p)])) as (xs & -> & P).
        { split; [now apply items_more|now apply (kinds_next a)]. }
        exists xs. split; [easy|]. rewrite <- app_assoc in P. apply (parts_weaken _ _ _ _ W P).
      * subst r. destruct (IH (Some (is_ordered (l_style e), [lit "\item " ++ inner])) [(LItem (numbered (l_style e)), flat_map shown_item p)]) as (xs & -> & P).
        { split; [exact (items_one (is_ordered (l_style e)) _ _ It)|exact (kinds_next a _ _ S El)]. }
        exists xs. split; [easy|]. apply (parts_weaken _ _ _ _ W P).
    + destruct (IH None [] eq_refl) as (xs & Ex & P). cbn [app] in P.
      assert (Q : exists x pt y, (if is_on (f_is_code_block (b_fmt b)) then latex_code (l_doc L) b else latex_para stretch (l_doc L) b) = Ok x
        /\ part_source x pt /\ part_shown pt = Some [y] /\ (left_to_right (a :: atts) -> incl (part_used pt) para_names)
        /\ y = latex_para_shown stretch L a p).
      { unfold latex_para_shown. rewrite El. assert (Ef : b_fmt b = snd a) by now subst a. rewrite Ef. change is_on with on. destruct (on (f_is_code_block (snd a))) eqn:Ec.
        - unfold latex_code, latex_raw. rewrite Es. cbn [bind]. rewrite (raw_text _ Fs), Hp. eexists _, (PVerb _), _. split; [reflexivity|].
          split; [exact (p_verb _ Ka)|]. split; [reflexivity|]. split; [now intros _ y|]. now rewrite raw_shown_chars.
        - destruct Ka as (Ko & Ke & Kc). unfold latex_para. destruct (inline_latex _ _ _ _ Hb Ko) as (inner & ns & -> & Hl & Hi & Hne & _). cbn [bind]. rewrite Ef.
          eexists _, (PText _), _. split; [reflexivity|]. split.
          + apply (p_text _ _ (wrap_source stretch Hs (snd a) inner ns Kc Hl)). apply wraps_ne. destruct Ke as [Ke|Ke]; [|now apply heading_ne].
            destruct (f_heading_level (snd a)) eqn:Eh; [discriminate|]. now apply Hne.
          + split; [exact (wrap_shown stretch (snd a) ns _ Hi)|]. split; [|easy].
            intros Hlr. apply (wrap_used stretch (snd a) ns _ Hi). specialize (Hlr a (or_introl eq_refl)). unfold is_rtl. destruct (f_direction (snd a)) as [[|[| |]]|]; easy. }
      destruct Q as (x & pt & y & -> & Px & Py & Pu & Ey). cbn [bind]. rewrite Ex. cbn [bind]. eexists. split; [reflexivity|].
      assert (P1 : parts_ok (left_to_right (a :: atts)) (x :: xs) ([y] ++ latex_shown stretch L atts ps)).
      { apply (parts_cons _ x pt); [easy|easy|easy|]. apply (parts_weaken _ _ _ _ W P). }
      unfold latex_para_shown in Ey. rewrite El in Ey. rewrite <- Ey.
      destruct open as [[o items]|]; [|now subst r]. apply (items_part _ o items r _ ([y] ++ latex_shown stretch L atts ps)); [easy|exact P1].
Qed.
End Blocks.

(** *** Bodies and files *)
Lemma parts_body xs ps : Forall2 part_source xs ps -> forall tail, body_source tail [] -> (tail = [] \/ exists r, tail = NL :: NL :: r) ->
  body_source (join_with (newline ++ newline) xs ++ tail) ps.
Proof.
  induction 1 as [|x p xs ps Hx F IH]; intros tail Ht Ts; [exact Ht|]. destruct xs as [|y xs].
  - inversion F; subst. cbn [join_with]. now apply b_part.
  - change (join_with (newline ++ newline) (x :: y :: xs)) with (x ++ (newline ++ newline) ++ join_with (newline ++ newline) (y :: xs)).
    rewrite <- !app_assoc. apply b_part; [easy|right; now eexists|]. change (newline ++ newline ++ ?z) with (NL :: NL :: z).
    apply b_skip, b_skip. now apply IH.
Qed.
Lemma file_ok class body l : braceless class -> body_source (NL :: NL :: body ++ [NL; NL]) l ->
  file_source (latex_file class body) (match class with [] => txt "article" | _ => class end)
    [txt "hyperref"; txt "ulem"; txt "graphicx"; txt "setspace"; txt "xcolor"] l.
Proof.
  intros B H. assert (B' : braceless (match class with [] => txt "article" | _ => class end)).
  { destruct class; [|exact B]. intros I. vm_compute in I. intuition discriminate. }
  assert (P : forall n rest m, forallb (fun c => negb (c =? 125)%N) n = true -> packages_source rest m ->
    packages_source (txt "\usepackage{" ++ n ++ txt "}" ++ [NL] ++ rest) (n :: m)).
  { intros n rest m Hn Hp. constructor; [|exact Hp]. intros I. rewrite forallb_forall in Hn. specialize (Hn _ I). discriminate. }
  pose proof (P (txt "hyperref") _ _ eq_refl (P (txt "ulem") _ _ eq_refl (P (txt "graphicx") _ _ eq_refl (P (txt "setspace") _ _ eq_refl
    (P (txt "xcolor") _ _ eq_refl k_nil))))) as Q.
  pose proof (f_all _ _ _ _ _ B' Q H) as R. unfold latex_file.
  set (cl := match class with [] => _ | _ => _ end) in *. change (match class with [] => lit "article" | _ => class end) with cl. clearbody cl.
  cbn in R |- *. rewrite <- ?app_assoc in R. cbn in R. exact R.
Qed.

Lemma forallb_in n : In n para_names -> forall p, defined_by n = Some p -> In p [txt "hyperref"; txt "ulem"; txt "graphicx"; txt "setspace"; txt "xcolor"].
Proof.
  intros H p Hp. vm_compute in H. repeat destruct H as [<-|H]; try easy; vm_compute in Hp; try discriminate; injection Hp as <-; vm_compute; tauto.
Qed.
Lemma export_latex_theorem stretch L its atts : reach (l_doc L) -> doc_items (l_doc L) = Ok its -> para_attrs (l_doc L) = map Some atts ->
  same_kinds L atts -> Forall2 (keeps L) atts (paragraphs its) -> (forall z, plain_tex (stretch z)) ->
  exists l, parts_shown l = Some (latex_shown stretch L atts (paragraphs its))
   /\ (forall class, exists s, export_latex stretch class false L = Ok s /\ forall m, body_source s m <-> m = l)
   /\ (forall class, braceless class -> exists s, export_latex stretch class true L = Ok s
       /\ forall c p m, file_source s c p m <-> c = (match class with [] => txt "article" | _ => class end)
            /\ p = [txt "hyperref"; txt "ulem"; txt "graphicx"; txt "setspace"; txt "xcolor"] /\ m = l)
   /\ (left_to_right atts -> all_defined [txt "hyperref"; txt "ulem"; txt "graphicx"; txt "setspace"; txt "xcolor"] l).
Proof.
  intros R Ei Ea S C Hh. destruct (reach_items _ R) as (ps & W & E). rewrite E in Ei. injection Ei as <-.
  destruct (blocks_ok_doc _ _ W) as (atts' & Ea' & B). assert (atts' = atts).
  { rewrite Ea in Ea'. clear - Ea'. revert atts Ea'. induction atts' as [|x l IH]; intros [|y m]; cbn; try discriminate; [easy|]. intros [= -> Em]. f_equal. auto. }
  subst atts'. rewrite paragraphs_items in * by apply (wf_ne _ _ W).
  destruct (parts_show stretch Hh L _ _ _ B S C None [] eq_refl) as (xs & Ex & l & F & Sh & U). exists l. split; [exact Sh|].
  unfold export_latex, export_blocks. rewrite Ex. cbn [bind]. repeat split.
  - intros class. eexists. split; [reflexivity|]. pose proof (parts_body _ _ F [] b_nil (or_introl eq_refl)) as P. rewrite app_nil_r in P.
    intros m. split; [|now intros ->]. intros Hm. now apply (body_one _ _ _ Hm).
  - intros class Bc. eexists. split; [reflexivity|].
    pose proof (parts_body _ _ F [NL; NL] (b_skip _ _ (b_skip _ _ b_nil)) (or_intror (ex_intro _ [] eq_refl))) as P.
    pose proof (file_ok class _ _ Bc (b_skip _ _ (b_skip _ _ P))) as Q. intros c p m. split; [|now intros (-> & -> & ->)].
    intros Hm. destruct (file_one _ _ _ _ _ _ _ Hm Q) as (-> & -> & ->). easy.
  - intros Hl n p In_n Hp. apply (forallb_in n); [now apply U|exact Hp].
Qed.

(** *** Paragraphs with images *)
Lemma latex_image_gives i : ~ In NL (iname i) ->
  exists ns, latex (latex_segment (SegImage i)) ns /\ wordless ns /\ tex_inline bare ns = Some [SImage (iname i) [] [] bare].
Proof.
  intros N. unfold latex_segment.
  assert (E : exists r, command (lit "includegraphics") (escape_latex (iname i)) = lit "\includegraphics" ++ r) by (eexists; reflexivity).
  destruct E as (r & E). rewrite E. cbn [lit app]. 
  replace (starts_with _ _) with true. 2:{ unfold starts_with, str_eqb. destruct (list_eq_dec _ _ _) as [|Q]; [easy|]. exfalso. apply Q. reflexivity. }
  match goal with |- exists _, latex ?x _ /\ _ => replace x with (command (lit "includegraphics") (escape_latex (iname i))) by exact E end.
  exists [TCmd (txt "includegraphics") [map TChar (iname i)]].
  split; [apply (one_source (txt "includegraphics")); [cbn; tauto|apply latex_reads_nodes; [apply latex_reads|easy]]|].
  split; [now repeat constructor|].
  rewrite tex_inline_one. cbn [tex_inline1]. change (named (txt "includegraphics") "includegraphics") with true.
  cbn iota. now rewrite chars_of_map.
Qed.
Lemma latex_images_theorem d i ss : block_segments d i = Ok ss -> Forall one_line_segment ss ->
  exists s l, latex_inline d i = Ok s /\ tex_inline bare l = Some (flat_map latex_shown_segment ss) /\ forall m, latex s m <-> m = l.
Proof.
  intros B F. unfold latex_inline. rewrite B. cbn [bind].
  assert (Q : exists ns, latex (flat_map latex_segment ss) ns /\ wordless ns /\ tex_inline bare ns = Some (flat_map latex_shown_segment ss)).
  { clear B. induction F as [|s ss Hs F IH]; [exists []; split; [constructor|]; split; [constructor|easy]|].
    assert (G : exists ns, latex (latex_segment s) ns /\ wordless ns /\ tex_inline bare ns = Some (latex_shown_segment s)).
    { destruct s as [t f|im]; cbn [one_line_segment] in Hs.
      - destruct (latex_segment_gives t f) as (g & (a & Ha & Wa & _ & Ia) & E); [easy|intros; now apply Hs|].
        exists a. split; [easy|]. split; [easy|]. now rewrite Ia, E.
      - now apply latex_image_gives. }
    destruct G as (a & Ha & Wa & Ia). destruct IH as (b & Hb & Wb & Ib).
    exists (a ++ b). split; [cbn [flat_map]; now apply latex_app|]. split; [now apply Forall_app|].
    rewrite tex_inline_app, Ia, Ib. reflexivity. }
  destruct Q as (ns & H & _ & I). exists (flat_map latex_segment ss), ns. split; [easy|]. split; [easy|].
  intros m. split; [intros Hm; exact (latex_same _ _ _ Hm H)|now intros ->].
Qed.
Lemma latex_code_theorem d b ss : block_segments d (b_id b) = Ok ss -> ~ contains (flat_map verbatim_segment ss) end_verbatim ->
  exists s, latex_code d b = Ok s /\ forall m, body_source s m <-> m = [PVerb (flat_map verbatim_segment ss)].
Proof.
  intros B N. unfold latex_code, latex_raw. rewrite B. cbn [bind]. change latex_raw_segment with verbatim_segment.
  eexists. split; [reflexivity|].
  assert (P : body_source (lit "\begin{verbatim}" ++ newline ++ flat_map verbatim_segment ss ++ newline ++ lit "\end{verbatim}") [PVerb (flat_map verbatim_segment ss)]).
  { rewrite <- (app_nil_r (lit "\begin{verbatim}" ++ _)). apply b_part; [exact (p_verb _ N)|now left|constructor]. }
  intros m. split; [intros Hm; exact (body_one _ _ _ Hm P)|now intros ->].
Qed.
