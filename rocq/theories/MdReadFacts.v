(** Reading the events of a gentle page gives the blocks of its paragraphs. *)
From Verif Require Import Base BaseFacts FormatRunsModel RopeModel DocModel DocSpec ListModel PropSpec ExportSpec ImportModel ImportSpec MdReadModel DocShows MdReadSpec.

Section InlInd.
  Variable P : inl -> Prop.
  Hypothesis HText : forall t, P (IText t).
  Hypothesis HCode : forall t, P (ICode t).
  Hypothesis HEmph : forall l, Forall P l -> P (IEmph l).
  Hypothesis HStrong : forall l, Forall P l -> P (IStrong l).
  Hypothesis HStrike : forall l, Forall P l -> P (IStrike l).
  Hypothesis HLink : forall h l, Forall P l -> P (ILink h l).
  Hypothesis HImage : forall l, Forall P l -> P (IImage l).
  Hypothesis HSoft : P ISoft.
  Hypothesis HBreak : P IBreak.
  Fixpoint inl_ind' (x : inl) : P x :=
    let all := fix all (l : list inl) : Forall P l :=
      match l with [] => Forall_nil _ | y :: r => Forall_cons _ (inl_ind' y) (all r) end in
    match x with
    | IText t => HText t | ICode t => HCode t
    | IEmph l => HEmph l (all l) | IStrong l => HStrong l (all l) | IStrike l => HStrike l (all l)
    | ILink h l => HLink h l (all l) | IImage l => HImage l (all l)
    | ISoft => HSoft | IBreak => HBreak
    end.
End InlInd.
Section BlockInd.
  Variable P : mblock -> Prop.
  Hypothesis HPara : forall l, P (MPara l).
  Hypothesis HHead : forall n l, P (MHead n l).
  Hypothesis HCode : forall a l, P (MCode a l).
  Hypothesis HList : forall o t items, Forall (Forall P) items -> P (MList o t items).
  Fixpoint mblock_ind' (b : mblock) : P b :=
    let all := fix all (l : list mblock) : Forall P l :=
      match l with [] => Forall_nil _ | y :: r => Forall_cons _ (mblock_ind' y) (all r) end in
    let all2 := fix all2 (l : list (list mblock)) : Forall (Forall P) l :=
      match l with [] => Forall_nil _ | y :: r => Forall_cons _ (all y) (all2 r) end in
    match b with
    | MPara l => HPara l | MHead n l => HHead n l | MCode a l => HCode a l
    | MList o t items => HList o t items (all2 items)
    end.
End BlockInd.

(** ** Inline content *)
Definition span_of (k : look) (t : str) : span :=
  mk_span t (k_bold k) (k_italic k) (k_underline k) (k_strike k) (k_code k) (k_link k).
Fixpoint inl_spans (k : look) (x : inl) : list (option span) :=
  match x with
  | IText t => [Some (span_of k t)]
  | ICode t => [Some (span_of (with_code k) t)]
  | IEmph l => flat_map (inl_spans (with_italic k)) l
  | IStrong l => flat_map (inl_spans (with_bold k)) l
  | IStrike l => flat_map (inl_spans (with_strike k)) l
  | ILink href l => flat_map (inl_spans (with_link k href)) l
  | IImage _ => []
  | ISoft => [Some (span_of k [32%N])]
  | IBreak => [None]
  end.
Definition step (s : mdstate) (o : option span) : mdstate :=
  match o with
  | Some x => upd_spans s (m_spans s ++ [x])
  | None => upd_heading (push_block s (m_heading s) (m_list s) (m_indent s) (m_code s) (m_language s)) None
  end.
Definition feed (s : mdstate) (os : list (option span)) : mdstate := fold_left step os s.
Definition look_at (s : mdstate) : look := mk_look false (m_bold s) (m_italic s) false (m_strike s) (m_href s).
Definition is_some {A} (o : option A) : bool := match o with Some _ => true | None => false end.

Lemma feed_app s a b : feed s (a ++ b) = feed (feed s a) b.
Proof. apply fold_left_app. Qed.
Lemma feed_cons s o os : feed s (o :: os) = feed (step s o) os.
Proof. reflexivity. Qed.
Lemma feed_italic os : forall s b, feed (upd_italic s b) os = upd_italic (feed s os) b.
Proof. induction os as [|[x|] os IH]; intros s b; [easy| |]; rewrite !feed_cons, <- IH; destruct s; reflexivity. Qed.
Lemma feed_bold os : forall s b, feed (upd_bold s b) os = upd_bold (feed s os) b.
Proof. induction os as [|[x|] os IH]; intros s b; [easy| |]; rewrite !feed_cons, <- IH; destruct s; reflexivity. Qed.
Lemma feed_strike os : forall s b, feed (upd_strike s b) os = upd_strike (feed s os) b.
Proof. induction os as [|[x|] os IH]; intros s b; [easy| |]; rewrite !feed_cons, <- IH; destruct s; reflexivity. Qed.
Lemma feed_href os : forall s b, feed (upd_href s b) os = upd_href (feed s os) b.
Proof. induction os as [|[x|] os IH]; intros s b; [easy| |]; rewrite !feed_cons, <- IH; destruct s; reflexivity. Qed.

Definition inside (s : mdstate) : Prop := m_in_table s = false /\ m_code s = false /\ m_in_block s = true.
Definition marks (s s' : mdstate) : Prop :=
  m_bold s' = m_bold s /\ m_italic s' = m_italic s /\ m_strike s' = m_strike s /\ m_href s' = m_href s.
Lemma feed_keeps os : forall s, inside s -> inside (feed s os) /\ marks s (feed s os).
Proof.
  induction os as [|o os IH]; intros s H; [easy|]. rewrite feed_cons.
  destruct (IH (step s o)) as [A B]; [destruct s, o; exact H|]. split; [exact A|]. destruct s, o; exact B.
Qed.
Lemma marks_look s s' : marks s s' -> look_at s' = look_at s.
Proof. unfold look_at. now intros (-> & -> & -> & ->). Qed.

Definition clean_in (s : mdstate) (x : inl) : bool := clean (m_bold s) (m_italic s) (m_strike s) (is_some (m_href s)) x.
Lemma in_block_id s : m_in_block s = true -> upd_in_block s true = s.
Proof. destruct s; cbn. now intros ->. Qed.
Lemma italic_back s : m_italic s = false -> upd_italic (upd_italic s true) false = s.
Proof. destruct s; cbn. now intros ->. Qed.
Lemma bold_back s : m_bold s = false -> upd_bold (upd_bold s true) false = s.
Proof. destruct s; cbn. now intros ->. Qed.
Lemma strike_back s : m_strike s = false -> upd_strike (upd_strike s true) false = s.
Proof. destruct s; cbn. now intros ->. Qed.
Lemma href_back s h : m_href s = None -> upd_href (upd_href s (Some h)) None = s.
Proof. destruct s; cbn. now intros ->. Qed.

Definition inl_reads (x : inl) : Prop :=
  forall s, inside s -> clean_in s x = true -> fold_left md_event (inl_events x) s = feed s (inl_spans (look_at s) x).
Lemma inl_all l : Forall inl_reads l -> forall s, inside s -> forallb (clean_in s) l = true ->
  fold_left md_event (flat_map inl_events l) s = feed s (flat_map (inl_spans (look_at s)) l).
Proof.
  induction 1 as [|x l Hx _ IH]; intros s Hs Hc; [easy|]. cbn [flat_map forallb] in *. apply andb_prop in Hc as [Hc1 Hc2].
  rewrite fold_left_app, Hx, feed_app by easy.
  destruct (feed_keeps (inl_spans (look_at s) x) s Hs) as [A B]. rewrite IH, (marks_look _ _ B); [reflexivity|exact A|].
  unfold clean_in. destruct B as (-> & -> & -> & ->). exact Hc2.
Qed.
Lemma inl_read : forall x, inl_reads x.
Proof.
  induction x as [t|t|l IH|l IH|l IH|h l IH|l IH| |] using inl_ind'; intros s Hs Hc; pose proof Hs as (H1 & H2 & H3).
  - cbn. unfold push_span. rewrite H1, H2. destruct s; cbn in *. now subst.
  - cbn. unfold push_span. rewrite H1. destruct s; cbn in *. now subst.
  - cbn [inl_events inl_spans clean_in clean] in *. unfold clean_in in Hc. cbn [clean] in Hc. apply andb_prop in Hc as [Hi Hc].
    cbn [fold_left]. rewrite fold_left_app. cbn [md_event].
    rewrite (inl_all l IH (upd_italic s true)) by (destruct s; easy). cbn [fold_left md_event]. rewrite feed_italic.
    apply negb_true_iff in Hi. destruct (feed_keeps (flat_map (inl_spans (look_at (upd_italic s true))) l) s Hs) as [_ B].
    rewrite italic_back; [now destruct s|]. destruct B as (_ & -> & _). exact Hi.
  - cbn [inl_events inl_spans clean_in clean] in *. unfold clean_in in Hc. cbn [clean] in Hc. apply andb_prop in Hc as [Hi Hc].
    cbn [fold_left]. rewrite fold_left_app. cbn [md_event].
    rewrite (inl_all l IH (upd_bold s true)) by (destruct s; easy). cbn [fold_left md_event]. rewrite feed_bold.
    apply negb_true_iff in Hi. destruct (feed_keeps (flat_map (inl_spans (look_at (upd_bold s true))) l) s Hs) as [_ B].
    rewrite bold_back; [now destruct s|]. destruct B as (-> & _). exact Hi.
  - cbn [inl_events inl_spans clean_in clean] in *. unfold clean_in in Hc. cbn [clean] in Hc. apply andb_prop in Hc as [Hi Hc].
    cbn [fold_left]. rewrite fold_left_app. cbn [md_event].
    rewrite (inl_all l IH (upd_strike s true)) by (destruct s; easy). cbn [fold_left md_event]. rewrite feed_strike.
    apply negb_true_iff in Hi. destruct (feed_keeps (flat_map (inl_spans (look_at (upd_strike s true))) l) s Hs) as [_ B].
    rewrite strike_back; [now destruct s|]. destruct B as (_ & _ & -> & _). exact Hi.
  - cbn [inl_events inl_spans clean_in clean] in *. unfold clean_in in Hc. cbn [clean] in Hc. apply andb_prop in Hc as [Hi Hc].
    cbn [fold_left]. rewrite fold_left_app. cbn [md_event].
    rewrite (inl_all l IH (upd_href s (Some h))) by (destruct s; easy). cbn [fold_left md_event]. rewrite feed_href.
    destruct (feed_keeps (flat_map (inl_spans (look_at (upd_href s (Some h)))) l) s Hs) as [_ B].
    rewrite href_back; [now destruct s|]. destruct B as (_ & _ & _ & ->). destruct (m_href s); easy.
  - easy.
  - cbn. unfold push_span. rewrite H1. reflexivity.
  - cbn. rewrite H3, orb_true_r. reflexivity.
Qed.
Lemma all_reads l : Forall inl_reads l.
Proof. induction l; constructor; [apply inl_read|easy]. Qed.

(** ** The characters of the spans *)
Definition o_chars (o : option span) (k : look) : list (option (char * look)) :=
  match o with None => [None] | Some x => map (fun c => Some (c, k)) (sp_text x) end.
Definition span_look (x : span) : look := mk_look (sp_code x) (sp_bold x) (sp_italic x) (sp_underline x) (sp_strikeout x) (sp_href x).
Definition osc (o : option span) : list (option (char * look)) :=
  match o with None => [None] | Some x => map (fun c => Some (c, span_look x)) (sp_text x) end.
Lemma spans_chars : forall x k, flat_map osc (inl_spans k x) = inl_chars k x.
Proof.
  assert (All : forall l, Forall (fun x => forall k, flat_map osc (inl_spans k x) = inl_chars k x) l ->
    forall k, flat_map osc (flat_map (inl_spans k) l) = flat_map (inl_chars k) l).
  { induction 1 as [|x l Hx _ IH]; intros k; [easy|]. cbn [flat_map]. rewrite flat_map_app, Hx, IH. reflexivity. }
  induction x as [t|t|l IH|l IH|l IH|h l IH|l IH| |] using inl_ind'; intros k; cbn [inl_spans inl_chars]; try (now apply All); try easy.
  - cbn [flat_map osc span_of sp_text]. rewrite app_nil_r. unfold span_look. cbn. now destruct k.
  - cbn [flat_map osc span_of sp_text]. rewrite app_nil_r. unfold span_look. cbn. now destruct k.
  - cbn. unfold span_look. cbn. now destruct k.
Qed.
Lemma spans_chars_all l k : flat_map osc (flat_map (inl_spans k) l) = flat_map (inl_chars k) l.
Proof. induction l as [|x l IH]; [easy|]. cbn [flat_map]. rewrite flat_map_app, spans_chars, IH. reflexivity. Qed.

(** The lines of spans, and those of their characters. *)
Definition line_chars (l : list span) : list (char * look) := flat_map (fun x => map (fun c => (c, span_look x)) (sp_text x)) l.
Lemma lines_ne {A} (l : list (option A)) : lines_at l <> [].
Proof. destruct l as [|[x|] l]; cbn; try easy. now destruct (lines_at l). Qed.
Lemma lines_somes {A} (x : list A) (l : list (option A)) :
  lines_at (map Some x ++ l) = match lines_at l with y :: ys => (x ++ y) :: ys | [] => [] end.
Proof.
  induction x as [|a x IH]; cbn [map app lines_at].
  - pose proof (lines_ne l). now destruct (lines_at l).
  - rewrite IH. pose proof (lines_ne l). now destruct (lines_at l).
Qed.
Lemma lines_chars os : lines_at (flat_map osc os) = map line_chars (lines_at os).
Proof.
  induction os as [|[x|] os IH]; [easy| |].
  - cbn [flat_map osc lines_at]. rewrite <- (map_map (fun c => (c, span_look x)) Some), lines_somes, IH.
    pose proof (lines_ne os). now destruct (lines_at os).
  - cbn [flat_map osc lines_at app map]. now rewrite IH.
Qed.

Lemma span_look_fmt x code : span_fmt x code = look_fmt (mk_look (sp_code x || code) (sp_bold x) (sp_italic x) (sp_underline x) (sp_strikeout x) (sp_href x)).
Proof. reflexivity. Qed.
Lemma line_items l : flat_map (span_items false) l = shown_items (line_chars l).
Proof.
  unfold shown_items, line_chars. induction l as [|x l IH]; [easy|]. cbn [flat_map]. rewrite map_app, IH. f_equal.
  unfold span_items. rewrite map_map. apply map_ext. intros c. cbn [fst snd]. f_equal. rewrite span_look_fmt, orb_false_r. reflexivity.
Qed.

(** ** What a block shows *)
Definition view (b : pblock) : dpara := mk_dpara (block_items b) (pblock_fmt false b) (piece_of b).
Definition shows (bs : list pblock) (ps : list mpara) : Prop :=
  Forall (fun b => pb_quotes b = 0) bs /\ map view bs = map expected ps.
Lemma shows_app a b ps qs : shows a ps -> shows b qs -> shows (a ++ b) (ps ++ qs).
Proof. intros [A1 A2] [B1 B2]. split; [now apply Forall_app|]. now rewrite !map_app, A2, B2. Qed.
Lemma shows_one b k l : pb_quotes b = 0 -> view b = expected (k, l) -> shows [b] [(k, l)].
Proof. intros H1 H2. split; [now constructor|]. cbn. now rewrite H2. Qed.

(** Feeding lines of a paragraph outside lists. *)
Definition plain_block (s : mdstate) (l : list span) : pblock := mk_pblock l None None (m_indent s) false None 0 None None None None.
Definition quiet (s : mdstate) : Prop :=
  m_heading s = None /\ m_code s = false /\ m_language s = None /\ m_quotes s = 0 /\ m_bold s = false /\ m_italic s = false
  /\ m_strike s = false /\ m_href s = None /\ m_in_table s = false.
Lemma feed_lines os : forall s, quiet s -> m_list s = None ->
  exists done last, lines_at os = done ++ [last] /\
    feed s os =
      match done with
      | [] => upd_spans s (m_spans s ++ last)
      | x :: xs => upd_spans (upd_done s (m_done s ++ map (fun l => PBlock (plain_block s l)) ((m_spans s ++ x) :: xs))) last
      end.
Proof.
  induction os as [|[x|] os IH]; intros s Q Hl.
  - exists [], []. split; [easy|]. cbn. rewrite app_nil_r. now destruct s.
  - rewrite feed_cons. cbn [step lines_at]. destruct (IH (upd_spans s (m_spans s ++ [x]))) as (done & last & E & F); [exact Q|exact Hl|].
    rewrite F, E. destruct done as [|y ys].
    + exists [], (x :: last). split; [easy|]. cbn [app]. destruct s; cbn. now rewrite <- app_assoc.
    + exists ((x :: y) :: ys), last. split; [easy|]. destruct s; cbn. now rewrite <- !app_assoc.
  - rewrite feed_cons. cbn [step lines_at].
    match goal with |- context [feed ?t os] => set (s1 := t) end.
    destruct (IH s1) as (done & last & E & F); [unfold s1; destruct s; cbn in *; unfold quiet in *; cbn in *; intuition|unfold s1; destruct s; exact Hl|].
    rewrite F, E. exists ([] :: done), last. split; [easy|].
    destruct Q as (Q1 & Q2 & Q3 & Q4 & _). unfold s1. destruct s; cbn in *. subst. rewrite app_nil_r.
    destruct done as [|y ys]; unfold plain_block; cbn; [reflexivity|]. now rewrite <- app_assoc.
Qed.
Lemma feed_somes os : forall s x, lines_at os = [x] -> feed s os = upd_spans s (m_spans s ++ x).
Proof.
  induction os as [|[y|] os IH]; intros s x E; cbn [lines_at] in E.
  - injection E as <-. cbn. rewrite app_nil_r. now destruct s.
  - rewrite feed_cons. cbn [step]. destruct (lines_at os) as [|z [|z' zs]] eqn:El; [| |discriminate E]; injection E as <-.
    + now apply lines_ne in El.
    + specialize (IH (upd_spans s (m_spans s ++ [y])) z eq_refl). rewrite IH. destruct s; cbn. now rewrite <- app_assoc.
  - injection E as _ E. now apply lines_ne in E.
Qed.

(** ** Blocks *)
Definition flushed (s : mdstate) : list pelement :=
  if has_spans s then m_done (push_block s None (m_list s) (m_indent s) false None) else m_done s.
Definition inv (s : mdstate) (stk : list (option list_style)) (D : list pelement) (ps : list mpara) : Prop :=
  quiet s /\ m_stack s = stk /\ exists bs, flushed s = D ++ map PBlock bs /\ shows bs ps.
Definition idle (s : mdstate) : Prop := m_spans s = [] /\ m_list s = None.
Definition mark_style (ordered : bool) : list_style := if ordered then Decimal else Disc.

Lemma clean_quiet s l : quiet s -> clean_all l = true -> forallb (clean_in s) l = true /\ look_at s = bare.
Proof.
  intros (Q1 & Q2 & Q3 & Q4 & Q5 & Q6 & Q7 & Q8 & Q9) H. unfold clean_in, look_at. rewrite Q5, Q6, Q7, Q8. easy.
Qed.
Lemma spans_one l : one_line l = true -> exists x, lines_at (flat_map (inl_spans bare) l) = [x] /\ one_shown l = line_chars x.
Proof.
  unfold one_line, one_shown, shown_lines. rewrite <- spans_chars_all, lines_chars.
  destruct (lines_at (flat_map (inl_spans bare) l)) as [|x [|y z]]; cbn; try easy. intros _. exists x. now rewrite app_nil_r.
Qed.
(** Inline content on one line. *)
Lemma line_read l s : quiet s -> m_in_block s = true -> clean_all l = true -> one_line l = true ->
  exists x, fold_left md_event (flat_map inl_events l) s = upd_spans s (m_spans s ++ x) /\ one_shown l = line_chars x.
Proof.
  intros Q B C O. destruct (spans_one _ O) as (x & X1 & X2). exists x. split; [|exact X2].
  destruct (clean_quiet s l Q C) as [C1 C2]. rewrite (inl_all l (all_reads l) s), C2.
  - now apply feed_somes.
  - destruct Q as (_ & Q2 & _ & _ & _ & _ & _ & _ & Q9). easy.
  - exact C1.
Qed.
Lemma idle_flushed s : m_spans s = [] -> flushed s = m_done s.
Proof. unfold flushed, has_spans. now intros ->. Qed.

Lemma para_read l s D ps stk : clean_all l = true -> inv s stk D ps -> idle s ->
  inv (fold_left md_event (block_events false (MPara l)) s) stk D (ps ++ block_paras 0 (MPara l))
  /\ idle (fold_left md_event (block_events false (MPara l)) s).
Proof.
  intros C (Q & St & bs & F & Sh) [I1 I2]. cbn [block_events block_paras].
  cbn [fold_left]. rewrite fold_left_app. cbn [md_event].
  set (s1 := upd_code _ false). assert (Q1 : quiet s1) by (unfold s1; destruct s; unfold quiet in *; cbn in *; intuition).
  destruct (clean_quiet s1 l Q1 C) as [C1 C2].
  rewrite (inl_all l (all_reads l) s1), C2; [|now destruct s; unfold quiet in Q1; cbn in *|exact C1].
  destruct (feed_lines (flat_map (inl_spans bare) l) s1 Q1) as (done & last & E & G); [now destruct s|].
  assert (Sp : m_spans s1 = []) by (now destruct s). rewrite Sp in G. cbn [app] in G.
  assert (Dn : m_done s1 = D ++ map PBlock bs) by (rewrite idle_flushed in F by easy; now destruct s).
  unfold shown_lines. rewrite <- spans_chars_all, lines_chars, E.
  assert (R : feed s1 (flat_map (inl_spans bare) l) = upd_spans (upd_done s1 (m_done s1 ++ map (fun l => PBlock (plain_block s1 l)) done)) last).
  { rewrite G. destruct done; cbn [map]; [rewrite app_nil_r; now destruct s1|reflexivity]. }
  rewrite R. clear G R. rewrite Dn. cbn [fold_left md_event].
  assert (In : m_in_block s1 = true) by (now destruct s).
  assert (Li : m_list s1 = None) by (now destruct s).
  assert (Sk : m_stack s1 = stk) by (now destruct s).
  clearbody s1. clear Sp Dn F. destruct Q1 as (Q1 & Q2 & Q3 & Q4 & Q5 & Q6 & Q7 & Q8 & Q9). destruct s1 as [f1 f2 f3 f4 f5 f6 f7 f8 f9 f10 f11 f12 f13 f14 f15 f16 f17 f18 f19 f20]; cbn in *. subst.
  rewrite orb_true_r. cbn. split; [|easy]. split; [easy|]. split; [easy|].
  exists (bs ++ map (plain_block (mk_mdstate [] [] None None false None 0 true false false false None [] f14 false false [] [] [] 0)) (done ++ [last])).
  split.
  - unfold flushed. cbn. rewrite !map_app, map_map, <- !app_assoc. reflexivity.
  - apply shows_app; [easy|]. split.
    + apply Forall_forall. intros b Hb. apply in_map_iff in Hb as (x & <- & _). easy.
    + rewrite !map_map. apply map_ext. intros x. unfold view, expected. cbn. f_equal. apply line_items.
Qed.
Lemma head_read n l s D ps stk : clean_all l = true -> one_line l = true -> inv s stk D ps -> idle s ->
  inv (fold_left md_event (block_events false (MHead n l)) s) stk D (ps ++ block_paras 0 (MHead n l))
  /\ idle (fold_left md_event (block_events false (MHead n l)) s).
Proof.
  intros C O (Q & St & bs & F & Sh) [I1 I2]. cbn [block_events block_paras].
  cbn [fold_left]. rewrite fold_left_app. cbn [md_event].
  destruct (spans_one _ O) as (x & X1 & X2). rewrite X2.
  set (s1 := upd_code _ false).
  assert (Q' : quiet (upd_heading s1 None)) by (unfold s1; destruct s; unfold quiet in *; cbn in *; intuition).
  destruct (clean_quiet _ l Q' C) as [C1 C2].
  rewrite (inl_all l (all_reads l) s1); [|destruct s; unfold quiet in Q'; cbn in *; unfold inside; cbn; intuition|exact C1].
  replace (look_at s1) with bare by (rewrite <- C2; now destruct s).
  rewrite (feed_somes _ s1 x X1). cbn [fold_left md_event].
  rewrite idle_flushed in F by easy. unfold s1. clear s1 Q' C1 C2.
  destruct Q as (Q1 & Q2 & Q3 & Q4 & Q5 & Q6 & Q7 & Q8 & Q9). destruct s; cbn in *. subst. cbn.
  split; [|easy]. split; [easy|]. split; [easy|].
  eexists (bs ++ [_]). split; [unfold flushed; cbn; rewrite map_app, app_assoc; reflexivity|].
  apply shows_app; [easy|]. apply shows_one; [easy|]. unfold view, expected. cbn. f_equal. apply line_items.
Qed.

Definition code_span (t : str) : span := span_of (with_code bare) t.
Lemma code_read_lines lines : forall s, quiet (upd_language (upd_code s false) None) -> m_code s = true -> m_in_block s = true ->
  fold_left md_event (map (fun t => EText (t ++ [NL])) lines) s = upd_spans s (m_spans s ++ map (fun t => code_span (t ++ [NL])) lines).
Proof.
  induction lines as [|t lines IH]; intros s Q C B; [cbn; rewrite app_nil_r; now destruct s|].
  cbn [map fold_left]. destruct Q as (Q1 & Q2 & Q3 & Q4 & Q5 & Q6 & Q7 & Q8 & Q9).
  replace (md_event s (EText (t ++ [NL]))) with (upd_spans s (m_spans s ++ [code_span (t ++ [NL])])).
  - rewrite IH; [destruct s; cbn; now rewrite <- app_assoc| | |]; destruct s; cbn in *; easy.
  - destruct s; cbn in *. subst. reflexivity.
Qed.
Lemma trim_snoc l x : trim_code (l ++ [x]) =
  l ++ [mk_span (drop_newline (sp_text x)) (sp_bold x) (sp_italic x) (sp_underline x) (sp_strikeout x) (sp_code x) (sp_href x)].
Proof. induction l as [|y l IH]; [easy|]. cbn [app trim_code]. rewrite IH. now destruct l. Qed.
Lemma drop_snoc t : drop_newline (t ++ [NL]) = t.
Proof. unfold drop_newline. rewrite rev_app_distr. cbn. apply rev_involutive. Qed.
Lemma join_snoc l : forall t, joined (l ++ [t]) = flat_map (fun x => x ++ [NL]) l ++ t.
Proof.
  induction l as [|x l IH]; intros t; [reflexivity|]. cbn [app flat_map].
  replace (joined (x :: l ++ [t])) with (x ++ NL :: joined (l ++ [t])) by (now destruct l).
  rewrite IH, <- !app_assoc. reflexivity.
Qed.
Lemma code_items lines : flat_map (span_items true) (trim_code (map (fun t => code_span (t ++ [NL])) lines)) = shown_items (code_text lines).
Proof.
  destruct lines as [|t0 ts] using rev_ind; [easy|]. clear IHts. rewrite map_app. cbn [map]. rewrite trim_snoc. unfold code_text.
  rewrite join_snoc, flat_map_app. unfold shown_items. rewrite map_map, map_app. f_equal.
  - induction ts as [|t ts IH]; [easy|]. cbn [map flat_map]. rewrite map_app, IH. f_equal.
  - cbn [flat_map code_span span_of sp_text sp_bold sp_italic sp_underline sp_strikeout sp_code sp_href]. rewrite drop_snoc, app_nil_r. reflexivity.
Qed.
Lemma code_read lang lines s D ps stk : inv s stk D ps -> idle s ->
  inv (fold_left md_event (block_events false (MCode lang lines)) s) stk D (ps ++ block_paras 0 (MCode lang lines))
  /\ idle (fold_left md_event (block_events false (MCode lang lines)) s).
Proof.
  intros (Q & St & bs & F & Sh) [I1 I2]. cbn [block_events block_paras].
  cbn [fold_left]. rewrite fold_left_app. cbn [md_event].
  set (s1 := upd_language _ _). rewrite (code_read_lines lines s1).
  2: { unfold s1. destruct s; unfold quiet in *; cbn in *; intuition. }
  2: now destruct s. 2: now destruct s.
  cbn [fold_left md_event]. rewrite idle_flushed in F by easy. unfold s1. clear s1.
  destruct Q as (Q1 & Q2 & Q3 & Q4 & Q5 & Q6 & Q7 & Q8 & Q9). destruct s; cbn in *. subst. cbn.
  split; [|easy]. split; [easy|]. split; [easy|].
  eexists (bs ++ [_]). split; [unfold flushed; cbn; rewrite map_app, app_assoc; reflexivity|].
  apply shows_app; [easy|]. apply shows_one; [easy|]. unfold view, expected. cbn.
  rewrite <- code_items. unfold block_items, pblock_fmt, kind_fmt, no_empty. cbn. now destruct lang as [[|c l]|].
Qed.

Definition item_events (tight : bool) (it : list mblock) : list event :=
  EStartItem :: flat_map (block_events tight) it ++ [EEndItem].
Definition item_paras (ordered : bool) (depth : nat) (it : list mblock) : list mpara :=
  match it with
  | MPara l :: rest => (KItem ordered depth, one_shown l) :: flat_map (block_paras (S depth)) rest
  | _ => (KItem ordered depth, []) :: flat_map (block_paras (S depth)) it
  end.
Definition list_reads (b : mblock) : Prop :=
  is_list b = true -> gentle_block b = true -> forall tight s stk D ps, inv s stk D ps ->
  inv (fold_left md_event (block_events tight b) s) stk D (ps ++ block_paras (length stk) b)
  /\ (idle s -> idle (fold_left md_event (block_events tight b) s)).
Lemma lists_read l : Forall list_reads l -> forallb (fun b => is_list b && gentle_block b) l = true ->
  forall tight s stk D ps, inv s stk D ps ->
  inv (fold_left md_event (flat_map (block_events tight) l) s) stk D (ps ++ flat_map (block_paras (length stk)) l).
Proof.
  induction 1 as [|b l Hb _ IH]; intros G tight s stk D ps I; [cbn; now rewrite app_nil_r|].
  cbn [forallb] in G. apply andb_prop in G as [G1 G2]. apply andb_prop in G1 as [G0 G1].
  cbn [flat_map]. rewrite fold_left_app, app_assoc. apply IH; [exact G2|]. now apply Hb.
Qed.
Lemma start_item s stk D ps ordered : inv s (Some (mark_style ordered) :: stk) D ps ->
  let s1 := md_event s EStartItem in
  inv s1 (Some (mark_style ordered) :: stk) D ps /\ m_spans s1 = [] /\ m_list s1 = Some (mark_style ordered)
  /\ m_indent s1 = length stk /\ m_in_block s1 = true.
Proof.
  intros (Q & St & bs & F & Sh). cbn [md_event]. rewrite St. cbn [length]. rewrite Nat.sub_succ, Nat.sub_0_r.
  destruct s as [f1 f2 f3 f4 f5 f6 f7 f8 f9 f10 f11 f12 f13 f14 f15 f16 f17 f18 f19 f20].
  unfold inv, flushed, has_spans, quiet in *. cbn in *. destruct f2 as [|x f2]; cbn; (split; [|easy]); (split; [easy|]); (split; [easy|]); exists bs; easy.
Qed.
Lemma end_item s stk D ps : inv s stk D ps -> inv (md_event s EEndItem) stk D ps /\ idle (md_event s EEndItem).
Proof.
  intros (Q & St & bs & F & Sh). cbn [md_event].
  destruct s as [f1 f2 f3 f4 f5 f6 f7 f8 f9 f10 f11 f12 f13 f14 f15 f16 f17 f18 f19 f20].
  unfold inv, idle, flushed, has_spans, quiet in *. cbn in *. destruct f2 as [|x f2]; cbn; (split; [|easy]); (split; [easy|]); (split; [easy|]); exists bs; easy.
Qed.
Lemma item_block spans ordered depth : view (mk_pblock spans None (Some (mark_style ordered)) depth false None 0 None None None None)
  = expected (KItem ordered depth, line_chars spans).
Proof. unfold view, expected. cbn. f_equal. apply line_items. Qed.
Lemma item_read tight ordered it s stk D ps : Forall list_reads it ->
  match it with
  | MPara l :: rest => clean_all l && one_line l && (negb tight || some_text l) && forallb (fun b => is_list b && gentle_block b) rest
  | _ => false
  end = true ->
  inv s (Some (mark_style ordered) :: stk) D ps ->
  inv (fold_left md_event (item_events tight it) s) (Some (mark_style ordered) :: stk) D (ps ++ item_paras ordered (length stk) it)
  /\ idle (fold_left md_event (item_events tight it) s).
Proof.
  intros IH G I. destruct it as [|[l|a b|a b|a b c] rest]; try easy.
  apply andb_prop in G as [G G4]. apply andb_prop in G as [G G3]. apply andb_prop in G as [G1 G2].
  unfold item_events. cbn [fold_left flat_map item_paras]. rewrite !fold_left_app.
  destruct (start_item _ _ _ _ _ I) as (I1 & Sp & Li & In & Bl). set (s1 := md_event s EStartItem) in *. clearbody s1. clear s I.
  apply Forall_inv_tail in IH.
  assert (P : inv (fold_left md_event (block_events tight (MPara l)) s1) (Some (mark_style ordered) :: stk) D (ps ++ [(KItem ordered (length stk), one_shown l)])).
  { destruct I1 as (Q & St & bs & F & Sh). rewrite idle_flushed in F by exact Sp. cbn [block_events]. destruct tight.
    - destruct (line_read l s1 Q Bl G1 G2) as (x & -> & X). rewrite Sp. cbn [app].
      assert (x <> []). { intros ->. cbn [negb orb] in G3. unfold some_text in G3. rewrite X in G3. easy. }
      split; [now destruct s1|]. split; [now destruct s1|].
      exists (bs ++ [mk_pblock x None (Some (mark_style ordered)) (length stk) false None 0 None None None None]). split.
      + unfold flushed. destruct Q as (_ & _ & _ & Q4 & _). destruct s1; cbn in *. subst. destruct x; [easy|]. cbn. now rewrite map_app, <- app_assoc.
      + apply shows_app; [easy|]. apply shows_one; [easy|]. rewrite X. apply item_block.
    - cbn [fold_left]. rewrite fold_left_app.
      destruct (line_read l (md_event s1 EStartParagraph)) as (x & -> & X);
        [destruct s1; unfold quiet in *; cbn in *; intuition|now destruct s1|exact G1|exact G2|].
      replace (m_spans (md_event s1 EStartParagraph)) with (@nil span) by (now destruct s1). cbn [fold_left app].
      destruct Q as (Q1 & Q2 & Q3 & Q4 & Q5 & Q6 & Q7 & Q8 & Q9). destruct s1; cbn in *. subst. cbn. rewrite orb_true_r. cbn.
      split; [easy|]. split; [easy|].
      exists (bs ++ [mk_pblock x None (Some (mark_style ordered)) (length stk) false None 0 None None None None]). split.
      + unfold flushed. cbn. now rewrite map_app, <- app_assoc.
      + apply shows_app; [easy|]. apply shows_one; [easy|]. rewrite X. apply item_block. }
  set (s2 := fold_left md_event (block_events tight (MPara l)) s1) in *. clearbody s2.
  pose proof (lists_read rest IH G4 tight s2 _ D _ P) as R. cbn [length] in R. rewrite <- app_assoc in R. cbn [app] in R.
  cbn [fold_left]. now apply end_item.
Qed.
Lemma list_read : forall b, list_reads b.
Proof.
  induction b as [l|n l|a l|ordered t items IH] using mblock_ind'; intros Hl G tight s stk D ps I; try easy.
  cbn [block_events gentle_block block_paras] in *. cbn [fold_left]. rewrite fold_left_app. cbn [fold_left].
  match goal with |- context [fold_left md_event ?X (md_event s (EStartList ordered))] => change X with (flat_map (item_events t) items) end.
  match goal with |- context [ps ++ ?X] => change X with (flat_map (item_paras ordered (length stk)) items) end.
  assert (I1 : inv (md_event s (EStartList ordered)) (Some (mark_style ordered) :: stk) D ps).
  { destruct I as (Q & St & R). split; [now destruct s|]. split; [destruct s; cbn in *; now subst|]. now destruct s. }
  assert (Id : idle s -> idle (md_event s (EStartList ordered))) by (now destruct s).
  set (s1 := md_event s (EStartList ordered)) in *. clearbody s1. revert s1 ps I I1 Id.
  clear Hl. cut (forall s1 ps, inv s1 (Some (mark_style ordered) :: stk) D ps ->
     inv (fold_left md_event (flat_map (item_events t) items) s1) (Some (mark_style ordered) :: stk) D (ps ++ flat_map (item_paras ordered (length stk)) items)
     /\ (idle s1 -> idle (fold_left md_event (flat_map (item_events t) items) s1))).
  { intros H s1 ps I I1 Id. destruct (H s1 ps I1) as [K1 K2]. set (s2 := fold_left md_event _ s1) in *. clearbody s2. split.
    - destruct K1 as (Q & St & R). split; [now destruct s2|]. split; [destruct s2; cbn in *; now subst|]. now destruct s2.
    - intros H0. specialize (K2 (Id H0)). now destruct s2. }
  induction IH as [|it items Hit _ IHi]; intros s1 ps I1; [cbn; rewrite app_nil_r; easy|].
  cbn [forallb] in G. apply andb_prop in G as [G1 G2].
  cbn [flat_map]. rewrite fold_left_app. destruct (item_read t ordered it s1 stk D ps Hit G1 I1) as [K1 K2].
  rewrite app_assoc. destruct (IHi G2 _ _ K1) as [K3 K4]. split; [exact K3|]. intros _. now apply K4.
Qed.

Lemma page_read p : forall s D ps, gentle_page p -> inv s [] D ps -> idle s ->
  inv (fold_left md_event (page_events p) s) [] D (ps ++ flat_map (block_paras 0) p) /\ idle (fold_left md_event (page_events p) s).
Proof.
  induction p as [|b p IH]; intros s D ps G I Id; [cbn; rewrite app_nil_r; easy|].
  unfold gentle_page in G. cbn [forallb] in G. apply andb_prop in G as [G1 G2].
  unfold page_events. cbn [flat_map]. rewrite fold_left_app, app_assoc.
  assert (K : inv (fold_left md_event (block_events false b) s) [] D (ps ++ block_paras 0 b) /\ idle (fold_left md_event (block_events false b) s)).
  { destruct b as [l|n l|a l|o t items]; cbn [gentle_block] in G1.
    - now apply para_read.
    - apply andb_prop in G1 as [G1 G3]. now apply head_read.
    - now apply code_read.
    - destruct (list_read (MList o t items) eq_refl G1 false s [] D ps I) as [K1 K2]. split; [exact K1|now apply K2]. }
  destruct K as [K1 K2]. now apply IH.
Qed.
Lemma flat_map_blocks bs : Forall (fun b => pb_quotes b = 0) bs -> flat_blocks (map PBlock bs) = Some bs.
Proof. induction 1 as [|b bs Hb _ IH]; [easy|]. cbn. now rewrite Hb, IH. Qed.
Lemma markdown_read p : gentle_page p ->
  exists bs, flat_blocks (parse_markdown (page_events p)) = Some bs /\ bs <> [] /\ map view bs = map expected (page_paras p).
Proof.
  intros G. destruct (page_read p md_start [] [] G) as [(Q & St & bs & F & Sh1 & Sh2) [I1 I2]].
  { split; [easy|]. split; [easy|]. exists []. easy. }
  { easy. }
  unfold parse_markdown. rewrite idle_flushed in F by exact I1. set (s := fold_left md_event (page_events p) md_start) in *.
  unfold has_spans. rewrite I1, F. cbn [app] in *. unfold page_paras. destruct bs as [|b bs].
  - exists [empty_block]. cbn [map]. destruct (flat_map (block_paras 0) p); [|easy]. easy.
  - exists (b :: bs). split; [|split; [easy|]].
    + cbn [map]. change (PBlock b :: map PBlock bs) with (map PBlock (b :: bs)). now apply flat_map_blocks.
    + rewrite Sh2. destruct (flat_map (block_paras 0) p); [easy|reflexivity].
Qed.
