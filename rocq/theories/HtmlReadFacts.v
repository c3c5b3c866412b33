(** Reading a gentle HTML page gives the blocks of its paragraphs. *)
From Coq Require Import Ascii String.
From Verif Require Import Base BaseFacts FormatRunsModel RopeModel DocModel DocSpec ListModel ListDocModel PropSpec ExportSpec ImportModel ImportSpec MdReadModel DocShows MdReadSpec
  MdReadFacts ImportTheorems HtmlReadModel HtmlReadSpec.

Section DomInd.
  Variable P : dom -> Prop.
  Hypothesis HText : forall t, P (DText t).
  Hypothesis HElem : forall n a kids, Forall P kids -> P (DElem n a kids).
  Hypothesis HOther : forall kids, Forall P kids -> P (DOther kids).
  Fixpoint dom_ind' (d : dom) : P d :=
    let all := fix all (l : list dom) : Forall P l :=
      match l with [] => Forall_nil _ | y :: r => Forall_cons _ (dom_ind' y) (all r) end in
    match d with
    | DText t => HText t
    | DElem n a kids => HElem n a kids (all kids)
    | DOther kids => HOther kids (all kids)
    end.
End DomInd.

(** ** Names *)
Lemma is_named n x : is_ n x = named n x. Proof. reflexivity. Qed.
Lemma is_among n l : is_any n l = among n l. Proof. reflexivity. Qed.
Lemma named_eq n x : named n x = true -> n = txt x.
Proof. unfold named. now destruct (list_eq_dec N.eq_dec n (txt x)). Qed.
Lemma among_in n l : among n l = true -> exists x, In x l /\ n = txt x.
Proof. unfold among. intros H. apply existsb_exists in H as (x & Hx & H). exists x. split; [exact Hx|now apply named_eq]. Qed.

(** ** Looks *)
Definition look_st (s : fstate) : look := mk_look (f_code s) (f_bold s) (f_italic s) (f_underline s) (f_strike s) (f_href s).
Lemma look_enter n attrs s : look_st (enter n attrs s) = mark n attrs (look_st s).
Proof.
  destruct s as [b i u k c h]. unfold enter, mark. change is_any with among; change is_ with named.
  destruct (among n ["b"; "strong"]%string); [reflexivity|]. destruct (among n ["i"; "em"]%string); [reflexivity|].
  destruct (among n ["u"; "ins"]%string); [reflexivity|]. destruct (among n ["s"; "del"; "strike"]%string); [reflexivity|].
  destruct (named n "code"); [reflexivity|]. destruct (named n "a"); [|reflexivity].
  change (attr_of "href" attrs) with (value_of "href" attrs). now destruct (value_of "href" attrs).
Qed.
Lemma span_look_f s t : span_look (fspan s t) = look_st s.
Proof. reflexivity. Qed.
Lemma mark_code n attrs k : mark n attrs (with_code k) = with_code (mark n attrs k).
Proof.
  unfold mark. destruct (among n ["b"; "strong"]%string); [reflexivity|]. destruct (among n ["i"; "em"]%string); [reflexivity|].
  destruct (among n ["u"; "ins"]%string); [reflexivity|]. destruct (among n ["s"; "del"; "strike"]%string); [reflexivity|].
  destruct (named n "code"); [reflexivity|]. destruct (named n "a"); [|reflexivity]. now destruct (value_of "href" attrs).
Qed.
Definition code_char (x : char * look) : char * look := (fst x, with_code (snd x)).
Lemma chars_code : forall d k, dom_chars (with_code k) d = map code_char (dom_chars k d).
Proof.
  induction d as [t|n a kids IH|kids IH] using dom_ind'; intros k; cbn [dom_chars].
  - rewrite map_map. now apply map_ext.
  - rewrite mark_code. generalize (mark n a k). intros k'. induction IH as [|d l Hd _ IHl]; [easy|]. cbn [flat_map]. now rewrite map_app, Hd, IHl.
  - easy.
Qed.
Lemma own_code k kids : own_chars (with_code k) kids = map code_char (own_chars k kids).
Proof.
  unfold own_chars. induction kids as [|d l IH]; [easy|]. cbn [flat_map]. rewrite map_app, IH. f_equal. destruct (is_block d); [easy|]. apply chars_code.
Qed.

(** ** Inline content *)
Definition heights (kids : list dom) : nat := fold_right (fun k n => Nat.max (height k) n) 0 kids.
Lemma special_nested n : special n = false -> is_ n "br" = false /\ is_any n nested_tags = false /\ is_ n "table" = false.
Proof.
  unfold special, nested_tags, among, is_any, headings. cbn [existsb]. change is_ with named. intros H.
  repeat (apply orb_false_iff in H; destruct H as [H ?]).
  repeat match goal with H : (_ || _) = false |- _ => apply orb_false_iff in H; destruct H end.
  repeat match goal with H : named n _ = false |- _ => rewrite H; clear H end. easy.
Qed.
Definition part (lh : str -> option Z) (fuel : nat) (s : fstate) (st : option list_style) (q dp : nat) (d : dom) : list span * list pelement :=
  match d with
  | DText [] => ([], [])
  | DText t => ([fspan s t], [])
  | DElem tag attrs ks =>
      let s' := enter tag attrs s in
      if is_ tag "br" then ([empty_span], [])
      else if is_any tag nested_tags || is_ tag "table" then ([], walk lh fuel s' st q dp d)
      else collect lh fuel s' st q dp ks
  | DOther _ => ([], [])
  end.
Lemma collect_parts lh fuel s st q dp kids :
  collect lh (S fuel) s st q dp kids = (flat_map fst (map (part lh fuel s st q dp) kids), flat_map snd (map (part lh fuel s st q dp) kids)).
Proof. reflexivity. Qed.
Lemma part_inline lh : forall d fuel s st q dp, inline_only d = true -> height d <= fuel ->
  snd (part lh fuel s st q dp d) = [] /\ line_chars (fst (part lh fuel s st q dp d)) = dom_chars (look_st s) d.
Proof.
  induction d as [t|n a kids IH|kids IH] using dom_ind'; intros fuel s st q dp Hi Hh.
  - destruct t as [|c t]; [easy|]. split; [easy|]. cbn [part fst line_chars flat_map fspan sp_text dom_chars]. rewrite app_nil_r. now rewrite span_look_f.
  - cbn [inline_only] in Hi. apply andb_prop in Hi as [Hn Hi]. apply negb_true_iff in Hn. destruct (special_nested _ Hn) as (H1 & H2 & H3).
    cbn [part]. rewrite H1, H2, H3. cbn [orb]. cbn [height] in Hh. fold (heights kids) in Hh. destruct fuel as [|fuel]; [lia|].
    rewrite collect_parts. cbn [fst snd dom_chars]. rewrite <- look_enter. generalize (enter n a s). intros s'.
    assert (Hk : heights kids <= fuel) by lia. clear Hh Hn H1 H2 H3. revert Hi Hk.
    induction IH as [|d l Hd _ IHl]; intros Hi Hk; [easy|]. cbn [forallb] in Hi. apply andb_prop in Hi as [Hi1 Hi2].
    cbn [heights fold_right] in Hk. fold (heights l) in Hk.
    destruct (Hd fuel s' st q dp Hi1) as [D1 D2]; [lia|]. destruct IHl as [E1 E2]; [exact Hi2|lia|].
    cbn [map flat_map]. rewrite D1, E1. split; [easy|]. unfold line_chars in *. rewrite flat_map_app, D2, E2. reflexivity.
  - easy.
Qed.
Lemma parts_inline lh fuel s st q dp kids : forallb inline_only kids = true -> heights kids <= fuel ->
  flat_map snd (map (part lh fuel s st q dp) kids) = []
  /\ line_chars (flat_map fst (map (part lh fuel s st q dp) kids)) = flat_map (dom_chars (look_st s)) kids.
Proof.
  induction kids as [|d l IH]; intros Hi Hk; [easy|]. cbn [forallb] in Hi. apply andb_prop in Hi as [Hi1 Hi2].
  cbn [heights fold_right] in Hk. fold (heights l) in Hk.
  destruct (part_inline lh d fuel s st q dp Hi1) as [D1 D2]; [lia|]. destruct IH as [E1 E2]; [exact Hi2|lia|].
  cbn [map flat_map]. rewrite D1, E1. split; [easy|]. unfold line_chars in *. rewrite flat_map_app, D2, E2. reflexivity.
Qed.
Lemma part_some_text lh : forall d fuel s st q dp, inline_only d = true -> height d <= fuel ->
  dom_chars (look_st s) d = [] -> fst (part lh fuel s st q dp d) = [].
Proof.
  induction d as [t|n a kids IH|kids IH] using dom_ind'; intros fuel s st q dp Hi Hh Hc.
  - destruct t as [|c t]; easy.
  - cbn [inline_only] in Hi. apply andb_prop in Hi as [Hn Hi]. apply negb_true_iff in Hn. destruct (special_nested _ Hn) as (H1 & H2 & H3).
    cbn [part]. rewrite H1, H2, H3. cbn [orb]. cbn [height] in Hh. fold (heights kids) in Hh. destruct fuel as [|fuel]; [lia|].
    rewrite collect_parts. cbn [fst snd dom_chars] in *. rewrite <- look_enter in Hc. revert Hc. generalize (enter n a s). intros s' Hc.
    assert (Hk : heights kids <= fuel) by lia. clear Hh Hn H1 H2 H3. revert Hi Hk Hc.
    induction IH as [|d l Hd _ IHl]; intros Hi Hk Hc; [easy|]. cbn [forallb] in Hi. apply andb_prop in Hi as [Hi1 Hi2].
    cbn [heights fold_right] in Hk. fold (heights l) in Hk. cbn [flat_map map] in *. apply app_eq_nil in Hc as [Hc1 Hc2].
    rewrite Hd, IHl; try easy; lia.
  - easy.
Qed.
Lemma inline_not_block d : inline_only d = true -> is_block d = false.
Proof. destruct d as [t|n a kids|kids]; cbn; try easy. intros H. apply andb_prop in H as [H _]. now apply negb_true_iff in H. Qed.
Lemma own_inline k kids : forallb inline_only kids = true -> own_chars k kids = flat_map (dom_chars k) kids.
Proof.
  unfold own_chars. induction kids as [|d l IH]; [easy|]. cbn [forallb flat_map]. intros H. apply andb_prop in H as [H1 H2].
  now rewrite inline_not_block, IH.
Qed.
Lemma inline_no_paras lh st dp kids : forallb inline_only kids = true -> flat_map (elem_paras lh st dp) kids = [].
Proof.
  induction kids as [|d l IH]; [easy|]. cbn [forallb flat_map]. intros H. apply andb_prop in H as [H1 H2]. rewrite IH by easy.
  destruct d as [t|n a ks|ks]; cbn in *; try easy. apply andb_prop in H1 as [H1 _]. now rewrite H1.
Qed.

(** ** Styles *)
Lemma last_of_app {A} (f : str * str -> option A) a b : last_of f (a ++ b) = match last_of f b with Some y => Some y | None => last_of f a end.
Proof. induction a as [|x a IH]; cbn [app last_of]; [now destruct (last_of f b)|]. rewrite IH. now destruct (last_of f b). Qed.
Definition decl_of (part : str) : list (str * str) :=
  match split_once 58%N (trim part) with Some (p, v) => [(ascii_lower (trim p), trim v)] | None => [] end.
Definition or_else {A} (x y : option A) : option A := match x with Some _ => x | None => y end.
Definition f_line (lh : str -> option Z) (x : str * str) := if named (fst x) "line-height" then lh (snd x) else None.
Definition f_wrap (x : str * str) := if named (fst x) "white-space" && among (snd x) ["pre"; "nowrap"; "pre-wrap"]%string then Some true else None.
Definition f_dir (x : str * str) := if named (fst x) "direction" then
    if named (ascii_lower (snd x)) "rtl" then Some 1%N else if named (ascii_lower (snd x)) "ltr" then Some 0%N else None else None.
Definition f_back (x : str * str) := if among (fst x) ["background-color"; "background"]%string then Some (snd x) else None.
Lemma one_style_ok lh y p : one_style lh y p =
  mk_styles (or_else (last_of (f_line lh) (decl_of p)) (y_line_height y)) (or_else (last_of f_wrap (decl_of p)) (y_non_breakable y))
    (or_else (last_of f_dir (decl_of p)) (y_direction y)) (or_else (last_of f_back (decl_of p)) (y_background y)).
Proof.
  unfold one_style, decl_of. destruct (split_once 58%N (trim p)) as [[pr v]|]; [|now destruct y].
  cbn [last_of]. unfold f_line, f_wrap, f_dir, f_back. cbn [fst snd]. change is_any with among; change is_ with named.
  set (n := ascii_lower (trim pr)). set (w := trim v).
  assert (D : forall a b, named n a = true -> named n b = true -> txt a = txt b).
  { intros a b Ha Hb. apply named_eq in Ha, Hb. congruence. }
  destruct (named n "line-height") eqn:E1.
  - assert (F2 : named n "white-space" = false) by (destruct (named n "white-space") eqn:E2; [discriminate (D _ _ E1 E2)|easy]).
    assert (F3 : named n "direction" = false) by (destruct (named n "direction") eqn:E2; [discriminate (D _ _ E1 E2)|easy]).
    assert (F4 : among n ["background-color"; "background"]%string = false).
    { unfold among. cbn [existsb]. destruct (named n "background-color") eqn:E2; [discriminate (D _ _ E1 E2)|].
      destruct (named n "background") eqn:E3; [discriminate (D _ _ E1 E3)|easy]. }
    rewrite F2, F3, F4. cbn [andb or_else]. destruct (lh w); [reflexivity|now destruct y].
  - destruct (named n "white-space" && among w ["pre"; "nowrap"; "pre-wrap"]%string) eqn:E2.
    + apply andb_prop in E2 as [E2 _].
      assert (F3 : named n "direction" = false) by (destruct (named n "direction") eqn:E3; [discriminate (D _ _ E2 E3)|easy]).
      assert (F4 : among n ["background-color"; "background"]%string = false).
      { unfold among. cbn [existsb]. destruct (named n "background-color") eqn:E4; [discriminate (D _ _ E2 E4)|].
        destruct (named n "background") eqn:E3; [discriminate (D _ _ E2 E3)|easy]. }
      rewrite F3, F4. reflexivity.
    + destruct (named n "direction") eqn:E3.
      * assert (F4 : among n ["background-color"; "background"]%string = false).
        { unfold among. cbn [existsb]. destruct (named n "background-color") eqn:E4; [discriminate (D _ _ E3 E4)|].
          destruct (named n "background") eqn:E5; [discriminate (D _ _ E3 E5)|easy]. }
        rewrite F4. destruct (named (ascii_lower w) "rtl"); [reflexivity|]. destruct (named (ascii_lower w) "ltr"); [reflexivity|now destruct y].
      * destruct (among n ["background-color"; "background"]%string); [reflexivity|now destruct y].
Qed.
Lemma or_else_assoc {A} (x y z : option A) : or_else x (or_else y z) = or_else (or_else x y) z.
Proof. now destruct x. Qed.
Lemma last_of_or {A} (f : str * str -> option A) a b : last_of f (a ++ b) = or_else (last_of f b) (last_of f a).
Proof. rewrite last_of_app. now destruct (last_of f b). Qed.
Lemma styles_fold lh parts : forall y, fold_left (one_style lh) parts y =
  let ds := flat_map decl_of parts in
  mk_styles (or_else (last_of (f_line lh) ds) (y_line_height y)) (or_else (last_of f_wrap ds) (y_non_breakable y))
    (or_else (last_of f_dir ds) (y_direction y)) (or_else (last_of f_back ds) (y_background y)).
Proof.
  induction parts as [|p parts IH]; intros y; [now destruct y|]. cbn [fold_left flat_map]. rewrite IH, one_style_ok. cbn zeta.
  cbn [y_line_height y_non_breakable y_direction y_background]. now rewrite !or_else_assoc, <- !last_of_or.
Qed.
Lemma or_none {A} (x : option A) : or_else x None = x.
Proof. now destruct x. Qed.
Definition css_of (lh : str -> option Z) (attrs : list (str * str)) : styles :=
  match attr_of "style" attrs with Some y => parse_block_styles lh y | None => no_styles end.
Lemma css_ok lh attrs : css_of lh attrs = mk_styles (line_height_said lh attrs) (nowrap_said attrs) (direction_said attrs) (background_said attrs).
Proof.
  unfold css_of, line_height_said, nowrap_said, direction_said, background_said, said. change (attr_of "style" attrs) with (value_of "style" attrs).
  destruct (value_of "style" attrs) as [s|]; [|reflexivity]. unfold parse_block_styles. rewrite styles_fold. cbn zeta. cbn [y_line_height y_non_breakable y_direction y_background no_styles].
  rewrite !or_none. reflexivity.
Qed.

(** ** Blocks *)
Definition plain_names : list string := headings ++ ["p"; "div"; "li"; "pre"]%string.
Definition is_level (n : str) : bool := match level_of n with Some _ => true | None => false end.
Definition made_block lh (n : str) (a : list (str * str)) (kids : list dom) (st : option list_style) (q dp : nat) (spans : list span) : pblock :=
  mk_pblock spans (level_of n) (if named n "li" then st else None) (if named n "li" then dp - 1 else 0) (named n "pre")
    (if named n "pre" then code_language kids else None) q
    (y_line_height (css_of lh a)) (y_non_breakable (css_of lh a)) (y_direction (css_of lh a)) (y_background (css_of lh a)).
Lemma walk_block lh f s st q dp n a kids : among n plain_names = true ->
  walk lh (S f) s st q dp (DElem n a kids) =
  let r := collect lh f s st q dp kids in
  (if negb (length (fst r) =? 0) || is_level n then [PBlock (made_block lh n a kids st q dp (fst r))] else []) ++ snd r.
Proof.
  intros H. apply among_in in H as (x & Hx & ->). destruct s as [b i u k c h]. cbn zeta.
  destruct (collect lh f (mk_fstate b i u k c h) st q dp kids) as [spans nested] eqn:E. cbn [fst snd].
  repeat (destruct Hx as [<-|Hx]; [cbn; rewrite E; reflexivity|]). easy.
Qed.
Lemma walk_list lh f s st q dp n a kids : among n ["ul"; "ol"]%string = true ->
  walk lh (S f) s st q dp (DElem n a kids) = flat_map (walk lh f s (style_of n) q (dp + 1)) kids.
Proof.
  intros H. apply among_in in H as (x & Hx & ->). destruct s as [b i u k c h].
  repeat (destruct Hx as [<-|Hx]; [reflexivity|]). easy.
Qed.
Lemma gentle_name il n a kids : gentle_elem il (DElem n a kids) = true -> among n (plain_names ++ ["ul"; "ol"]%string) = true.
Proof.
  cbn [gentle_elem]. intros H. unfold plain_names, among. rewrite !existsb_app. change (existsb (named n)) with (among n).
  destruct (among n ["ul"; "ol"]%string); [now rewrite orb_true_r|]. rewrite orb_false_r.
  destruct (named n "li") eqn:E1; [cbn [among existsb]; rewrite E1, !orb_true_r; reflexivity|].
  destruct (named n "div") eqn:E2; [cbn [among existsb]; rewrite E2, !orb_true_r; reflexivity|].
  destruct (among n ["p"; "pre"]%string) eqn:E3.
  - unfold among in E3. cbn [existsb] in E3. unfold among at 2. cbn [existsb]. destruct (named n "p"); [now rewrite orb_true_r|].
    destruct (named n "pre"); [now rewrite !orb_true_r|easy].
  - apply andb_prop in H as [-> _]. reflexivity.
Qed.
Lemma block_name n : among n (plain_names ++ ["ul"; "ol"]%string) = true ->
  is_ n "br" = false /\ is_any n nested_tags = true /\ special n = true /\ forall a s, enter n a s = s.
Proof.
  intros H. apply among_in in H as (x & Hx & ->).
  repeat (destruct Hx as [<-|Hx]; [split; [reflexivity|]; split; [reflexivity|]; split; [reflexivity|]; intros a [b i u k c h]; reflexivity|]). easy.
Qed.

Definition shown_as (html_bs : list pblock) (ps : list dpara) : Prop :=
  Forall (fun b => pb_quotes b = 0) html_bs /\ map (block_para true) html_bs = ps.
Lemma shown_app a b ps qs : shown_as a ps -> shown_as b qs -> shown_as (a ++ b) (ps ++ qs).
Proof. intros [A1 <-] [B1 <-]. split; [now apply Forall_app|]. apply map_app. Qed.
Definition reads_as (lh : str -> option Z) (d : dom) : Prop := forall il, gentle_elem il d = true ->
  forall fuel st dp, 2 * height d <= fuel ->
  exists bs, walk lh fuel fstate0 st 0 dp d = map PBlock bs /\ shown_as bs (elem_paras lh st dp d).

Lemma mixed_parts lh st dp fuel kids : Forall (reads_as lh) kids ->
  forallb (fun k => inline_only k || gentle_elem false k) kids = true -> 2 * heights kids <= fuel ->
  (exists bs, flat_map snd (map (part lh fuel fstate0 st 0 dp) kids) = map PBlock bs /\ shown_as bs (flat_map (elem_paras lh st dp) kids))
  /\ line_chars (flat_map fst (map (part lh fuel fstate0 st 0 dp) kids)) = own_chars bare kids
  /\ (own_chars bare kids = [] -> flat_map fst (map (part lh fuel fstate0 st 0 dp) kids) = []).
Proof.
  induction 1 as [|d l Hd _ IH]; intros G Hf; [split; [exists []; easy|easy]|].
  cbn [forallb] in G. apply andb_prop in G as [G1 G2]. cbn [heights fold_right] in Hf. fold (heights l) in Hf.
  destruct IH as ((bs & B1 & B2) & B3 & B4); [exact G2|lia|]. cbn [map flat_map own_chars].
  destruct (gentle_elem false d) eqn:Gd.
  - destruct d as [t|n a kids|kids]; try easy. pose proof (gentle_name _ _ _ _ Gd) as Hn. destruct (block_name _ Hn) as (N1 & N2 & N3 & N4).
    destruct (Hd false Gd fuel st dp) as (b1 & E1 & E2); [lia|].
    assert (Pt : part lh fuel fstate0 st 0 dp (DElem n a kids) = ([], map PBlock b1)).
    { cbn [part]. rewrite N1, N2, N4. cbn [orb]. now rewrite E1. }
    rewrite Pt. cbn [fst snd app]. split; [|split].
    + exists (b1 ++ bs). rewrite map_app, B1. split; [easy|]. now apply shown_app.
    + cbn [is_block]. rewrite N3. exact B3.
    + cbn [is_block]. rewrite N3. exact B4.
  - rewrite orb_false_r in G1. destruct (part_inline lh d fuel fstate0 st 0 dp G1) as [P1 P2]; [lia|]. rewrite P1. cbn [app].
    split; [|split].
    + exists bs. split; [exact B1|]. pose proof (inline_no_paras lh st dp [d]) as Z. cbn [forallb flat_map] in Z. rewrite G1, app_nil_r in Z.
      rewrite Z by easy. exact B2.
    + unfold line_chars in *. rewrite flat_map_app, P2, B3, (inline_not_block _ G1). reflexivity.
    + rewrite (inline_not_block _ G1). intros H. apply app_eq_nil in H as [H1 H2]. rewrite B4, part_some_text; try easy; lia.
Qed.
Lemma gentle_no_own page : forallb (gentle_elem false) page = true -> own_chars bare page = [].
Proof.
  intros G. unfold own_chars. induction page as [|d l IH]; [easy|]. cbn [forallb flat_map] in *. apply andb_prop in G as [G1 G2]. rewrite IH by easy.
  destruct d as [t|n a kids|kids]; try easy. destruct (block_name _ (gentle_name _ _ _ _ G1)) as (_ & _ & N & _). cbn [is_block]. now rewrite N.
Qed.
Lemma line_items_code l : flat_map (span_items true) l = shown_items (map code_char (line_chars l)).
Proof.
  unfold shown_items, line_chars. induction l as [|x l IH]; [easy|]. cbn [flat_map]. rewrite !map_app, IH. f_equal.
  unfold span_items. rewrite !map_map. apply map_ext. intros c. cbn [fst snd]. f_equal. rewrite span_look_fmt, orb_true_r. reflexivity.
Qed.
Lemma made_para lh n a kids st dp spans : among n plain_names = true -> line_chars spans = own_chars bare kids ->
  block_para true (made_block lh n a kids st 0 dp spans) =
  mk_dpara (shown_items (own_chars (if named n "pre" then with_code bare else bare) kids)) (elem_fmt lh n a kids)
    (if named n "li" then match st with Some st => ListModel.Item st (dp - 1) | None => Other end else Other).
Proof.
  intros Hn E. unfold block_para, made_block. f_equal.
  - unfold block_items. cbn [pb_spans pb_code]. destruct (named n "pre").
    + rewrite own_code, <- E. apply line_items_code.
    + rewrite <- E. apply line_items.
  - unfold pblock_fmt, elem_fmt. cbn. rewrite css_ok. cbn. unfold some_true. now destruct (named n "pre").
  - unfold piece_of. cbn [pb_list pb_indent]. destruct (named n "li"); [now destruct st|reflexivity].
Qed.
Lemma names_apart n a b : named n a = true -> txt a <> txt b -> named n b = false.
Proof. intros Ha Hab. destruct (named n b) eqn:E; [|easy]. apply named_eq in Ha, E. congruence. Qed.

Lemma elem_reads lh : forall d, reads_as lh d.
Proof.
  induction d as [t|n a kids IH|kids IH] using dom_ind'; intros il G fuel st dp Hf; try easy.
  pose proof (gentle_name _ _ _ _ G) as Hn. destruct (block_name _ Hn) as (_ & _ & N3 & _).
  cbn [height] in Hf. fold (heights kids) in Hf. destruct fuel as [|fuel]; [lia|].
  cbn [elem_paras]. rewrite N3. cbn [negb].
  destruct (among n ["ul"; "ol"]%string) eqn:Hl.
  - rewrite walk_list by exact Hl. cbn [gentle_elem] in G. rewrite Hl in G.
    assert (Sty : exists y, style_of n = Some y) by (apply among_in in Hl as (x & Hx & ->); repeat (destruct Hx as [<-|Hx]; [eexists; reflexivity|]); easy).
    destruct Sty as [y Hy]. rewrite Hy. clear Hn N3 Hy. replace (dp + 1) with (S dp) by lia.
    assert (Hk : 2 * heights kids <= fuel) by lia. clear Hf. revert G Hk. induction IH as [|d l Hd _ IHl]; intros G Hk; [exists []; easy|].
    cbn [forallb] in G. apply andb_prop in G as [G1 G2]. cbn [heights fold_right] in Hk. fold (heights l) in Hk.
    destruct IHl as (bs & B1 & B2); [exact G2|lia|]. cbn [flat_map]. rewrite B1.
    destruct d as [t|m b ks|ks].
    + exists bs. split; [|exact B2]. destruct fuel as [|fuel]; [reflexivity|]. cbn [walk].
      assert (T : forall t, blank t = true -> trim_start t = []).
      { clear. induction t as [|c t IHt]; [easy|]. cbn. intros H. apply andb_prop in H as [-> H]. now apply IHt. }
      unfold trim. rewrite (T t G1). reflexivity.
    + apply andb_prop in G1 as [_ G1]. destruct (Hd true G1 fuel (Some y) (S dp)) as (b1 & E1 & E2); [lia|].
      exists (b1 ++ bs). rewrite E1, map_app. split; [easy|]. now apply shown_app.
    + destruct ks; [|easy]. exists bs. split; [|exact B2]. now destruct fuel.
  - assert (Hp : among n plain_names = true).
    { unfold among in *. rewrite existsb_app in Hn. rewrite Hl, orb_false_r in Hn. exact Hn. }
    assert (Sty : style_of n = None).
    { unfold style_of. unfold among in Hl. cbn [existsb] in Hl. apply orb_false_iff in Hl as [-> Hl]. apply orb_false_iff in Hl as [-> _]. reflexivity. }
    rewrite Sty. rewrite walk_block by exact Hp. destruct fuel as [|fuel]; [lia|]. rewrite collect_parts. cbn zeta. cbn [fst snd].
    assert (Mx : forallb (fun k => inline_only k || gentle_elem false k) kids = true
       /\ (some_chars kids = true \/ is_level n = true /\ named n "div" = false \/ named n "div" = true /\ is_level n = false /\ forallb (gentle_elem false) kids = true)
       /\ (some_chars kids = true \/ is_level n = true \/ named n "div" = true)).
    { cbn [gentle_elem] in G. rewrite Hl in G.
      assert (In_ : forallb inline_only kids = true -> forallb (fun k => inline_only k || gentle_elem false k) kids = true).
      { rewrite !forallb_forall. intros H x Hx. now rewrite H. }
      destruct (named n "li") eqn:E1.
      - apply andb_prop in G as [G G2]. apply andb_prop in G as [_ G1]. split; [|now split; left].
        rewrite forallb_forall in *. intros x Hx. specialize (G2 x Hx). destruct (inline_only x); [easy|]. cbn [orb] in *. now apply andb_prop in G2.
      - destruct (named n "div") eqn:E2.
        + apply orb_prop in G as [G|G].
          * apply andb_prop in G as [G1 G2]. split; [now apply In_|]. now split; left.
          * split.
            -- rewrite forallb_forall in *. intros x Hx. rewrite G by easy. apply orb_true_r.
            -- split; [right; right|now right; right]. split; [easy|]. split; [|exact G]. apply named_eq in E2. subst n. reflexivity.
        + destruct (among n ["p"; "pre"]%string).
          * apply andb_prop in G as [G1 G2]. split; [now apply In_|]. now split; left.
          * apply andb_prop in G as [G1 G2]. split; [now apply In_|]. apply among_in in G1 as (x & Hx & ->).
            assert (is_level (txt x) = true) by (repeat (destruct Hx as [<-|Hx]; [reflexivity|]); easy). split; [right; left; easy|right; left; easy]. }
    destruct Mx as (M1 & M2 & _). destruct (mixed_parts lh st dp fuel kids IH M1) as ((bs & B1 & B2) & B3 & B4); [lia|].
    rewrite B1. set (spans := flat_map fst (map (part lh fuel fstate0 st 0 dp) kids)) in *.
    assert (Own : own_chars (if named n "pre" then with_code bare else bare) kids = [] <-> own_chars bare kids = []).
    { destruct (named n "pre"); [|easy]. rewrite own_code. split; intros H; [now apply map_eq_nil in H|now rewrite H]. }
    destruct M2 as [M2|[[M2 M3]|(M2 & M3 & M4)]].
    + unfold some_chars in M2. destruct (own_chars bare kids) as [|o os] eqn:Eo; [easy|].
      assert (Ne : spans <> []) by (intros E; rewrite E in B3; easy).
      destruct spans as [|x xs] eqn:Es; [easy|]. rewrite <- Es in *. replace (negb (length spans =? 0)) with true by (now rewrite Es). cbn [orb].
      exists (made_block lh n a kids st 0 dp spans :: bs). split; [reflexivity|].
      replace (match own_chars (if named n "pre" then with_code bare else bare) kids with [] => named n "div" | _ :: _ => false end) with false
        by (destruct (own_chars (if named n "pre" then with_code bare else bare) kids); [destruct Own as [Own _]; discriminate (Own eq_refl)|easy]).
      apply (shown_app [_] bs); [|exact B2]. split; [now constructor|]. cbn [map]. rewrite made_para; [reflexivity|exact Hp|now rewrite B3].
    + rewrite M2, orb_true_r, M3. exists (made_block lh n a kids st 0 dp spans :: bs). split; [reflexivity|].
      replace (match own_chars (if named n "pre" then with_code bare else bare) kids with [] => false | _ :: _ => false end) with false
        by (now destruct (own_chars (if named n "pre" then with_code bare else bare) kids)).
      apply (shown_app [_] bs); [|exact B2]. split; [now constructor|]. cbn [map]. rewrite made_para; [reflexivity|exact Hp|exact B3].
    + rewrite (B4 (gentle_no_own _ M4)) in *. rewrite M3. cbn [length Nat.eqb negb orb app]. exists bs. split; [reflexivity|].
      assert (Ob : own_chars bare kids = []) by (now rewrite <- B3). destruct Own as [_ Own]. rewrite (Own Ob), M2. exact B2.
Qed.

Lemma html_read lh page : gentle_html page ->
  exists bs, flat_blocks (parse_html lh page) = Some bs /\ bs <> [] /\ map (block_para true) bs = page_shown lh page.
Proof.
  intros [G Hh]. unfold parse_html. rewrite collect_parts.
  assert (Hs : heights page <= 128). { clear G. induction Hh as [|d l Hd _ IH]; [cbn; lia|]. cbn [heights fold_right]. fold (heights l). lia. }
  assert (M : forallb (fun k => inline_only k || gentle_elem false k) page = true).
  { destruct G as [G|[G _]]; [|exact G]. rewrite forallb_forall in *. intros x Hx. now rewrite (G x Hx). }
  assert (Al : Forall (reads_as lh) page) by (apply Forall_forall; intros x _; apply elem_reads).
  destruct (mixed_parts lh None 0 max_depth page Al M) as ((bs & B1 & B2 & B2') & B3 & B4); [unfold max_depth; lia|].
  rewrite B1. set (spans := flat_map fst _) in *. unfold page_shown.
  assert (Fin : forall l, l <> [] -> Forall (fun b => pb_quotes b = 0) l ->
     flat_blocks (match map PBlock l with [] => [PBlock empty_block] | x :: r => x :: r end) = Some l).
  { intros l H Q. destruct l as [|b l]; [easy|]. cbn [map]. change (PBlock b :: map PBlock l) with (map PBlock (b :: l)). now apply flat_map_blocks. }
  destruct (own_chars bare page) as [|o os] eqn:Eo.
  - rewrite (B4 eq_refl), app_nil_r. cbn [app]. destruct bs as [|b bs].
    + exists [empty_block]. cbn [map] in *. rewrite <- B2'. split; [reflexivity|]. split; [easy|reflexivity].
    + exists (b :: bs). split; [exact (Fin (b :: bs) ltac:(easy) B2)|]. split; [easy|]. rewrite <- B2'. reflexivity.
  - destruct G as [G|[_ G]]; [|unfold some_chars in G; now rewrite Eo in G].
    rewrite inline_no_paras in * by exact G. apply map_eq_nil in B2'. subst bs. cbn [map app].
    destruct spans as [|x xs] eqn:Es; [easy|]. rewrite <- Es in *. exists [bare_block spans 0].
    split; [apply (Fin [bare_block spans 0]); [easy|now constructor]|]. split; [easy|].
    cbn [map]. unfold block_para, block_items. cbn [bare_block pb_spans pb_code pblock_fmt piece_of pb_list]. rewrite line_items, B3. reflexivity.
Qed.
