(** Writing a document as Markdown and reading it back. *)
From Coq Require Import Ascii String.
From Verif Require Import Base BaseFacts FormatRunsModel RopeModel DocModel DocSpec DocInv DocReach DocTheorems ListModel ListSpec ListDocModel ListDocSpec ListDocFacts PropSpec QueryModel QueryText QueryTheorems
  DocRefuted FragmentRefuted ExportModel ExportSpec ExportRefuted ExportTheorems MdModel MdSpec MdUnique MdExport MdRefuted
  ImportModel ImportSpec MdReadModel DocShows MdReadSpec MdReadFacts MdReadTheorems MdReadRefuted HtmlRoundSpec HtmlRoundTheorems MdRoundSpec.

(** ** A page for given paragraphs *)
Definition wrap (b : bool) (f : list inl -> inl) (x : inl) : inl := if b then f [x] else x.
Definition inl_of (x : char * look) : inl :=
  let k := snd x in
  wrap (match k_link k with Some _ => true | None => false end) (ILink (match k_link k with Some h => h | None => [] end))
    (wrap (k_bold k) IStrong (wrap (k_italic k) IEmph (wrap (k_strike k) IStrike (if k_code k then ICode [fst x] else IText [fst x])))).
Lemma inl_of_chars c k : k_underline k = false -> inl_chars bare (inl_of (c, k)) = [Some (c, k)].
Proof. destruct k as [[] [] [] [] [] [h|]]; cbn; try discriminate; reflexivity. Qed.
Lemma inl_of_clean x : clean false false false false (inl_of x) = true.
Proof. destruct x as [c [[] [] [] [] [] [h|]]]; reflexivity. Qed.
Definition plain_looks (l : list (char * look)) : Prop := Forall (fun x => k_underline (snd x) = false) l.
Lemma inls_chars l : plain_looks l -> flat_map (inl_chars bare) (map inl_of l) = map Some l.
Proof. induction 1 as [|[c k] l Hk Hl IH]; [reflexivity|]. cbn [map flat_map]. rewrite IH, inl_of_chars by exact Hk. reflexivity. Qed.
Lemma lines_some {A} (l : list A) : lines_at (map Some l) = [l].
Proof. induction l as [|x l IH]; [reflexivity|]. cbn [map lines_at]. now rewrite IH. Qed.
Lemma shown_inls l : plain_looks l -> shown_lines (map inl_of l) = [l].
Proof. intros H. unfold shown_lines. rewrite inls_chars by exact H. apply lines_some. Qed.
Lemma inls_clean l : clean_all (map inl_of l) = true.
Proof. unfold clean_all. induction l as [|x l IH]; [reflexivity|]. cbn [map forallb]. now rewrite inl_of_clean. Qed.

(** The paragraph [x] can be on a page. *)
Definition can_be (x : mpara) : Prop :=
  match fst x with
  | KPara | KHead _ => plain_looks (snd x)
  | KCode lang => lang <> Some [] /\ exists t, snd x = map (fun c => (c, with_code bare)) t
  | KItem _ depth => depth = 0 /\ plain_looks (snd x) /\ snd x <> []
  end.
Definition block_of (x : mpara) : mblock :=
  match fst x with
  | KPara => MPara (map inl_of (snd x))
  | KHead n => MHead n (map inl_of (snd x))
  | KCode lang => MCode lang [map fst (snd x)]
  | KItem o _ => MList o true [[MPara (map inl_of (snd x))]]
  end.
Lemma block_of_paras x : can_be x -> block_paras 0 (block_of x) = [x] /\ gentle_block (block_of x) = true.
Proof.
  destruct x as [k l]. unfold can_be, block_of. cbn [fst snd]. destruct k as [|n|lang|o dp].
  - intros H. cbn [block_paras gentle_block]. rewrite shown_inls, inls_clean by exact H. easy.
  - intros H. cbn [block_paras gentle_block]. unfold one_line, one_shown. rewrite shown_inls, inls_clean by exact H. cbn. rewrite app_nil_r. easy.
  - intros [N [t ->]]. cbn [block_paras gentle_block]. unfold code_text. cbn [joined]. rewrite !map_map.
    split; [|reflexivity]. destruct lang as [[|c lang]|]; [congruence|reflexivity|reflexivity].
  - intros (-> & H & N). cbn [block_paras gentle_block flat_map forallb negb orb app]. unfold one_line, one_shown, some_text, one_shown.
    rewrite shown_inls, inls_clean by exact H. cbn [concat]. rewrite app_nil_r. destruct l; easy.
Qed.
Lemma page_of_paras xs : xs <> [] -> Forall can_be xs -> page_paras (map block_of xs) = xs /\ gentle_page (map block_of xs).
Proof.
  intros N H. assert (F : flat_map (block_paras 0) (map block_of xs) = xs).
  { clear N. induction H as [|x xs Hx H IH]; [reflexivity|]. cbn [map flat_map]. rewrite IH. now rewrite (proj1 (block_of_paras x Hx)). }
  unfold page_paras, gentle_page. rewrite F. split; [destruct xs; easy|]. clear N F.
  induction H as [|x xs Hx H IH]; [reflexivity|]. cbn [map forallb]. now rewrite (proj2 (block_of_paras x Hx)).
Qed.

(** ** The paragraphs of a document *)
Lemma md_shown_items p : (forall x, In x p -> x <> Brk) ->
  flat_map (shown_char false) (flat_map md_item p) = flat_map (fun x => match x with Chr c f => [(c, md_look f)] | Brk => [] end) p
  /\ shown_items (flat_map (shown_char false) (flat_map md_item p)) = map md_kept_char p
  /\ plain_looks (flat_map (shown_char false) (flat_map md_item p)).
Proof.
  induction p as [|[c f|] p IH]; intros H.
  - split; [easy|split; [easy|constructor]].
  - destruct IH as (I1 & I2 & I3); [intros x Hx; apply H; now right|]. cbn [flat_map md_item app shown_char map md_kept_char shown_items]. rewrite I1. rewrite I1 in I2, I3.
    split; [reflexivity|]. split; [|constructor; [reflexivity|exact I3]]. unfold shown_items in *. cbn [map fst snd]. now rewrite I2.
  - exfalso. apply (H Brk); [now left|easy].
Qed.
Lemma code_shown_items p : (forall x, In x p -> x <> Brk) ->
  flat_map (shown_char true) (flat_map shown_raw p) = map (fun c => (c, with_code bare)) (chars p)
  /\ shown_items (flat_map (shown_char true) (flat_map shown_raw p)) = map kept_code_char p.
Proof.
  induction p as [|[c f|] p IH]; intros H; [easy| |exfalso; apply (H Brk); [now left|easy]].
  destruct IH as (I1 & I2); [intros x Hx; apply H; now right|]. cbn [flat_map shown_raw app shown_char map kept_code_char shown_items chars].
  unfold chars in *. cbn [flat_map app map]. rewrite I1. split; [reflexivity|]. rewrite <- I2, I1. reflexivity.
Qed.
Lemma para_expected L a p : (forall x, In x p -> x <> Brk) ->
  (on (f_is_code_block (snd a)) = false -> p <> [] /\ forall h, f_heading_level (snd a) = Some h -> (1 <= h)%Z) ->
  can_be (page_para (md_para L a p)) /\ expected (page_para (md_para L a p)) = md_kept_para L a p.
Proof.
  intros B Hn. destruct (md_shown_items p B) as (_ & I2 & I3). destruct (code_shown_items p B) as (J1 & J2).
  unfold md_para, md_kept_para. destruct (on (f_is_code_block (snd a))) eqn:Ec.
  - unfold page_para, expected. cbn [fst snd]. split.
    + unfold can_be. cbn [fst snd]. split; [destruct (f_code_language (snd a)) as [[|]|]; discriminate|]. eexists. exact J1.
    + rewrite J2. unfold kind_fmt, kind_piece. destruct (f_code_language (snd a)) as [[|]|]; reflexivity.
  - destruct (Hn eq_refl) as [N Hh]. destruct (f_heading_level (snd a)) as [h|] eqn:Eh; [|destruct (listed L a) as [e|] eqn:El]; unfold page_para, expected; cbn [fst snd]; rewrite I2.
    + split; [exact I3|]. specialize (Hh h eq_refl). unfold kind_fmt, kind_piece. rewrite Z2N.id by lia. reflexivity.
    + split; [|unfold kind_fmt, kind_piece; now destruct (numbered (l_style e))]. split; [easy|]. split; [exact I3|]. cbn [snd]. intros E. rewrite E in I2. destruct p; easy.
    + split; [exact I3|reflexivity].
Qed.
Lemma doc_expected L : forall atts ps, (forall p, In p ps -> forall x, In x p -> x <> Brk) ->
  (forall k a p, nth_error atts k = Some a -> nth_error ps k = Some p -> on (f_is_code_block (snd a)) = false ->
     p <> [] /\ forall h, f_heading_level (snd a) = Some h -> (1 <= h)%Z) ->
  Forall can_be (map page_para (md_doc L atts ps)) /\ map expected (map page_para (md_doc L atts ps)) = md_kept L atts ps.
Proof.
  induction atts as [|a atts IH]; intros [|p ps] B N; try (split; [constructor|reflexivity]).
  destruct (IH ps) as [I1 I2].
  - intros q Hq. apply B. now right.
  - intros k b q Hb Hq. now apply (N (S k)).
  - destruct (para_expected L a p) as [P1 P2]; [apply B; now left|exact (N 0 a p eq_refl eq_refl)|].
    cbn [md_doc map md_kept]. rewrite P2, I2. split; [now constructor|easy].
Qed.

Lemma block_segments_at d its k p : reach d -> doc_items d = Ok its -> nth_error (paragraphs its) k = Some p ->
  exists i ss, nth_error (d_order d) k = Some i /\ block_segments d i = Ok ss.
Proof.
  intros R E Hp. pose proof (paragraphs_number d its R E) as Len. destruct (nth_error (d_order d) k) as [i|] eqn:Ei.
  - exists i. destruct (reach_items _ R) as (ps & W & _). apply nth_error_In in Ei as Hin. rewrite (wf_order _ _ W) in Hin. apply in_map_iff in Hin.
    destruct Hin as ([j t] & <- & Hin). apply in_split in Hin. destruct Hin as (pre & post & ->). destruct (block_segments_wf _ _ _ _ _ W) as (ss & Es & _). exists ss. split; [easy|exact Es].
  - apply nth_error_None in Ei. assert (H : nth_error (paragraphs its) k <> None) by congruence. apply nth_error_Some in H. lia.
Qed.
Lemma markdown_round_theorem L0 L its atts : lreach L0 -> reach (l_doc L) -> doc_items (l_doc L) = Ok its -> para_attrs (l_doc L) = map Some atts ->
  (forall k i a p ss, nth_error (d_order (l_doc L)) k = Some i -> nth_error atts k = Some a -> nth_error (paragraphs its) k = Some p ->
     block_segments (l_doc L) i = Ok ss -> gentle_para L a ss p) -> flush L atts ->
  exists s, export_markdown L = Ok s /\ (exists p, md_page s p)
    /\ forall p, md_page s p -> exists L', import_markdown L0 (page_events p) = Some L' /\ lreach L' /\ document_shows L' (md_kept L atts (paragraphs its)).
Proof.
  intros R0 R E A G Fl. destruct (export_markdown_theorem L its atts R E A G) as (s & Es & U). exists s. split; [exact Es|].
  destruct (doc_expected L atts (paragraphs its)) as [C1 C2].
  - intros p Hp. now apply (paragraphs_clean its).
  - intros k a p Ha Hp Hc. destruct (block_segments_at _ its k p R E Hp) as (i & ss & Hi & Hs). specialize (G k i a p ss Hi Ha Hp Hs). unfold gentle_para in G. rewrite Hc in G.
    destruct G as (_ & [(c & r & Hc1 & _) _] & Hh & _). split; [intros ->; discriminate|]. intros h Hh'. now apply Hh.
  - split.
    + exists (map block_of (map page_para (md_doc L atts (paragraphs its)))). destruct (page_of_paras (map page_para (md_doc L atts (paragraphs its)))) as [P1 P2]; [|exact C1|].
      * pose proof (attrs_length _ _ _ R E A) as Len. destruct (paragraphs its) as [|p ps] eqn:Ep; [exfalso; clear - Ep; destruct its as [|[|] its]; cbn in Ep; try easy; now destruct (paragraphs its)|].
        destruct atts; discriminate.
      * split; [exact P2|]. exists (md_doc L atts (paragraphs its)). split; [now apply U|exact P1].
    + intros p (Gp & r & Sr & Er). apply U in Sr. subst r. destruct (markdown_import_theorem L0 p R0 Gp) as (L' & I1 & I2 & I3). exists L'. split; [exact I1|]. split; [exact I2|].
      now rewrite Er, C2 in I3.
Qed.

(** ** A second round *)
Lemma md_look_twice f : md_look (look_fmt (md_look f)) = md_look f.
Proof. unfold md_look at 1. rewrite (look_of_fmt (md_look f) _ eq_refl). reflexivity. Qed.
Lemma md_kept_char_twice x : md_kept_char (md_kept_char x) = md_kept_char x.
Proof. destruct x as [c f|]; [|easy]. cbn [md_kept_char]. now rewrite md_look_twice. Qed.
Lemma md_kept_para_twice L L' a p l : placed L' l (md_kept_para L a p) ->
  md_kept_para L' (l, dp_fmt (md_kept_para L a p)) (dp_items (md_kept_para L a p)) = md_kept_para L a p.
Proof.
  unfold md_kept_para, placed. destruct (on (f_is_code_block (snd a))) eqn:Ec; cbn [dp_piece dp_fmt dp_items].
  - intros ->. cbn [snd f_is_code_block on]. rewrite map_map. f_equal.
    + apply map_ext. apply kept_code_twice.
    + cbn [f_code_language]. now destruct (f_code_language (snd a)) as [[|]|].
  - cbn [snd f_is_code_block on f_heading_level]. rewrite map_map. rewrite (map_ext _ _ md_kept_char_twice).
    destruct (f_heading_level (snd a)) as [h|]; [intros ->; reflexivity|].
    destruct (listed L a) as [e|]; [|intros ->; reflexivity]. intros (i & -> & H). unfold listed. cbn [fst]. rewrite H. cbn [l_style]. now destruct (numbered (l_style e)).
Qed.
Lemma md_kept_twice L L' : forall atts ps ls, Forall2 (placed L') ls (md_kept L atts ps) ->
  md_kept L' (combine ls (map dp_fmt (md_kept L atts ps))) (map dp_items (md_kept L atts ps)) = md_kept L atts ps.
Proof.
  induction atts as [|a atts IH]; intros ps ls F; [cbn [md_kept map combine] in *; inversion F; easy|].
  destruct ps as [|p ps]; [cbn [md_kept map combine] in *; inversion F; easy|]. cbn [md_kept] in F. inversion F as [|l d ls' ds Hl F']; subst.
  cbn [md_kept map combine]. now rewrite md_kept_para_twice, IH.
Qed.
Lemma md_kept_flush L : forall atts ps st n, In (ListModel.Item st n) (map dp_piece (md_kept L atts ps)) -> n = 0.
Proof.
  induction atts as [|a atts IH]; intros [|p ps] st n H; try easy. destruct H as [H|H]; [|now apply (IH ps st n)].
  unfold md_kept_para in H. destruct (on (f_is_code_block (snd a))); [discriminate|]. cbn [dp_piece] in H.
  destruct (f_heading_level (snd a)); [discriminate|]. destruct (listed L a); [|discriminate]. now injection H.
Qed.
Lemma placed_flush L' K ls fs : (forall st n, In (ListModel.Item st n) (map dp_piece K) -> n = 0) -> Forall2 (placed L') ls K -> flush L' (combine ls fs).
Proof.
  intros H F [l f] e Ha. apply in_combine_l in Ha. unfold listed. cbn [fst]. intros He. revert Ha. induction F as [|l' d ls K Hl F IH]; [easy|]. intros [Hx|Hx].
  - subst l'. unfold placed in Hl. destruct (dp_piece d) as [st n|] eqn:Ed; [|subst l; discriminate]. destruct Hl as (i & -> & Hi). rewrite Hi in He. injection He as <-. cbn [l_indent].
    rewrite (H st n); [reflexivity|]. left. exact Ed.
  - apply IH; [|exact Hx]. intros st n Hn. apply (H st n). now right.
Qed.
Lemma markdown_twice_theorem L0 L its atts L' its' atts' : lreach L0 -> lreach L' ->
  document_shows L' (md_kept L atts (paragraphs its)) -> doc_items (l_doc L') = Ok its' -> para_attrs (l_doc L') = map Some atts' ->
  (forall k i a p ss, nth_error (d_order (l_doc L')) k = Some i -> nth_error atts' k = Some a -> nth_error (paragraphs its') k = Some p ->
     block_segments (l_doc L') i = Ok ss -> gentle_para L' a ss p) ->
  exists s, export_markdown L' = Ok s /\ (exists p, md_page s p)
    /\ forall p, md_page s p -> exists L2, import_markdown L0 (page_events p) = Some L2 /\ lreach L2 /\ document_shows L2 (md_kept L atts (paragraphs its)).
Proof.
  intros R0 R' (its0 & ls & D1 & D2 & D3 & D4 & D5 & D6 & _) E A G.
  set (K := md_kept L atts (paragraphs its)) in *. pose proof (placed_all L' K ls D3 D5 D6) as F. rewrite E in D1. injection D1 as ->.
  assert (atts' = combine ls (map dp_fmt K)) as ->.
  { rewrite A in D4. clear - D4. revert D4. generalize (combine ls (map dp_fmt K)) as m. induction atts' as [|x l IH]; intros [|y m]; cbn; try discriminate; [easy|]. intros [= -> Em]. f_equal. auto. }
  destruct (markdown_round_theorem L0 L' its0 (combine ls (map dp_fmt K)) R0) as (s & S1 & S2 & S3); try assumption.
  - now apply lists_ok.
  - apply (placed_flush L' K); [apply md_kept_flush|exact F].
  - exists s. split; [exact S1|]. split; [exact S2|]. intros p Hp. destruct (S3 p Hp) as (L2 & I1 & I2 & I3). exists L2. split; [exact I1|]. split; [exact I2|].
    rewrite D2 in I3. unfold K in I3. now rewrite md_kept_twice in I3 by exact F.
Qed.

(** ** Documents that change *)
Definition underlined : cfmt := mk_cfmt None None None None None (Some true) None None None None None [] None None None None.
Lemma md_round_underline_w : exists L1 L2, lreach L1 /\ lreach L2
  /\ doc_items (l_doc L1) = Ok [Chr 97%N underlined] /\ doc_items (l_doc L2) = Ok [Chr 97%N cfmt_default] /\ export_markdown L1 = export_markdown L2.
Proof.
  exists (no_lists (formatted (txt "a") underlined)), (typed (txt "a")). split; [apply no_lists_lreach, formatted_reach; discriminate|]. split; [apply typed_lreach|].
  do 2 (split; [vm_compute; reflexivity|]). vm_compute. reflexivity.
Qed.
Lemma md_round_style_w : exists L1 L2, lreach L1 /\ lreach L2
  /\ markers L1 = [Ok (Some (txt "a")); Ok (Some (txt "b"))] /\ markers L2 = [Ok (Some (txt "1")); Ok (Some (txt "2"))] /\ export_markdown L1 = export_markdown L2.
Proof.
  exists letters_list, (with_list 0 5 Decimal (no_lists two_paras)). split; [apply with_list_lreach, no_lists_lreach, two_paras_reach|].
  split; [apply with_list_lreach, no_lists_lreach, two_paras_reach|]. do 2 (split; [vm_compute; reflexivity|]). vm_compute. reflexivity.
Qed.
Lemma md_round_align_w : exists L1 L2, lreach L1 /\ lreach L2
  /\ map (option_map (fun a => f_alignment (snd a))) (para_attrs (l_doc L1)) = [Some (Some 2%N); Some None]
  /\ map (option_map (fun a => f_alignment (snd a))) (para_attrs (l_doc L2)) = [Some None; Some None] /\ export_markdown L1 = export_markdown L2.
Proof.
  exists (with_format center_req 0 0 (no_lists two_paras)), (no_lists two_paras). split; [apply with_format_lreach, no_lists_lreach, two_paras_reach|].
  split; [apply no_lists_lreach, two_paras_reach|]. do 2 (split; [vm_compute; reflexivity|]). vm_compute. reflexivity.
Qed.
Definition loose : list mblock := [MList true false [[MPara (word "ab")]; [MPara (word "cd")]]].
Lemma md_round_lists_w : exists L s p L', lreach L /\ export_markdown L = Ok s /\ md_page s p /\ import_markdown MdReadRefuted.blank (page_events p) = Some L'
  /\ markers L = [Ok (Some (txt "1")); Ok (Some (txt "1"))] /\ markers L' = [Ok (Some (txt "1")); Ok (Some (txt "2"))].
Proof.
  exists two_lists. eexists. exists loose, (read loose). split; [apply with_list_lreach, with_list_lreach, no_lists_lreach, two_paras_reach|].
  split; [vm_compute; reflexivity|]. split; [|split; [vm_compute; reflexivity|split; vm_compute; reflexivity]].
  split; [vm_compute; reflexivity|]. exists [(Item true, map (fun c => SChar c bare) (txt "ab")); (Item true, map (fun c => SChar c bare) (txt "cd"))].
  split; [|vm_compute; reflexivity]. exists [(Item true, txt "ab"); (Item true, txt "cd")]. split; [vm_compute; reflexivity|].
  repeat constructor; vm_compute; intuition discriminate.
Qed.

(** The sample comes back as a gentle document. *)
Definition sample_page : list mblock := [MHead 2 [IStrong (word "ab")]; MList true true [[MPara (word "cd")]]].
Definition sample_back : ldoc := read sample_page.
Lemma sample_back_gentle : forall k i a p ss its, doc_items (l_doc sample_back) = Ok its ->
  nth_error (d_order (l_doc sample_back)) k = Some i -> nth_error (attrs_of sample_back) k = Some a -> nth_error (paragraphs its) k = Some p ->
  block_segments (l_doc sample_back) i = Ok ss -> gentle_para sample_back a ss p.
Proof.
  intros k i a p ss its E H1 H2 H3 H4. vm_compute in E. injection E as <-. vm_compute in H1, H2, H3.
  assert (W : forall c, In c [97; 98]%N -> word_char c) by (intros c [<-|[<-|[]]]; vm_compute; intuition discriminate).
  destruct k as [|[|[|k]]].
  3: discriminate H1.
  3: destruct k; discriminate H1.
  all: injection H1 as <-.
  all: injection H2 as <-.
  all: injection H3 as <-.
  all: vm_compute in H4.
  all: injection H4 as <-.
  all: unfold gentle_para; cbn [snd f_is_code_block on].
  - split; [|split; [|split]].
    + split; [|easy]. split; [discriminate|]. split; [vm_compute; intuition discriminate|]. split; [|discriminate]. cbn.
      split; [vm_compute; intuition (subst; discriminate)|]. split; [discriminate|]. intros _. split; [exists 97%N, [98%N]|exists 98%N, [97%N]]; (split; [reflexivity|]); apply W; cbn; tauto.
    + split; [exists 97%N, [98%N]|exists 98%N, [97%N]]; easy.
    + intros h [= <-]. lia.
    + discriminate.
  - split; [|split; [|split]].
    + split; [|easy]. split; [discriminate|]. split; [vm_compute; intuition discriminate|]. split; [|discriminate]. cbn.
      split; [vm_compute; intuition (subst; discriminate)|]. split; [discriminate|]. discriminate.
    + split; [exists 99%N, [100%N]|exists 100%N, [99%N]]; easy.
    + discriminate.
    + intros e He. vm_compute in He. injection He as <-. cbn. lia.
Qed.
Lemma sample_back_case : exists its its', lreach sample_back /\ doc_items (l_doc sample) = Ok its
  /\ document_shows sample_back (md_kept sample (attrs_of sample) (paragraphs its)) /\ doc_items (l_doc sample_back) = Ok its'
  /\ para_attrs (l_doc sample_back) = map Some (attrs_of sample_back)
  /\ (forall k i a p ss, nth_error (d_order (l_doc sample_back)) k = Some i -> nth_error (attrs_of sample_back) k = Some a -> nth_error (paragraphs its') k = Some p ->
     block_segments (l_doc sample_back) i = Ok ss -> gentle_para sample_back a ss p).
Proof.
  destruct (markdown_import_theorem MdReadRefuted.blank sample_page blank_lreach ltac:(vm_compute; reflexivity)) as (L' & I1 & I2 & I3).
  assert (L' = sample_back) as -> by (unfold sample_back, read; now rewrite I1).
  eexists _, _. split; [exact I2|]. split; [vm_compute; reflexivity|]. split.
  - replace (md_kept _ _ _) with (map expected (page_paras sample_page)) by (vm_compute; reflexivity). exact I3.
  - split; [vm_compute; reflexivity|]. split; [vm_compute; reflexivity|]. intros k i a p ss. now apply sample_back_gentle.
Qed.
