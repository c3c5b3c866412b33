(** Undo and redo of paragraph breaks, paragraph formats, new lists, pastes and
    inserted Markdown and HTML. *)
From Verif Require Import Base BaseFacts FormatRunsModel FormatRunsSpec FormatRunsFacts
  RopeModel RopeSpec RopeFacts DocModel DocSpec BlockFacts DocInv DocFacts DocAttr DocImport DocFresh DocBreak DocFormat DocReach DocTheorems QueryModel QuerySpec PropSpec QueryTheorems
  HistModel UndoModel UndoFacts SessionModel ListModel ListDocModel ListDocSpec ListDocFacts FragmentModel FragmentText FragmentSpec FragmentLists FragmentFinish FragmentInsert FragmentTheorems
  ImportModel ImportSpec ImportFacts MdInsertModel MdInsertSpec MdInsertRope MdInsertFacts MdInsertTheorems
  HtmlInsertModel HtmlInsertSpec HtmlInsertFacts HtmlInsertTheorems RichModel RichSpec RichFacts RichTheorems InsertUndoSpec.

(** ** Numbers of paragraphs only grow *)

Lemma create_parsed_next fmt bs : forall d idx pos d' made chars pos', create_parsed fmt d idx pos bs = (d', made, chars, pos') ->
  (d_next d <= d_next d')%N.
Proof.
  induction bs as [|[b l] bs IH]; intros d idx pos d' made chars pos' H; cbn [create_parsed] in H; [injection H as <- _ _ _; lia|].
  destruct (payload b) as [t rs]. cbn [create_block_at] in H.
  match type of H with context [create_parsed fmt ?x ?y ?z bs] => destruct (create_parsed fmt x y z bs) as [[[d3 m3] c3] p3] eqn:E end.
  injection H as <- _ _ _. apply IH in E. cbn in E. lia.
Qed.
Lemma merge_next d bs cur k p bt o b d' np : merge_in d bs cur k p bt o b = Ok (d', np) -> d_next d' = d_next d.
Proof.
  unfold merge_in. destruct (payload b) as [t fr]. destruct (_ =? 0)%Z; [now intros [= <- _]|]. intros H.
  next_bind H. next_bind H. injection H as <- _. cbn [set_chars d_next]. now rewrite multi_next.
Qed.
Lemma split_next d bs cur k bt o first mids last_ touch d' pos n : split_in d bs cur k bt o first mids last_ touch = Ok (d', pos, n) -> (d_next d <= d_next d')%N.
Proof.
  unfold split_in. intros H. next_bind H. next_bind H.
  destruct (match first with Some b => payload b | None => ([], []) end) as [ft fr].
  destruct (match last_ with Some b => payload b | None => ([], []) end) as [lt lr].
  next_bind H. next_bind H. next_bind H.
  match type of H with context [create_parsed inserted_fmt ?x ?y ?z mids] => destruct (create_parsed inserted_fmt x y z mids) as [[[d3 m3] c3] p3] eqn:Ec end.
  cbn [create_block_at] in H. next_bind H. next_bind H. injection H as <- _ _. cbn [set_chars set_nblocks d_next]. rewrite multi_next. cbn.
  apply create_parsed_next in Ec. destruct touch; cbn in Ec; lia.
Qed.
Lemma html_next d bs cur k bt o over first mids last_ skip d' pos sk n : html_in d bs cur k bt o over first mids last_ skip = Ok (d', pos, sk, n) -> (d_next d <= d_next d')%N.
Proof.
  unfold html_in. intros H. next_bind H. next_bind H.
  match type of H with match ?e with _ => _ end = _ => destruct e as [[head hr] hi] end.
  match type of H with match ?e with _ => _ end = _ => destruct e as [[tail tr] lt] end.
  next_bind H. next_bind H. next_bind H.
  match type of H with context [create_parsed html_fmt ?x ?y ?z mids] => destruct (create_parsed html_fmt x y z mids) as [[[d3 m3] c3] p3] eqn:Ec end.
  match type of H with match ?e with _ => _ end = _ => destruct e as [tlist tfmt] end.
  apply create_parsed_next in Ec.
  assert (Ec' : (d_next d <= d_next d3)%N) by (destruct over as [[? ?]|]; exact Ec).
  match type of H with match ?e with _ => _ end = _ => destruct e as [d4 made] eqn:E4 end.
  assert (E4' : (d_next d3 <= d_next d4)%N).
  { destruct (_ && _)%bool in E4; injection E4 as <- _; cbn; lia. }
  next_bind H. next_bind H. injection H as <- _ _ _. cbn [set_chars set_nblocks d_next]. rewrite multi_next. cbn. lia.
Qed.
Lemma markdown_next L p a es L' np k : insert_markdown_at L p a es = Ok (L', np, k) -> (d_next (l_doc L) <= d_next (l_doc L'))%N.
Proof.
  unfold insert_markdown_at, insert_parsed. destruct (negb _); [easy|]. intros H. next_bind H. next_pair. next_bind H.
  destruct (flatten_to_blocks es) as [|first [|g rest]]; [easy| |].
  - destruct (is_inline first).
    + next_bind H. next_pair. injection H as <- _ _. cbn [l_doc]. match goal with E : merge_in _ _ _ _ _ _ _ _ = _ |- _ => apply merge_next in E; rewrite E; lia end.
    + destruct (make_list L (list_of first)). next_bind H. next_pair. injection H as <- _ _. cbn [l_doc]. eapply split_next; eassumption.
  - destruct (place_lists _ _ _). next_bind H. next_pair. injection H as <- _ _. cbn [l_doc]. eapply split_next; eassumption.
Qed.
Lemma html_at_next L p a es L' np k : insert_html_at L p a es = Ok (L', np, k) -> (d_next (l_doc L) <= d_next (l_doc L'))%N.
Proof.
  unfold insert_html_at, insert_parsed_html. destruct (negb _); [easy|]. intros H. next_bind H. next_pair. next_bind H.
  destruct (flatten_to_blocks es) as [|first [|g rest]]; [easy| |].
  - destruct (is_inline first).
    + next_bind H. next_pair. injection H as <- _ _. cbn [l_doc]. match goal with E : merge_in _ _ _ _ _ _ _ _ = _ |- _ => apply merge_next in E; rewrite E; lia end.
    + next_bind H. destruct (make_list L (list_of first)). destruct (is_nil _); next_bind H; next_pair; injection H as <- _ _; cbn [l_doc]; eapply html_next; eassumption.
  - next_bind H. destruct (place_lists _ _ _). next_bind H. next_pair. injection H as <- _ _. cbn [l_doc]. eapply html_next; eassumption.
Qed.

(** ** What paragraphs look like *)

Definition one_inline (bs : list pblock) : bool := match bs with [b] => is_inline b | _ => false end.
Lemma one_inline_bare bs : one_inline bs = true <-> one_bare bs.
Proof.
  split.
  - destruct bs as [|b [|c r]]; try easy. cbn. intros H. exists b. split; [easy|now apply inline_bare].
  - intros (b & -> & H). now apply inline_bare.
Qed.
Definition read_look (b : pblock) : option (option (list_style * nat)) := option_map (fun st => Some (st, pb_indent b)) (pb_list b).
Lemma read_look_ok L b l : in_read_list L b l -> option_map (list_look L) l = read_look b.
Proof.
  unfold in_read_list, read_look. destruct (pb_list b) as [st|]; [|now intros ->]. intros (i & e & -> & H & <- & <-).
  cbn. unfold list_look. now rewrite H.
Qed.
Definition lists_there (L : ldoc) : Prop := forall l f, In (Some (Some l, f)) (para_attrs (l_doc L)) -> get_list L l <> None.
Lemma look_more L L' : more_lists L L' -> lists_there L ->
  map (option_map (look L')) (para_attrs (l_doc L)) = looks L.
Proof.
  intros M T. apply map_ext_in. intros [[[l|] f]|] H; try easy. cbn. unfold look, list_look. cbn. specialize (T l f H).
  destruct (get_list L l) as [e|] eqn:E; [|easy]. now rewrite (M _ _ E).
Qed.

Definition md_looks (n : nat) (bs : list pblock) (its : list item) (old : list (option (option (option (list_style * nat)) * bfmt))) :=
  let k := breaks n its in
  if one_inline bs then old
  else match nth_error old k with
       | Some c => firstn k old ++ (c :: map (fun b => Some (read_look b, heading_only (pb_heading b))) (own_paragraphs bs) ++ [c]) ++ skipn (S k) old
       | None => old
       end.
Definition html_looks (n : nat) (bs : list pblock) (its : list item) (old : list (option (option (option (list_style * nat)) * bfmt))) :=
  let k := breaks n its in
  if one_inline bs then old
  else match nth_error old k with
       | Some c =>
           firstn k old
           ++ ((if takes_place n bs its then match c, bs with Some (_, f), b :: _ => Some (read_look b, over_fmt f b) | _, _ => c end else c)
               :: map (fun b => Some (read_look b, html_fmt b)) (html_own n bs its)
               ++ (if cut_off n bs its then [if takes_place n bs its then Some (None, bfmt_default) else c] else []))
           ++ skipn (S k) old
       | None => old
       end.

Lemma as_read_looks L bs : forall own, Forall2 (as_read L) bs own ->
  map (option_map (look L)) (map Some own) = map (fun b => Some (read_look b, heading_only (pb_heading b))) bs.
Proof.
  induction bs as [|b bs IH]; intros own H; inversion H as [|? a ? own' [H1 H2] H3]; subst; [easy|]. cbn [map option_map]. unfold look at 1.
  now rewrite (read_look_ok _ _ _ H1), H2, IH.
Qed.
Lemma html_read_looks L bs : forall own, Forall2 (html_read L) bs own ->
  map (option_map (look L)) (map Some own) = map (fun b => Some (read_look b, html_fmt b)) bs.
Proof.
  induction bs as [|b bs IH]; intros own H; inversion H as [|? a ? own' [H1 H2] H3]; subst; [easy|]. cbn [map option_map]. unfold look at 1.
  rewrite (read_look_ok _ _ _ H1), H2, IH by easy. reflexivity.
Qed.
Lemma html_over_fmt L b old a : html_over L b old a -> in_read_list L b (fst a) /\ snd a = over_fmt (snd old) b.
Proof.
  intros (H & R). split; [exact H|]. destruct (snd a). cbn in R. unfold over_fmt.
  repeat match type of R with _ /\ _ => let X := fresh in destruct R as [X R]; rewrite <- X end. now rewrite <- R.
Qed.
Lemma in_read_there L b l i : in_read_list L b l -> l = Some i -> get_list L i <> None.
Proof. unfold in_read_list. destruct (pb_list b); [|now intros -> ]. intros (j & e & -> & H & _) [= <-]. now rewrite H. Qed.

Lemma Forall2_in_r {A B} (R : A -> B -> Prop) l m y : Forall2 R l m -> In y m -> exists x, In x l /\ R x y.
Proof. induction 1 as [|a b l m H F IH]; [easy|]. intros [<-|X]; [exists a; split; [now left|easy]|]. destruct (IH X) as (x & Y & Z). exists x. split; [now right|easy]. Qed.

(** ** Making a list *)

Lemma assign_keeps l s e bs : forall d d', assign_list d l s e bs = Ok d' ->
  d_nblocks d' = d_nblocks d /\ d_chars d' = d_chars d /\ (forall i, pos_of d' i = pos_of d i).
Proof.
  induction bs as [|b bs IH]; intros d d' H; cbn [assign_list] in H; [now injection H as <-|].
  next_bind H. destruct (IH _ _ H) as (A & B & C). destruct (touches _ _ _ _); [|auto]. split; [exact A|]. split; [exact B|].
  intros i. rewrite C. unfold pos_of. rewrite get_set_list. destruct (get_block d i); [|easy]. cbn. now destruct (N.eqb _ _).
Qed.
Lemma create_wf L ps p a st : wf (l_doc L) ps -> fresh (l_doc L) ps ->
  exists d', create_list L p a st = Ok (mk_ldoc d' (l_lists L ++ [(l_next L, plain_list st)]) (N.succ (l_next L)), l_next L)
   /\ wf d' ps /\ fresh d' ps /\ d_runs d' = d_runs (l_doc L) /\ d_order d' = d_order (l_doc L)
   /\ d_next d' = d_next (l_doc L) /\ d_nblocks d' = d_nblocks (l_doc L) /\ d_chars d' = d_chars (l_doc L)
   /\ (forall i t l0 f x, In (i, t) ps -> attr (l_doc L) i = Some (l0, f) -> get_block (l_doc L) i = Some x ->
        attr d' i = Some (if touches (b_pos x) (Z.of_nat (length t)) (Z.min p a) (Z.max p a) then Some (l_next L) else l0, f)).
Proof.
  intros W F. destruct (sorted_f_ids _ _ W) as (B1 & B2 & B3).
  set (bs := sort_blocks (get_multi (l_doc L) (d_fblocks (l_doc L)))) in *.
  destruct (assign_ok (l_next L) (Z.min p a) (Z.max p a) bs _ _ W) as (d' & E & _ & W' & S1 & S2 & S3 & A1 & A2).
  { intros b Hb. apply B1. now apply in_map. }
  { exact B2. }
  destruct (assign_keeps _ _ _ _ _ _ E) as (K1 & K2 & K3).
  exists d'. unfold create_list, new_list. fold bs. rewrite E. cbn [bind l_lists l_next]. split; [reflexivity|]. split; [exact W'|].
  split; [apply (fresh_blocks _ _ _ W W'); [intros i _; apply K3|exact F]|]. split; [exact S2|]. split; [exact S3|].
  split; [eapply assign_next; exact E|]. split; [exact K1|]. split; [exact K2|].
  intros i t l0 f x Hi Ha Hx.
  assert (Hin : In i (map b_id bs)) by (apply B1, in_map_iff; now exists (i, t)).
  destruct (find_block_in _ _ Hin) as (x' & Hx' & Hid & Hxb). pose proof (B3 _ _ Hx') as Hx2.
  rewrite Hx in Hx2. injection Hx2 as <-. subst i. eapply A2; eassumption.
Qed.
Definition listed (p a : Z) (st : list_style) (its : list item) (old : list (option (option (option (list_style * nat)) * bfmt))) :=
  map (fun x => if touches (Z.of_nat (para_start (fst x) its)) (Z.of_nat (length (nth (fst x) (paragraphs its) []))) (Z.min p a) (Z.max p a)
                then option_map (fun y => (Some (Some (st, 0)), snd y)) (snd x) else snd x)
      (combine (seq 0 (length old)) old).
Definition formatted (q : bfmt_req) (p a : Z) (its : list item) (old : list (option (option (option (list_style * nat)) * bfmt))) :=
  map (fun x => if overlaps (Z.of_nat (para_start (fst x) its)) (Z.of_nat (length (nth (fst x) (paragraphs its) []))) (Z.min p a) (Z.max p a)
                then option_map (fun y => (fst y, apply_bfmt q (snd y))) (snd x) else snd x)
      (combine (seq 0 (length old)) old).
Lemma map_combine {A B C} (g : A -> C) (h : A -> B) (f : nat * B -> C) l : forall n,
  (forall k x, nth_error l k = Some x -> g x = f (n + k, h x)) ->
  map g l = map f (combine (seq n (length (map h l))) (map h l)).
Proof.
  induction l as [|x l IH]; intros n H; [reflexivity|]. cbn [map length seq combine]. f_equal.
  - rewrite (H 0 x eq_refl). now rewrite Nat.add_0_r.
  - apply IH. intros k y Hk. rewrite (H (S k) y Hk). f_equal. f_equal. lia.
Qed.

(** ** Pasting *)

Definition fb_look (fb : fblock) : option (option (list_style * nat)) :=
  option_map (fun e => Some (l_style e, Z.to_nat (l_indent e))) (fb_list fb).
Definition pasted_looks (n : nat) (fbs : list fblock) (its : list item) (old : list (option (option (option (list_style * nat)) * bfmt))) :=
  let k := breaks n its in
  match nth_error old k with
  | Some c =>
      firstn k old
      ++ ((if takes_over fbs its n then [] else [c])
          ++ map (fun fb => Some (fb_look fb, fb_fmt fb)) (own_format fbs)
          ++ (if keeps_tail fbs its n then [if takes_over fbs its n then Some (None, bfmt_default) else c] else []))
      ++ skipn (S k) old
  | None => old
  end.
Lemma joins_look L fb l : joins L (fb_list fb) l -> option_map (list_look L) l = fb_look fb.
Proof.
  unfold joins, fb_look. destruct (fb_list fb) as [e|]; [|now intros ->]. intros (i & e' & -> & H & A & B).
  cbn. unfold list_look. rewrite H. cbn. now rewrite A, B.
Qed.
Lemma own_looks L fbs : forall own, map snd own = map fb_fmt fbs -> Forall2 (joins L) (map fb_list fbs) (map fst own) ->
  map (option_map (look L)) (map Some own) = map (fun fb => Some (fb_look fb, fb_fmt fb)) fbs.
Proof.
  induction fbs as [|fb fbs IH]; intros [|[l f] own] E H; try easy. cbn [map fst snd] in *. injection E as -> E. inversion H; subst.
  cbn [option_map]. unfold look at 1. cbn [fst snd]. erewrite joins_look by eassumption. f_equal. now apply IH.
Qed.
Lemma joins_there L (fbs : list (option list_entity)) (own : list (option id * bfmt)) l f : Forall2 (joins L) fbs (map fst own) -> In (Some l, f) own -> get_list L l <> None.
Proof.
  intros H I. apply (in_map fst) in I. destruct (Forall2_in_r _ _ _ _ H I) as (e & _ & J). unfold joins in J. cbn [fst] in J.
  destruct e; [|discriminate]. destruct J as (i & e' & [= <-] & G & _). now rewrite G.
Qed.

(** ** One insertion *)

Record good (L : ldoc) (its : list item) : Prop := {
  good_wf : exists ps, wf (l_doc L) ps /\ fresh (l_doc L) ps /\ items_of (d_runs (l_doc L)) ps = its;
  good_numbered : lists_numbered L; good_there : lists_there L
}.
Definition request_of (c : rcall) : request :=
  match c with
  | RMarkdown n a es => QMarkdown (Z.of_nat n) (Z.of_nat a) es
  | RHtml n a es => QHtml (Z.of_nat n) (Z.of_nat a) es
  | RBreak n _ => QBreak (Z.of_nat n)
  | RCreateList n a st => QCreate (Z.of_nat n) (Z.of_nat a) st
  | RBlockFormat q n a => QBlockFormat q (Z.of_nat n) (Z.of_nat a)
  | RPaste n _ f => QPaste (Z.of_nat n) (df_data f)
  | _ => QBreak 0
  end.
Definition looks_after (c : rcall) (its : list item) old :=
  match c with
  | RMarkdown n _ es => md_looks n (flatten_to_blocks es) its old
  | RHtml n _ es => html_looks n (flatten_to_blocks es) its old
  | RBreak n _ => let k := breaks n its in firstn (S k) old ++ skipn k old
  | RCreateList n a st => listed (Z.of_nat n) (Z.of_nat a) st its old
  | RBlockFormat q n a => formatted q (Z.of_nat n) (Z.of_nat a) its old
  | RPaste n _ f => match df_data f with Some fbs => pasted_looks n fbs its old | None => old end
  | _ => old
  end.
Definition paras_more (c : rcall) (its : list item) : Z :=
  match c with
  | RMarkdown _ _ es => Z.of_nat (added (flatten_to_blocks es))
  | RHtml n _ es => Z.of_nat (html_added n (flatten_to_blocks es) its)
  | RBreak _ _ => 1%Z
  | RPaste n _ f =>
      match df_data f with
      | Some fbs => (Z.of_nat (length (paragraphs (spec_paste n fbs its))) - Z.of_nat (length (paragraphs its)))%Z
      | None => 0%Z
      end
  | _ => 0%Z
  end.
Definition chars_more (c : rcall) (its : list item) : Z :=
  match c with
  | RMarkdown _ _ es => Z.of_nat (count_chars (inserted (flatten_to_blocks es)))
  | RHtml n _ es => let bs := flatten_to_blocks es in (Z.of_nat (count_chars (html_items n bs its)) - Z.of_nat (missed n bs its))%Z
  | RPaste _ _ f => match df_data f with Some fbs => Z.of_nat (fragment_length fbs) | None => 0%Z end
  | _ => 0%Z
  end.

Lemma there_firstn L L' k own rest :
  lists_there L -> more_lists L L' -> (forall l f, In (Some l, f) own -> get_list L' l <> None) ->
  para_attrs (l_doc L') = firstn k (para_attrs (l_doc L)) ++ map Some own ++ skipn rest (para_attrs (l_doc L)) -> lists_there L'.
Proof.
  intros T M O E l f H. rewrite E in H.
  assert (Old : In (Some (Some l, f)) (para_attrs (l_doc L)) -> get_list L' l <> None).
  { intros X. specialize (T l f X). destruct (get_list L l) as [e|] eqn:G; [|easy]. now rewrite (M _ _ G). }
  apply in_app_iff in H. destruct H as [H|H]; [apply Old; rewrite <- (firstn_skipn k); apply in_app_iff; now left|].
  apply in_app_iff in H. destruct H as [H|H]; [|apply Old; rewrite <- (firstn_skipn rest); apply in_app_iff; now right].
  apply in_map_iff in H. destruct H as (x & [= ->] & H). now apply O in H.
Qed.
Lemma same_there L L' : para_attrs (l_doc L') = para_attrs (l_doc L) -> l_lists L' = l_lists L -> lists_there L -> lists_there L' /\ looks L' = looks L.
Proof.
  intros E G T. split.
  - intros l f H. rewrite E in H. rewrite (get_list_same _ _ l G). now apply (T l f).
  - unfold looks. rewrite E. apply map_ext. intros [[[l|] f]|]; try easy. cbn. unfold look, list_look. cbn. now rewrite (get_list_same _ _ l G).
Qed.

Lemma step_ok L its c : good L its -> inserts c its ->
  exists L' np, (forall s, r_step s c = simply s (request_of c)) /\ changes c /\ execute L (request_of c) = Ok (L', np)
   /\ good L' (after_insertion its c) /\ (d_next (l_doc L) <= d_next (l_doc L'))%N /\ more_lists L L'
   /\ looks L' = looks_after c its (looks L) /\ d_nblocks (l_doc L') = (d_nblocks (l_doc L) + paras_more c its)%Z
   /\ d_chars (l_doc L') = (d_chars (l_doc L) + chars_more c its)%Z.
Proof.
  intros [(ps & W & F & <-) N T] H. destruct c; try easy; cbn [inserts] in H;
    [destruct H as (<- & Hn)| | |destruct H as (<- & Hn & fbs & Ef & Hne & To & Kp & Kc)|destruct H as (<- & Hn & C)|destruct H as (<- & Hn & C)].
  - destruct (wf_loc _ _ (Z.of_nat p) W) as (pre & b & t & post & i & E & Hi & Hp). set (its := items_of (d_runs (l_doc L)) ps) in *.
    assert (Cl : clip its (Z.of_nat p) = p) by (unfold clip; lia).
    assert (Ep : cpre pre + i = p) by (rewrite <- Cl; unfold its; now rewrite clip_items).
    assert (Hk : breaks p its = length pre) by (unfold its; rewrite <- Ep, E; now apply breaks_items).
    subst ps. destruct (insert_block_full _ _ _ _ _ _ _ W Hi Hp) as (d' & E' & W' & I' & A & C1 & C2 & C3).
    pose proof (insert_block_fresh _ _ _ _ _ _ _ _ _ _ W Hi Hp F E' W') as F'.
    exists (with_doc L d'), (Z.of_nat (cpre pre + i + 1)). split; [intros s; cbn [r_step]; unfold perform_over; now rewrite Nat.eqb_refl|]. split; [exact I|].
    cbn [request_of execute]. rewrite E'. cbn [bind]. split; [reflexivity|]. cbn [after_insertion looks_after paras_more chars_more].
    split; [constructor|].
    + eexists. split; [exact W'|]. split; [exact F'|]. cbn [with_doc l_doc]. rewrite <- Ep. exact I'.
    + exact N.
    + intros l f H. change (get_list (with_doc L d') l) with (get_list L l). apply (T l f). cbn [with_doc l_doc] in H. rewrite A in H.
      apply in_app_iff in H. destruct H as [H|H]; [rewrite <- (firstn_skipn (S (length pre)))|rewrite <- (firstn_skipn (length pre))]; apply in_app_iff; tauto.
    + cbn [with_doc l_doc]. split; [lia|]. split; [now intros l e|]. split; [|split; [exact C2|lia]].
      cbv zeta. rewrite Hk. unfold looks. cbn [with_doc l_doc]. rewrite A, map_app, firstn_map, skipn_map. reflexivity.
  - set (its := items_of (d_runs (l_doc L)) ps) in *. set (P := Z.of_nat p). set (A := Z.of_nat a).
    destruct (set_block_format_full q (l_doc L) ps P A W) as (d' & E & W' & S2 & S3 & Ch & Nb & Nx & At).
    assert (Ps : forall i, In i (map fst ps) -> pos_of d' i = pos_of (l_doc L) i).
    { intros i Hi. apply in_map_iff in Hi. destruct Hi as ([j t] & Ej & Hi). cbn in Ej. subst j. unfold pos_of.
      destruct (wf_get _ _ i W (in_map fst _ _ Hi)) as (x & Ex & _). rewrite Ex, (At i t x Hi Ex). now destruct (overlaps _ _ _ _). }
    assert (One_ : forall k i, nth_error (d_order (l_doc L)) k = Some i -> exists l0 f,
      attr (l_doc L) i = Some (l0, f)
      /\ attr d' i = Some (l0, if overlaps (Z.of_nat (para_start k its)) (Z.of_nat (length (nth k (paragraphs its) []))) (Z.min P A) (Z.max P A)
                               then apply_bfmt q f else f)).
    { intros k i Hk. destruct (nth_para _ _ _ _ W Hk) as (pre & t & post & Eps & <-).
      assert (Hi : In (i, t) ps) by (rewrite Eps, in_app_iff; right; now left).
      destruct (wf_get _ _ i W (in_map fst _ _ Hi)) as (x & Ex & _). exists (b_list x), (b_fmt x). unfold attr. rewrite Ex. split; [reflexivity|].
      rewrite (At i t x Hi Ex), (F pre i t post Eps x Ex). unfold its. rewrite Eps, para_start_items, paragraphs_items by (now destruct pre).
      rewrite map_app, app_nth2 by (rewrite map_length; lia). rewrite map_length, Nat.sub_diag. cbn [map nth fst snd].
      unfold styled. rewrite styled_length. now destruct (overlaps _ _ _ _). }
    exists (with_doc L d'), 0%Z. split; [reflexivity|]. split; [exact I|]. cbn [request_of execute]. fold P A. rewrite E. cbn [bind]. split; [reflexivity|].
    cbn [after_insertion looks_after paras_more chars_more]. fold P A.
    split; [constructor|].
    + exists ps. split; [exact W'|]. split; [exact (fresh_blocks _ _ _ W W' Ps F)|]. cbn [with_doc l_doc]. rewrite S2. reflexivity.
    + exact N.
    + clear H. intros l f H. unfold para_attrs in H. cbn [with_doc l_doc] in H. rewrite S3 in H. apply in_map_iff in H. destruct H as (i & Hi & Ho).
      destruct (In_nth_error _ _ Ho) as [k Hk]. destruct (One_ k i Hk) as (l0 & f0 & Ea & Eb). rewrite Hi in Eb. injection Eb as <- _.
      change (get_list (with_doc L d') l) with (get_list L l). apply (T l f0). apply in_map_iff. now exists i.
    + cbn [with_doc l_doc]. split; [lia|]. split; [now intros l e|]. split; [|split; [lia|lia]].
      unfold looks. unfold para_attrs. cbn [with_doc l_doc]. rewrite S3, !map_map. unfold formatted. apply map_combine. intros k i Hk.
      destruct (One_ k i Hk) as (l0 & f & Ea & Eb). rewrite Ea, Eb. cbn [fst snd option_map Nat.add]. unfold look. cbn [fst snd].
      now destruct (overlaps _ _ _ _).
  - set (its := items_of (d_runs (l_doc L)) ps) in *. set (P := Z.of_nat p). set (A := Z.of_nat a).
    destruct (create_wf L ps P A st W F) as (d' & E & W' & F' & S2 & S3 & Nx & Nb & Ch & At).
    set (L' := mk_ldoc d' (l_lists L ++ [(l_next L, plain_list st)]) (N.succ (l_next L))) in *.
    assert (Fn : forall j, (l_next L <= j)%N -> find (fun x : id * list_entity => N.eqb (fst x) j) (l_lists L) = None).
    { intros j Hj. specialize (N j Hj). unfold get_list in N. now destruct (find _ _). }
    assert (M : more_lists L L').
    { intros l e. unfold get_list. cbn [L' l_lists]. rewrite find_app. destruct (find (fun x => N.eqb (fst x) l) (l_lists L)); easy. }
    assert (Gn : get_list L' (l_next L) = Some (plain_list st)).
    { unfold get_list. cbn [L' l_lists]. rewrite find_app, Fn by lia. cbn. now rewrite N.eqb_refl. }
    assert (One_ : forall k i, nth_error (d_order (l_doc L)) k = Some i -> exists l0 f,
      attr (l_doc L) i = Some (l0, f)
      /\ attr d' i = Some (if touches (Z.of_nat (para_start k its)) (Z.of_nat (length (nth k (paragraphs its) []))) (Z.min P A) (Z.max P A)
                           then Some (l_next L) else l0, f)).
    { intros k i Hk. assert (Hi : In i (d_order (l_doc L))) by (eapply nth_error_In; exact Hk).
      destruct (attr_in_order _ _ _ W Hi) as (l0 & f & Ea). exists l0, f. split; [exact Ea|].
      destruct (nth_para _ _ _ _ W Hk) as (pre & t & post & Eps & <-).
      destruct (get_block (l_doc L) i) as [x|] eqn:Ex; [|unfold attr in Ea; now rewrite Ex in Ea].
      rewrite (At i t l0 f x); [|rewrite Eps, in_app_iff; right; now left|exact Ea|exact Ex].
      rewrite (F pre i t post Eps x Ex). unfold its. rewrite Eps, para_start_items, paragraphs_items by (now destruct pre).
      rewrite map_app, app_nth2 by (rewrite map_length; lia). rewrite map_length, Nat.sub_diag. cbn [map nth fst snd].
      unfold styled. rewrite styled_length. reflexivity. }
    exists L', 0%Z. split; [reflexivity|]. split; [exact I|]. cbn [request_of execute]. fold P A. rewrite E. cbn [bind]. split; [reflexivity|].
    cbn [after_insertion looks_after paras_more chars_more]. fold P A.
    split; [constructor|].
    + exists ps. split; [exact W'|]. split; [exact F'|]. cbn [L' l_doc]. rewrite S2. reflexivity.
    + intros l Hl. cbn [L' l_next] in Hl. unfold get_list. cbn [L' l_lists]. rewrite find_app, Fn by lia. cbn [find fst].
      destruct (N.eqb_spec (l_next L) l); [lia|reflexivity].
    + clear H. intros l f H. unfold para_attrs in H. cbn [L' l_doc] in H. rewrite S3 in H. apply in_map_iff in H. destruct H as (i & Hi & Ho).
      destruct (In_nth_error _ _ Ho) as [k Hk]. destruct (One_ k i Hk) as (l0 & f0 & Ea & Eb). rewrite Hi in Eb. injection Eb as El _.
      destruct (touches _ _ _ _); [injection El as ->; now rewrite Gn|]. subst l0.
      assert (X : get_list L l <> None) by (apply (T l f0); apply in_map_iff; now exists i).
      destruct (get_list L l) as [e|] eqn:G; [|easy]. now rewrite (M _ _ G).
    + cbn [L' l_doc]. split; [lia|]. split; [exact M|]. split; [|split; [lia|lia]].
      unfold looks. unfold para_attrs. cbn [L' l_doc]. rewrite S3, !map_map. unfold listed. apply map_combine. intros k i Hk.
      destruct (One_ k i Hk) as (l0 & f & Ea & Eb). rewrite Ea, Eb. cbn [fst snd option_map Nat.add]. unfold look. cbn [fst snd].
      destruct (touches _ _ _ _); cbn [option_map].
      * unfold list_look. rewrite Gn. reflexivity.
      * destruct l0 as [l|]; [|reflexivity]. cbn [option_map]. unfold list_look.
        assert (X : get_list L l <> None) by (apply (T l f); apply in_map_iff; exists i; split; [exact Ea|eapply nth_error_In; exact Hk]).
        destruct (get_list L l) as [e|] eqn:G; [|easy]. now rewrite (M _ _ G).
  - set (its := items_of (d_runs (l_doc L)) ps) in *.
    assert (Cl : clipz (ctotal ps) (Z.of_nat p) = p) by (rewrite <- (clip_items (d_runs (l_doc L))); fold its; unfold clip; lia).
    destruct (insert_fragment_full L ps (Z.of_nat p) fbs W Hne To (or_intror (fresh_in_order _ _ W F)))
      as (L' & ps' & np & k & E & W' & I' & (cur & own & X1 & X2 & X3 & X4) & Nb & Ch & Fr & _ & Nx & _).
    rewrite Cl in *. fold its in I', X1, X2, Ch, Fr. destruct (X4 N) as (J & M & N').
    exists L', np. split; [intros s; cbn [r_step]; unfold perform_over; now rewrite Nat.eqb_refl|]. split; [exact I|].
    cbn [request_of execute]. rewrite Ef, E. cbn [bind]. split; [reflexivity|].
    cbn [after_insertion looks_after paras_more chars_more]. rewrite Ef.
    assert (Hcur : In (Some cur) (para_attrs (l_doc L))) by (eapply nth_error_In; eassumption).
    assert (Tc : forall l f, (Some l, f) = cur -> get_list L' l <> None).
    { intros l f0 Hl. subst cur. specialize (T l f0 Hcur). destruct (get_list L l) as [e|] eqn:G; [|easy]. now rewrite (M _ _ G). }
    assert (T' : lists_there L').
    { eapply there_firstn; [exact T|exact M| |exact X2]. intros l f0 Hl. unfold paste_attrs in Hl.
      apply in_app_iff in Hl. destruct Hl as [Hl|Hl].
      - destruct (takes_over fbs its p); [easy|]. destruct Hl as [Hl|[]]. now apply (Tc l f0).
      - apply in_app_iff in Hl. destruct Hl as [Hl|Hl]; [now apply (joins_there L' _ own l f0 J)|].
        destruct (keeps_tail fbs its p); [|easy]. destruct Hl as [Hl|[]]. destruct (takes_over fbs its p); [easy|]. now apply (Tc l f0). }
    assert (Lp : forall R q, q <> [] -> length (paragraphs (items_of R q)) = length q).
    { intros R q Hq. rewrite paragraphs_items by exact Hq. apply map_length. }
    split; [constructor; [exists ps'; auto|exact N'|exact T']|]. split; [exact Nx|]. split; [exact M|].
    split; [|split; [|exact (Ch Kc)]].
    + assert (Lc : look L' cur = look L cur).
      { pose proof (look_more L L' M T) as Q. unfold looks in Q. pose proof (f_equal (fun z => nth_error z (breaks p its)) Q) as Q'. cbv beta in Q'.
        rewrite !nth_error_map, X1 in Q'. exact (f_equal (fun z => match z with Some (Some v) => v | _ => look L cur end) Q'). }
      unfold pasted_looks. unfold looks at 2. rewrite nth_error_map, X1. cbn [option_map].
      unfold looks at 1. rewrite X2, !map_app. rewrite <- firstn_map, <- skipn_map, (look_more L L' M T).
      unfold paste_attrs. rewrite !map_app, (own_looks _ _ _ X3 J). unfold looks.
      f_equal. f_equal. f_equal; [|f_equal].
      * destruct (takes_over fbs its p); [reflexivity|]. cbn [map option_map]. now rewrite Lc.
      * destruct (keeps_tail fbs its p); [|reflexivity]. destruct (takes_over fbs its p); cbn [map option_map]; [reflexivity|now rewrite Lc].
    + rewrite Nb. rewrite <- I', !Lp by (apply (wf_ne _ _ W') || apply (wf_ne _ _ W)). unfold its. rewrite Lp by apply (wf_ne _ _ W). lia.
  - destruct (insert_full L ps p es W F Hn C) as (L' & ps' & k & E & W' & F' & I' & Nb & Ch & _ & A1 & A2).
    set (its := items_of (d_runs (l_doc L)) ps) in *. set (bs := flatten_to_blocks es) in *.
    exists L', (Z.of_nat (p + length (inserted bs))). split; [reflexivity|]. split; [exact I|]. cbn [request_of execute]. rewrite E. cbn [bind]. split; [reflexivity|].
    pose proof (markdown_next _ _ _ _ _ _ _ E) as Nx. cbn [after_insertion looks_after paras_more chars_more]. fold bs.
    destruct (one_inline bs) eqn:Eo.
    + pose proof (proj1 (one_inline_bare bs) Eo) as Ob. destruct (A1 Ob) as (P & G & Gn). destruct (same_there L L' P G T) as [T' Lk].
      split; [constructor; [exists ps'; auto| |exact T']|].
      { intros l Hl. rewrite (get_list_same _ _ l G). apply N. now rewrite <- Gn. }
      split; [exact Nx|]. split; [intros l e X; now rewrite (get_list_same _ _ l G)|].
      split; [unfold md_looks; now rewrite Eo|]. split; [exact Nb|]. exact Ch.
    + assert (Ob : ~ one_bare bs) by (rewrite <- one_inline_bare; congruence).
      destruct (A2 Ob) as (cur & own & X1 & X2 & X3 & X4). destruct (X4 N) as (J & M & N'). pose proof (reads_as _ _ _ X3 J) as Rd.
      assert (Hcur : In (Some cur) (para_attrs (l_doc L))) by (eapply nth_error_In; eassumption).
      assert (T' : lists_there L').
      { eapply there_firstn; [exact T|exact M| |exact X2]. intros l f [Hl|Hl].
        - subst cur. specialize (T l f Hcur). destruct (get_list L l) as [e|] eqn:G; [|easy]. now rewrite (M _ _ G).
        - apply in_app_iff in Hl. destruct Hl as [Hl|[Hl|[]]].
          + destruct (Forall2_in_r _ _ _ _ Rd Hl) as (b & _ & Rb & _). eapply in_read_there; [exact Rb|reflexivity].
          + subst cur. specialize (T l f Hcur). destruct (get_list L l) as [e|] eqn:G; [|easy]. now rewrite (M _ _ G). }
      split; [constructor; [exists ps'; auto|exact N'|exact T']|]. split; [exact Nx|]. split; [exact M|].
      split; [|split; [exact Nb|exact Ch]].
      unfold md_looks. rewrite Eo. unfold looks at 2. rewrite nth_error_map, X1. cbn [option_map].
      unfold looks at 1. rewrite X2, !map_app. rewrite <- firstn_map, <- skipn_map, (look_more L L' M T).
      cbn [map option_map]. rewrite !map_app, (as_read_looks _ _ _ Rd). cbn [map option_map].
      assert (Lc : look L' cur = look L cur).
      { pose proof (look_more L L' M T) as Q. unfold looks in Q. pose proof (f_equal (fun z => nth_error z (breaks p its)) Q) as Q'. cbv beta in Q'.
        rewrite !nth_error_map, X1 in Q'. exact (f_equal (fun z => match z with Some (Some v) => v | _ => look L cur end) Q'). }
      rewrite Lc. unfold looks. now rewrite <- ?app_assoc.
  - destruct (insert_html_full L ps p es W F Hn C) as (L' & ps' & k & E & W' & F' & I' & Nb & Ch & _ & A1 & A2).
    set (its := items_of (d_runs (l_doc L)) ps) in *. set (bs := flatten_to_blocks es) in *.
    exists L', (Z.of_nat (html_end p bs its)). split; [reflexivity|]. split; [exact I|]. cbn [request_of execute]. rewrite E. cbn [bind]. split; [reflexivity|].
    pose proof (html_at_next _ _ _ _ _ _ _ E) as Nx. cbn [after_insertion looks_after paras_more chars_more]. fold bs.
    destruct (one_inline bs) eqn:Eo.
    + pose proof (proj1 (one_inline_bare bs) Eo) as Ob. destruct (A1 Ob) as (P & G & Gn). destruct (same_there L L' P G T) as [T' Lk].
      split; [constructor; [exists ps'; auto| |exact T']|].
      { intros l Hl. rewrite (get_list_same _ _ l G). apply N. now rewrite <- Gn. }
      split; [exact Nx|]. split; [intros l e X; now rewrite (get_list_same _ _ l G)|].
      split; [unfold html_looks; now rewrite Eo|]. split; [exact Nb|]. rewrite Ch. fold its. cbv zeta. fold bs. lia.
    + assert (Ob : ~ one_bare bs) by (rewrite <- one_inline_bare; congruence).
      destruct (A2 Ob) as (cur & head & own & X1 & X2 & X4). destruct (X4 N) as (Hd & Rd & M & N').
      assert (Hcur : In (Some cur) (para_attrs (l_doc L))) by (eapply nth_error_In; eassumption).
      assert (Tc : forall l f, (Some l, f) = cur -> get_list L' l <> None).
      { intros l f Hl. subst cur. specialize (T l f Hcur). destruct (get_list L l) as [e|] eqn:G; [|easy]. now rewrite (M _ _ G). }
      assert (T' : lists_there L').
      { eapply there_firstn; [exact T|exact M| |exact X2]. intros l f [Hl|Hl].
        - destruct (takes_place p bs its); [|subst; now apply (Tc l f)]. destruct Hd as (b & r & _ & Hd). apply html_over_fmt in Hd. destruct Hd as [Hd _].
          subst head. eapply in_read_there; [exact Hd|reflexivity].
        - apply in_app_iff in Hl. destruct Hl as [Hl|Hl].
          + destruct (Forall2_in_r _ _ _ _ Rd Hl) as (b & _ & Rb & _). eapply in_read_there; [exact Rb|reflexivity].
          + destruct (cut_off p bs its); [|easy]. destruct Hl as [Hl|[]]. destruct (takes_place p bs its); [easy|]. now apply (Tc l f). }
      split; [constructor; [exists ps'; auto|exact N'|exact T']|]. split; [exact Nx|]. split; [exact M|].
      split; [|split; [exact Nb|rewrite Ch; cbv zeta; lia]].
      assert (Lc : look L' cur = look L cur).
      { pose proof (look_more L L' M T) as Q. unfold looks in Q. pose proof (f_equal (fun z => nth_error z (breaks p its)) Q) as Q'. cbv beta in Q'.
        rewrite !nth_error_map, X1 in Q'. exact (f_equal (fun z => match z with Some (Some v) => v | _ => look L cur end) Q'). }
      unfold html_looks. rewrite Eo. unfold looks at 2. rewrite nth_error_map, X1. cbn [option_map].
      unfold looks at 1. rewrite X2, !map_app. rewrite <- firstn_map, <- skipn_map, (look_more L L' M T).
      cbn [map option_map]. rewrite !map_app, (html_read_looks _ _ _ Rd).
      f_equal. f_equal. f_equal; [|f_equal].
      * destruct (takes_place p bs its) eqn:Et; [|subst head; now rewrite Lc]. destruct Hd as (b & r & Eb & Hd). rewrite Eb. apply html_over_fmt in Hd.
        destruct Hd as [Hd Hf]. unfold look. now rewrite (read_look_ok _ _ _ Hd), Hf.
      * destruct (cut_off p bs its); [|easy]. destruct (takes_place p bs its); cbn [map option_map]; [reflexivity|now rewrite Lc].
Qed.

(** ** Restoring *)

Lemma restore_good X L its : good L its -> (d_next (l_doc L) <= d_next (l_doc X))%N -> more_lists L X -> lists_numbered X ->
  good (restore X L) its /\ looks (restore X L) = looks L.
Proof.
  intros [(ps & W & F & E) N T] Nx M NX. split; [constructor|reflexivity].
  - exists ps. split; [|split; [exact F|exact E]]. destruct W. constructor; try assumption. intros b Hb. cbn. specialize (wf_next b Hb). lia.
  - intros l Hl. cbn [restore l_next] in Hl. change (get_list (restore X L) l) with (get_list L l). destruct (get_list L l) as [e|] eqn:G; [|easy].
    apply M in G. rewrite NX in G by exact Hl. discriminate.
  - exact T.
Qed.

(** ** A run of insertions *)

Fixpoint looks_all (cs : list rcall) (its : list item) old :=
  match cs with [] => old | c :: rest => looks_all rest (after_insertion its c) (looks_after c its old) end.
Fixpoint paras_all (cs : list rcall) (its : list item) : Z :=
  match cs with [] => 0%Z | c :: rest => (paras_more c its + paras_all rest (after_insertion its c))%Z end.
Fixpoint chars_all (cs : list rcall) (its : list item) : Z :=
  match cs with [] => 0%Z | c :: rest => (chars_more c its + chars_all rest (after_insertion its c))%Z end.
Record comes_to (cs : list rcall) (its : list item) (L L' : ldoc) : Prop := {
  ct_good : good L' (after_insertions cs its);
  ct_next : (d_next (l_doc L) <= d_next (l_doc L'))%N;
  ct_lists : more_lists L L';
  ct_looks : looks L' = looks_all cs its (looks L);
  ct_paras : d_nblocks (l_doc L') = (d_nblocks (l_doc L) + paras_all cs its)%Z;
  ct_chars : d_chars (l_doc L') = (d_chars (l_doc L) + chars_all cs its)%Z
}.

Lemma redo_any m us rs r L0 L L' np : idle m -> get_stack m 1 = Some (us, One (mk_rcmd r L0) :: rs) ->
  execute L r = Ok (L', np) ->
  exists m', r_step (L, m) RRedo = Ok ((L', m'), true) /\ idle m' /\ get_stack m' 1 = Some (One (mk_rcmd r L) :: us, rs).
Proof.
  intros [O Lv Ow St] G E. cbn [r_step fst snd]. unfold m_redo. cbn [sid here]. rewrite G.
  unfold redo_entry. cbn [redo_each]. unfold redo_r. cbn [rc_req]. rewrite E. cbn [bind].
  eexists. split; [reflexivity|]. split; [constructor; [exact O|exact Lv|exact Ow|now rewrite get_set]|now rewrite get_set].
Qed.

Lemma comes_cons c cs its L L1 L' np : inserts c its -> execute L (request_of c) = Ok (L1, np) -> good L its ->
  comes_to cs (after_insertion its c) L1 L' -> comes_to (c :: cs) its L L'.
Proof.
  intros Hc E G [A1 A2 A3 A4 A5 A6]. destruct (step_ok L its c G Hc) as (L1' & np' & _ & _ & E' & _ & B2 & B3 & B4 & B5 & B6).
  rewrite E in E'. injection E' as <- _. constructor.
  - exact A1.
  - lia.
  - intros l e H. now apply A3, B3.
  - cbn [looks_all]. now rewrite A4, B4.
  - cbn [paras_all]. rewrite A5, B5. lia.
  - cbn [chars_all]. rewrite A6, B6. lia.
Qed.

Lemma insert_run cs : forall L m us rs its, idle m -> get_stack m 1 = Some (us, rs) -> good L its -> all_insert cs its ->
  Forall changes cs /\ exists L' m' es rs', r_run (L, m) cs = Ok ((L', m'), repeat true (length cs)) /\ idle m' /\ get_stack m' 1 = Some (es ++ us, rs')
   /\ comes_to cs its L L'
   /\ (forall K m2 rs2 us2, good K its -> idle m2 -> get_stack m2 1 = Some (us2, rev es ++ rs2) ->
        exists K' m3, r_run (K, m2) (repeat RRedo (length cs)) = Ok ((K', m3), repeat true (length cs)) /\ comes_to cs its K K').
Proof.
  induction cs as [|c cs IH]; intros L m us rs its I G Gd H.
  - split; [constructor|]. exists L, m, [], rs. split; [reflexivity|]. split; [exact I|]. split; [exact G|].
    assert (Z : forall K, good K its -> comes_to [] its K K).
    { intros K GK. constructor; [exact GK|lia|now intros l e|reflexivity|cbn; lia|cbn; lia]. }
    split; [now apply Z|]. intros K m2 rs2 us2 GK I2 G2. exists K, m2. split; [reflexivity|now apply Z].
  - cbn [all_insert] in H. destruct H as [Hc Hr]. destruct (step_ok L its c Gd Hc) as (L1 & np & S & Ch & E & G1 & _).
    destruct (perform (L, m) (request_of c)) as [[[L1' m1] o]| |] eqn:Ep; [|unfold perform in Ep; now rewrite E in Ep|unfold perform in Ep; now rewrite E in Ep].
    assert (Eo : L1' = L1 /\ o = Some np) by (unfold perform in Ep; rewrite E in Ep; injection Ep; auto). destruct Eo as [-> ->].
    destruct (perform_push _ _ _ _ _ _ _ _ I G Ep) as (I1 & St1 & _).
    destruct (IH L1 m1 _ _ _ I1 St1 G1 Hr) as (Fc & L' & m' & es & rs' & R & I' & St & Ct & Re).
    split; [now constructor|]. exists L', m', (es ++ [One (mk_rcmd (request_of c) L)]), rs'.
    split.
    { cbn [r_run length repeat]. rewrite S. unfold simply. rewrite Ep. cbn [bind]. rewrite R. reflexivity. }
    split; [exact I'|]. split; [now rewrite <- app_assoc|]. split; [now apply (comes_cons c cs its L L1 L' np)|].
    intros K m2 rs2 us2 GK I2 G2. rewrite rev_app_distr in G2. cbn [rev app] in G2.
    destruct (step_ok K its c GK Hc) as (K1 & kp & _ & _ & EK & GK1 & _).
    destruct (redo_any _ _ _ _ _ _ _ _ I2 G2 EK) as (m3 & RS & I3 & St3).
    destruct (Re K1 m3 rs2 _ GK1 I3 St3) as (K' & m4 & RR & CK).
    exists K', m4. split; [|now apply (comes_cons c cs its K K1 K' kp)].
    cbn [length repeat r_run]. rewrite RS. cbn [bind]. rewrite RR. reflexivity.
Qed.

Lemma good_items L its : good L its -> doc_items (l_doc L) = Ok its /\ fresh_positions (l_doc L).
Proof.
  intros [(ps & W & F & <-) _ _]. split; [exact (doc_items_wf _ _ W)|]. now apply (fresh_equiv _ _ W).
Qed.
Lemma exist_there L : lists_exist L -> lists_there L.
Proof. intros X l f H. apply in_map_iff in H. destruct H as (i & E & _). now apply (X i l f). Qed.

Lemma insertions_theorem L m its cs : idle m -> tidy (l_doc L) -> lists_numbered L -> lists_exist L -> doc_items (l_doc L) = Ok its -> all_insert cs its ->
  let n := length cs in
  exists s1 s2 s3, r_run (L, m) cs = Ok (s1, repeat true n)
   /\ doc_items (l_doc (fst s1)) = Ok (after_insertions cs its) /\ fresh_positions (l_doc (fst s1))
   /\ r_run s1 (repeat RUndo n) = Ok (s2, repeat true n) /\ same_rich (fst s2) L
   /\ r_run s2 (repeat RRedo n) = Ok (s3, repeat true n)
   /\ doc_items (l_doc (fst s3)) = Ok (after_insertions cs its) /\ fresh_positions (l_doc (fst s3))
   /\ looks (fst s3) = looks (fst s1) /\ d_nblocks (l_doc (fst s3)) = d_nblocks (l_doc (fst s1))
   /\ d_chars (l_doc (fst s3)) = d_chars (l_doc (fst s1)).
Proof.
  intros I T N X E H n. destruct (idle_stack_ex _ I) as (us & rs & G).
  assert (Gd : good L its).
  { destruct (tidy_facts _ T) as (_ & ps & W & F). rewrite (doc_items_wf _ _ W) in E. injection E as <-.
    constructor; [now exists ps|exact N|now apply exist_there]. }
  destruct (insert_run cs L m us rs its I G Gd H) as (Fc & L1 & m1 & es & rs1 & R & I1 & G1 & C1 & Re).
  destruct (run_push _ _ _ _ _ _ _ I G Fc R) as (_ & es' & rs' & G1' & _ & _ & _ & U).
  rewrite G1 in G1'. injection G1' as Ee <-. apply app_inv_tail in Ee. subst es'.
  destruct (U L1 m1 rs1 us I1 G1) as (m2 & L2 & RU & Z1 & Z2 & I2 & G2).
  assert (Back : good L2 its /\ looks L2 = looks L /\ same_rich L2 L).
  { destruct cs as [|c cs].
    - rewrite Z2 by easy. cbn in R. injection R as <- <-. split; [exact Gd|]. split; [easy|]. split; [constructor; reflexivity|reflexivity].
    - rewrite Z1 by easy. destruct (restore_good L1 L its Gd) as [B1 B2]; [apply C1|apply C1|apply (good_numbered _ _ (ct_good _ _ _ _ C1))|].
      split; [exact B1|]. split; [exact B2|apply same_restore]. }
  destruct Back as (GB & LB & SB).
  destruct (Re L2 m2 rs1 us GB I2 G2) as (K & m3 & RR & CK).
  exists (L1, m1), (L2, m2), (K, m3). cbn [fst].
  destruct (good_items _ _ (ct_good _ _ _ _ C1)) as [D1 F1]. destruct (good_items _ _ (ct_good _ _ _ _ CK)) as [D3 F3].
  repeat (split; [assumption|]). split; [|split].
  - rewrite (ct_looks _ _ _ _ CK), LB, (ct_looks _ _ _ _ C1). reflexivity.
  - rewrite (ct_paras _ _ _ _ CK), (ct_paras _ _ _ _ C1), (sd_nblocks _ _ (proj1 SB)). reflexivity.
  - rewrite (ct_chars _ _ _ _ CK), (ct_chars _ _ _ _ C1), (sd_chars _ _ (proj1 SB)). reflexivity.
Qed.
