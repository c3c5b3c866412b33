(** How the lines of an exported source are read. *)
From Coq Require Import Ascii String.
From Verif Require Import Base BaseFacts FormatRunsModel RopeModel DocModel DocSpec ListModel ListSpec ListFacts ListDocModel HistModel PropSpec EscapeSpec EscapeFacts
  ExportSpec MdSpec MdUnique.

(** ** Lines *)
Lemma lines_ne s : lines_of s <> [].
Proof. destruct s as [|c s]; [discriminate|]. cbn. destruct (lines_of s); [discriminate|]. now destruct (c =? 10)%N. Qed.
Lemma lines_app a b : lines_of (a ++ 10%N :: b) = lines_of a ++ lines_of b.
Proof.
  induction a as [|c a IH].
  - cbn. pose proof (lines_ne b). now destruct (lines_of b).
  - cbn [app lines_of]. rewrite IH. pose proof (lines_ne a) as Ha. destruct (lines_of a) as [|x l] eqn:E; [easy|]. cbn [app]. now destruct (c =? 10)%N.
Qed.
Lemma lines_one a : ~ In 10%N a -> lines_of a = [a].
Proof.
  induction a as [|c a IH]; intros H; [easy|]. cbn [lines_of]. rewrite IH by (intros Hi; apply H; now right).
  destruct (N.eqb_spec c 10); [subst; exfalso; apply H; now left|easy].
Qed.
Lemma lines_join s : join_lines (lines_of s) = s.
Proof.
  induction s as [|c s IH]; [easy|]. cbn [lines_of]. pose proof (lines_ne s) as Hs. destruct (lines_of s) as [|l ls] eqn:E; [easy|].
  destruct (N.eqb_spec c 10) as [->|Hc].
  - cbn [join_lines app]. f_equal. exact IH.
  - rewrite <- IH. now destruct ls.
Qed.
Lemma lines_in s l c : In l (lines_of s) -> In c l -> In c s.
Proof.
  revert l. induction s as [|d s IH]; intros l Hl Hc; cbn in Hl.
  - destruct Hl as [<-|[]]. easy.
  - pose proof (lines_ne s) as Hs. destruct (lines_of s) as [|x ls]; [easy|]. destruct (d =? 10)%N.
    + destruct Hl as [<-|Hl]; [easy|]. right. eapply IH; eauto.
    + destruct Hl as [<-|Hl].
      * destruct Hc as [->|Hc]; [now left|right]. apply (IH x); [now left|easy].
      * right. apply (IH l); [now right|easy].
Qed.

(** ** Trimming *)
Lemma drop_head c r : not_space c -> drop_spaces (c :: r) = c :: r.
Proof. unfold not_space. intros H. cbn. now rewrite H. Qed.
Lemma trim_ends e : ends not_space e -> trim e = e.
Proof.
  intros [(c & r & E & Hc) (c' & r' & E' & Hc')]. unfold trim. rewrite E at 1. rewrite (drop_head c r Hc), <- E. rewrite E' at 1.
  rewrite rev_app_distr. cbn [rev app]. rewrite (drop_head c' _ Hc'). change (c' :: rev r') with ([c'] ++ rev r').
  rewrite rev_app_distr, rev_involutive. now rewrite E'.
Qed.
Lemma trim_space e : ends not_space e -> trim (32%N :: e) = e.
Proof. intros H. unfold trim. cbn [drop_spaces space N.eqb orb]. change (32 =? 32)%N with true. cbn. now apply trim_ends. Qed.
Lemma ends_app p e : (exists c r, p = c :: r /\ not_space c) -> ends not_space e -> ends not_space (p ++ e).
Proof. intros (c & r & -> & Hc) [_ (c' & r' & -> & Hc')]. split; [cbn; eauto|]. exists c', ((c :: r) ++ r'). now rewrite app_assoc. Qed.
Lemma leading_ends e : ends not_space e -> leading_spaces e = 0.
Proof. intros [(c & r & -> & Hc) _]. unfold leading_spaces. rewrite (drop_head c r Hc). lia. Qed.
Lemma blank_ends e : ends not_space e -> blank e = false.
Proof. intros [(c & r & -> & Hc) _]. unfold blank. cbn. unfold not_space in Hc. now rewrite Hc. Qed.

(** ** The first characters of a paragraph *)
Lemma inline_head c r l : md_inline (c :: r) l ->
  ~ In c md_active \/ c = 92%N \/ c = 91%N
  \/ (c = 96%N /\ exists d s, r = d :: s /\ d <> 96%N)
  \/ (c = 126%N /\ exists d s, r = 126%N :: d :: s /\ d <> 126%N)
  \/ (c = 42%N /\ exists d s, r = d :: s /\ space d = false).
Proof.
  intros H. remember (c :: r) as z eqn:Z. destruct H as [|c' e l N N2 H|c' e l P H|x k t e l Hs Ha H|x t h e l Hr Ht Hn Hf H|x k t h e l Hs Hf H]; try discriminate.
  - injection Z as -> ->. now left.
  - injection Z as <- _. tauto.
  - right; right; right. destruct Hs as [u Hu Nb _|m q e' u Hm Hr Hw].
    + left. cbn in Z. injection Z as <- <-. split; [easy|]. destruct Hu as [(d & s & -> & _) _]. cbn. exists d, ((s ++ [96%N]) ++ e). split; [easy|].
      intros ->. apply Nb. now left.
    + right. destruct (word_head _ _ Hr Hw) as (d & s & -> & W). pose proof (not_word d W) as (W1 & W2 & W3).
      assert (Sd : space d = false).
      { unfold space. destruct (N.eqb_spec d 32); [subst; exfalso; apply W; vm_compute; tauto|]. destruct (N.eqb_spec d 9); [subst; exfalso; apply W; vm_compute; tauto|easy]. }
      destruct Hm; cbn in Z; injection Z as <- <-; [left; split; [easy|]; eauto| | |]; right; (split; [easy|]); eexists _, _; (split; [reflexivity|]); easy.
  - injection Z as <- _. tauto.
  - injection Z as <- _. tauto.
Qed.
Lemma inline_digit c r l : md_inline (c :: r) l -> (48 <= c <= 57)%N -> exists l', md_inline r l'.
Proof.
  intros H D. remember (c :: r) as z eqn:Z. destruct H as [|c' e l N N2 H|c' e l P H|x k t e l Hs Ha H|x t h e l Hr Ht Hn Hf H|x k t h e l Hs Hf H]; try discriminate.
  - injection Z as -> ->. eauto.
  - injection Z as <- _. lia.
  - destruct (simple_head _ _ _ Hs) as (d & s & -> & Hd). injection Z as -> _. cbn in Hd. destruct Hd as [<-|[<-|[<-|[]]]]; lia.
  - injection Z as <- _. lia.
  - injection Z as <- _. lia.
Qed.
Lemma inline_digits e : forall l, md_inline e l -> forall c r, drop_digits e = c :: r -> exists l', md_inline (c :: r) l'.
Proof.
  induction e as [|d e IH]; intros l H c r E; [discriminate|]. cbn in E. destruct ((48 <=? d) && (d <=? 57))%N eqn:D.
  - apply andb_prop in D. destruct D as [D1 D2]. apply N.leb_le in D1, D2. destruct (inline_digit d e l H) as (l' & H'); [lia|]. eapply IH; eauto.
  - injection E as -> ->. eauto.
Qed.
Lemma head_not c r l x : md_inline (c :: r) l -> In x [35; 43; 45; 46; 41; 60; 62]%N -> c <> x.
Proof.
  intros H Hx ->. apply inline_head in H. destruct H as [H|[H|[H|[[H _]|[[H _]|[H _]]]]]]; [apply H|..];
    cbn in Hx; destruct Hx as [<-|[<-|[<-|[<-|[<-|[<-|[<-|[]]]]]]]]; try discriminate; vm_compute; tauto.
Qed.
Lemma para_line e l : md_inline e l -> ends not_space e -> line_block e = Some (Para [], e).
Proof.
  intros H En. unfold line_block. rewrite (leading_ends e En). cbn [Nat.leb]. cbv zeta. rewrite (trim_ends e En).
  assert (Hh : hashes e = 0).
  { destruct e as [|c e]; [easy|]. cbn. destruct (N.eqb_spec c 35); [|easy]. exfalso. now apply (head_not c e l 35%N H); [cbn; tauto|]. }
  rewrite Hh. cbn [Nat.leb andb].
  assert (D : forall c r, drop_digits e = c :: r -> ((c =? 46) || (c =? 41))%N = false).
  { intros c r Ed. destruct (inline_digits e l H c r Ed) as (l' & H'). destruct (N.eqb_spec c 46) as [->|].
    - exfalso. apply (head_not _ _ _ 46%N H'); [cbn; tauto|easy].
    - destruct (N.eqb_spec c 41) as [->|]; [|easy]. exfalso. apply (head_not _ _ _ 41%N H'); [cbn; tauto|easy]. }
  destruct (drop_digits e) as [|c [|d r]] eqn:Ed; [easy|easy|]. rewrite (D _ _ eq_refl), andb_false_r. cbn [andb].
  destruct e as [|c1 [|d1 r1]]; [easy|easy|].
  destruct (N.eqb_spec c1 45) as [->|_]; [exfalso; apply (head_not _ _ _ 45%N H); [cbn; tauto|easy]|].
  destruct (N.eqb_spec c1 43) as [->|_]; [exfalso; apply (head_not _ _ _ 43%N H); [cbn; tauto|easy]|].
  destruct (N.eqb_spec c1 62) as [->|_]; [exfalso; apply (head_not _ _ _ 62%N H); [cbn; tauto|easy]|].
  destruct (N.eqb_spec c1 60) as [->|_]; [exfalso; apply (head_not _ _ _ 60%N H); [cbn; tauto|easy]|]. cbn [orb].
  apply inline_head in H. destruct (N.eqb_spec c1 42) as [->|_].
  - destruct H as [H|[H|[H|[[H _]|[[H _]|(_ & d' & s & E & S)]]]]]; try discriminate; [exfalso; apply H; vm_compute; tauto|]. injection E as -> ->. now rewrite S.
  - cbn [andb]. destruct (N.eqb_spec c1 126) as [->|_]; [|easy].
    destruct H as [H|[H|[H|[[H _]|[(_ & d' & s & E & S)|[H _]]]]]]; try discriminate; [exfalso; apply H; vm_compute; tauto|]. injection E as -> ->. cbn [hd andb].
    apply N.eqb_neq in S. now rewrite S.
Qed.
Lemma para_no_fence e l : md_inline e l -> fence e = false.
Proof.
  intros H. unfold fence. destruct (list_eq_dec N.eq_dec _ _) as [E|]; [|easy]. exfalso. destruct e as [|a [|b [|c e]]]; try discriminate. cbn in E. injection E as -> -> ->.
  apply inline_head in H. destruct H as [H|[H|[H|[(_ & d & s & E & S)|[[H _]|[H _]]]]]]; try discriminate; [apply H; vm_compute; tauto|]. injection E as <- _. easy.
Qed.

(** ** Headings and items *)
Lemma hashes_repeat n e : (forall c r, e = c :: r -> c <> 35%N) -> hashes (repeat 35%N n ++ e) = n.
Proof. intros H. induction n as [|n IH]; cbn; [destruct e as [|c e]; [easy|]; cbn; destruct (N.eqb_spec c 35); [now exfalso; apply (H c e)|easy]|now rewrite IH]. Qed.
Lemma heading_line n e : 1 <= n <= 6 -> ends not_space e -> line_block (repeat 35%N n ++ 32%N :: e) = Some (Head (N.of_nat n) [], e)
  /\ ends not_space (repeat 35%N n ++ 32%N :: e) /\ fence (repeat 35%N n ++ 32%N :: e) = false.
Proof.
  intros Hn En. assert (Ea : ends not_space (repeat 35%N n ++ 32%N :: e)).
  { replace (repeat 35%N n ++ 32%N :: e) with ((repeat 35%N n ++ [32%N]) ++ e) by now rewrite <- app_assoc. apply ends_app; [|easy].
    destruct n as [|n]; [lia|]. cbn. eexists _, _. split; [reflexivity|easy]. }
  split; [|split; [easy|]].
  - unfold line_block. rewrite (leading_ends _ Ea). cbn [Nat.leb]. cbv zeta. rewrite (trim_ends _ Ea), hashes_repeat by (intros c r E; injection E as <- _; easy).
    replace (1 <=? n) with true by (symmetry; apply Nat.leb_le; lia). replace (n <=? 6) with true by (symmetry; apply Nat.leb_le; lia). cbn [andb].
    assert (Es : forall A (x : A) l, skipn n (repeat x n ++ l) = l) by (intros A x l; rewrite skipn_app, repeat_length, Nat.sub_diag, skipn_all2 by (rewrite repeat_length; lia); easy).
    rewrite Es. change (space 32%N) with true. cbv iota. rewrite (trim_space e En). destruct n as [|n]; [lia|]. reflexivity.
  - unfold fence. destruct (list_eq_dec N.eq_dec _ _) as [E|]; [|easy]. destruct n as [|n]; [lia|]. discriminate.
Qed.
Definition spaces (k : nat) : str := repeat 32%N k.
Lemma drop_spaces_app k e : ends not_space e -> drop_spaces (spaces k ++ e) = e.
Proof. intros [(c & r & -> & Hc) _]. induction k as [|k IH]; cbn; [unfold not_space in Hc; now rewrite Hc|exact IH]. Qed.
Lemma trim_spaces k e : ends not_space e -> trim (spaces k ++ e) = e.
Proof. intros H. unfold trim. rewrite (drop_spaces_app k e H). rewrite <- (trim_ends e H) at 2. unfold trim. destruct H as [(c & r & -> & Hc) _]. now rewrite (drop_head c r Hc). Qed.
Lemma leading_app k e : ends not_space e -> leading_spaces (spaces k ++ e) = k.
Proof. intros H. unfold leading_spaces. rewrite (drop_spaces_app k e H), app_length. unfold spaces. rewrite repeat_length. lia. Qed.
Lemma blank_app k e : ends not_space e -> blank (spaces k ++ e) = false.
Proof. intros H. unfold blank. rewrite forallb_app. fold (blank e). rewrite (blank_ends e H). apply andb_false_r. Qed.
Lemma fence_app k e : (k = 0 -> fence e = false) -> fence (spaces k ++ e) = false.
Proof. intros H. destruct k as [|k]; [now apply H|]. unfold fence. destruct (list_eq_dec N.eq_dec _ _) as [E|]; [|easy]. discriminate. Qed.
Lemma bullet_line k e : k < 4 -> ends not_space e -> line_block (spaces k ++ txt "- " ++ e) = Some (Item false, e).
Proof.
  intros Hk En. assert (Ea : ends not_space (txt "- " ++ e)) by (apply ends_app; [eexists _, _; split; [reflexivity|easy]|easy]).
  unfold line_block. rewrite (leading_app k _ Ea). replace (4 <=? k) with false by (symmetry; apply Nat.leb_gt; lia). cbv zeta. rewrite (trim_spaces k _ Ea).
  change (txt "- " ++ e) with (45%N :: 32%N :: e). cbn [hashes N.eqb]. change (45 =? 35)%N with false. cbv iota. cbn [Nat.leb andb drop_digits].
  change ((48 <=? 45) && (45 <=? 57))%N with false. cbv iota. rewrite Nat.ltb_irrefl. cbn [andb]. change (45 =? 45)%N with true. cbn [orb andb]. change (space 32%N) with true. cbv iota.
  now rewrite (trim_ends e En).
Qed.
Lemma digits_drop ds e : Forall digit ds -> (forall c r, e = c :: r -> ~ digit c) -> drop_digits (ds ++ e) = e.
Proof.
  intros F He. induction F as [|d ds Hd F IH]; cbn.
  - destruct e as [|c e]; [easy|]. cbn. specialize (He c e eq_refl). unfold digit in He. destruct ((48 <=? c) && (c <=? 57))%N eqn:D; [|easy].
    apply andb_prop in D. destruct D as [D1 D2]. apply N.leb_le in D1, D2. lia.
  - unfold digit in Hd. replace ((48 <=? d) && (d <=? 57))%N with true; [exact IH|]. symmetry. apply andb_true_intro. rewrite !N.leb_le. lia.
Qed.
Lemma number_line k n e : k < 4 -> ends not_space e -> line_block (spaces k ++ decimal n ++ txt ". " ++ e) = Some (Item true, e)
  /\ ends not_space (decimal n ++ txt ". " ++ e) /\ fence (decimal n ++ txt ". " ++ e) = false /\ ~ In 10%N (decimal n).
Proof.
  intros Hk En. destruct (decimal_good n) as (_ & D & Ne). destruct (decimal n) as [|c0 ds] eqn:E0; [easy|]. rewrite <- E0 in *. clear Ne.
  assert (Dc : digit c0) by (rewrite E0 in D; now inversion D). unfold digit in Dc.
  assert (Ea : ends not_space (decimal n ++ txt ". " ++ e)).
  { rewrite app_assoc. apply ends_app; [|easy]. rewrite E0. cbn. eexists _, _. split; [reflexivity|]. unfold not_space, space.
    destruct (N.eqb_spec c0 32); [lia|]. destruct (N.eqb_spec c0 9); [lia|easy]. }
  split; [|split; [easy|split]].
  - unfold line_block. rewrite (leading_app k _ Ea). replace (4 <=? k) with false by (symmetry; apply Nat.leb_gt; lia). cbv zeta. rewrite (trim_spaces k _ Ea).
    assert (Hh : hashes (decimal n ++ txt ". " ++ e) = 0) by (rewrite E0; cbn; destruct (N.eqb_spec c0 35); [lia|easy]). rewrite Hh. cbn [Nat.leb andb].
    rewrite (digits_drop (decimal n) (txt ". " ++ e) D) by (intros c r E; injection E as <- _; unfold digit; lia).
    change (txt ". " ++ e) with (46%N :: 32%N :: e). cbv iota beta. change (46 =? 46)%N with true. change (space 32%N) with true. cbn [orb].
    match goal with |- context [?a <? ?b] => replace (a <? b) with true end; [cbn [andb]; now rewrite (trim_ends e En)|].
    symmetry. apply Nat.ltb_lt. rewrite app_length, E0. cbn. lia.
  - unfold fence. destruct (list_eq_dec N.eq_dec _ _) as [E|]; [|easy]. rewrite E0 in E. cbn in E. injection E as E _. lia.
  - intros Hi. rewrite Forall_forall in D. specialize (D _ Hi). unfold digit in D. lia.
Qed.

(** ** Blocks of a source *)
Definition fresh_tail (t : list str) : Prop := t = [] \/ exists u, t = [] :: u.
Definition open_place (p : place) : Prop := p = Start \/ p = InList.
Definition reads_line (line : str) (b : kind * str) : Prop :=
  forall p t, open_place p -> fresh_tail t -> exists q, open_place q /\ md_lines None p (lines_of line ++ t) = add_block (Some b) (md_lines None q t).
Lemma fresh_any p t : fresh_tail t -> exists q, open_place q /\ md_lines None p t = md_lines None q t.
Proof. intros [->|(u & ->)]; [exists Start; split; [now left|easy]|]. exists (after_blank p). split; [destruct p; cbv; auto|]. cbn. now destruct p. Qed.
Lemma place_line p l b x t : ~ In 10%N l -> blank l = false -> fence l = false -> line_block l = Some (b, x) -> fits p l b = true ->
  md_lines None p (lines_of l ++ t) = add_block (Some (b, x)) (md_lines None (if is_item b then BelowItem else Below) t).
Proof. intros Hn Hb Hf Hl Hp. rewrite (lines_one l Hn). cbn [app md_lines]. now rewrite Hb, Hf, Hl, Hp. Qed.
Lemma one_line l b x : ~ In 10%N l -> blank l = false -> fence l = false -> line_block l = Some (b, x) -> is_item b = true \/ leading_spaces l <= 1 -> reads_line l (b, x).
Proof.
  intros Hn Hb Hf Hl Hi p t Hp Ht. rewrite (place_line p l b x t Hn Hb Hf Hl).
  - destruct (fresh_any (if is_item b then BelowItem else Below) t Ht) as (q & Hq & ->). eauto.
  - destruct Hp as [-> | ->]; [easy|]. cbn. destruct Hi as [-> |Hi]; [easy|]. apply Nat.leb_le in Hi. rewrite Hi. apply orb_true_r.
Qed.
Lemma code_lines info p ls : (forall l, In l ls -> ~ In 96%N l) -> forall acc t,
  md_lines (Some (info, acc)) p (ls ++ t) = md_lines (Some (info, acc ++ ls)) p t.
Proof.
  induction ls as [|l ls IH]; intros H acc t; cbn [app]; [now rewrite app_nil_r|]. cbn [md_lines].
  assert (F : fence l = false).
  { unfold fence. destruct (list_eq_dec N.eq_dec _ _) as [E|]; [|easy]. exfalso. apply (H l); [now left|]. destruct l as [|c l]; [discriminate|]. cbn in E. injection E as -> _. now left. }
  rewrite F. cbn [andb]. rewrite IH by (intros x Hx; apply H; now right). now rewrite <- app_assoc.
Qed.
Lemma code_block info raw : ~ In 10%N info -> ~ In 96%N info -> ~ In 96%N raw ->
  reads_line (txt "```" ++ info ++ [10%N] ++ raw ++ [10%N] ++ txt "```") (Code (language info), raw).
Proof.
  intros H1 H2 H3 p t Hp Ht. exists Start. split; [now left|].
  replace (txt "```" ++ info ++ [10%N] ++ raw ++ [10%N] ++ txt "```") with ((txt "```" ++ info) ++ 10%N :: raw ++ 10%N :: txt "```") by now rewrite <- app_assoc.
  rewrite !lines_app. rewrite (lines_one (txt "```" ++ info)) by (cbn; intros [H|[H|[H|H]]]; [discriminate|discriminate|discriminate|easy]).
  rewrite <- !app_assoc. cbn [app]. change (lines_of (txt "```")) with [txt "```"]. cbn [md_lines]. change (blank (txt "```" ++ info)) with false. cbv iota.
  change (fence (txt "```" ++ info)) with true. cbv iota. change (skipn 3 (txt "```" ++ info)) with info.
  replace (existsb (N.eqb 96) info) with false.
  2:{ symmetry. apply Bool.not_true_is_false. rewrite existsb_exists. intros (x & Hx & E). apply N.eqb_eq in E. now subst. }
  cbv iota. rewrite code_lines by (intros l Hl Hc; apply H3; eapply lines_in; eauto). cbn [app md_lines]. change (fence (txt "```")) with true. cbn [andb].
  change (forallb (fun c => space c || (c =? 96)%N) (txt "```")) with true. cbv iota. now rewrite lines_join.
Qed.

(** Lines and what separates them. *)
Lemma md_blank_lines p n s : open_place p -> md_lines None p (lines_of (repeat 10%N n ++ s)) = md_lines None p (lines_of s).
Proof.
  intros Hp. induction n as [|n IH]; [easy|]. cbn [repeat app]. change (10%N :: repeat 10%N n ++ s) with ([] ++ 10%N :: repeat 10%N n ++ s). rewrite lines_app.
  rewrite <- IH. cbn. now destruct Hp as [-> | ->].
Qed.
Definition read_from (s : str) (bs : list (kind * str)) : Prop := forall p, open_place p -> md_lines None p (lines_of s) = Some bs.
Lemma read_more line b n s bs : reads_line line b -> read_from s bs -> read_from (line ++ repeat 10%N (S (S n)) ++ s) (b :: bs).
Proof.
  intros H E p Hp. cbn [repeat app]. rewrite lines_app.
  change (10%N :: repeat 10%N n ++ s) with ([] ++ 10%N :: repeat 10%N n ++ s). rewrite lines_app.
  match goal with |- md_lines None p (lines_of line ++ ?t) = _ => destruct (H p t Hp) as (q & Hq & ->) end; [right; eexists; reflexivity|].
  cbn [lines_of app md_lines blank forallb]. replace (after_blank q) with q by now destruct Hq as [-> | ->]. rewrite md_blank_lines, (E q) by easy. easy.
Qed.
Lemma read_last line b : reads_line line b -> read_from line [b].
Proof. intros H p Hp. rewrite <- (app_nil_r (lines_of line)). destruct (H p [] Hp) as (q & _ & ->); [now left|easy]. Qed.
