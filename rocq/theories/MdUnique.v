(** A Markdown source has at most one reading. *)
From Coq Require Import Ascii String.
From Verif Require Import Base BaseFacts FormatRunsModel RopeModel DocModel DocSpec ListModel ListDocModel HistModel PropSpec EscapeSpec EscapeFacts ExportSpec MdSpec.

Lemma md_code k c : In (k, c) md_codes -> k = [92%N; c] /\ In c ascii_punctuation.
Proof. unfold md_codes. rewrite in_map_iff. intros (x & [= <- <-] & H). easy. Qed.
Lemma in_active c : In c md_active -> existsb (N.eqb c) md_active = true.
Proof. intros H. rewrite existsb_exists. exists c. now rewrite N.eqb_refl. Qed.
Definition stops (x : str) : Prop := match x with [] => True | c :: _ => In c md_active /\ c <> 92%N end.

(** Plain text ends at the first mark. *)
Lemma reads_stop e1 t1 : reads md_codes md_active e1 t1 -> forall e2 t2 x1 x2, reads md_codes md_active e2 t2 -> stops x1 -> stops x2 ->
  e1 ++ x1 = e2 ++ x2 -> e1 = e2 /\ t1 = t2 /\ x1 = x2.
Proof.
  assert (B : In 92%N md_active) by (cbn; tauto).
  induction 1 as [|c e t N H IH|k c e t K H IH]; intros e2 t2 x1 x2 H2 X1 X2 E.
  - destruct H2 as [|c' e' t' N' H'|k' c' e' t' K' H']; cbn in E; [easy|subst x1; destruct X1; contradiction|].
    apply md_code in K'. destruct K' as [-> _]. cbn in E. subst x1. now destruct X1.
  - destruct H2 as [|c' e' t' N' H'|k' c' e' t' K' H']; cbn in E; [subst x2; destruct X2; contradiction| |].
    + injection E as -> E. destruct (IH _ _ _ _ H' X1 X2 E) as (-> & -> & ->). easy.
    + apply md_code in K'. destruct K' as [-> _]. cbn in E. injection E as -> E. contradiction.
  - apply md_code in K. destruct K as [-> _]. cbn in E. destruct H2 as [|c' e' t' N' H'|k' c' e' t' K' H']; cbn in E.
    + subst x2. now destruct X2.
    + injection E as <- E. contradiction.
    + apply md_code in K'. destruct K' as [-> _]. cbn in E. injection E as -> E. destruct (IH _ _ _ _ H' X1 X2 E) as (-> & -> & ->). easy.
Qed.
Lemma first_split (c : char) a x : ~ In c a -> forall b y, ~ In c b -> a ++ c :: x = b ++ c :: y -> a = b /\ x = y.
Proof.
  intros Ha. induction a as [|d a IH]; intros [|d' b] y Hb E; cbn in E.
  - now injection E.
  - injection E as <- _. exfalso. apply Hb. now left.
  - injection E as -> _. exfalso. apply Ha. now left.
  - injection E as <- E. destruct (IH (fun H => Ha (or_intror H)) b y (fun H => Hb (or_intror H)) E) as [-> ->]. easy.
Qed.

(** Text that begins with a word character. *)
Lemma word_head e t : reads md_codes md_active e t -> ends word_char t -> exists c r, e = c :: r /\ word_char c.
Proof.
  intros H [(c & r & -> & W) _]. inversion H as [|c' e' t' N' H'|k' c' e' t' K' H']; subst; [eauto|].
  apply md_code in K'. destruct K' as [_ K]. exfalso. apply W. rewrite in_app_iff. now right.
Qed.
Lemma mark_head m k : mark m k -> exists c r, m = c :: r /\ In c md_active /\ c <> 92%N /\ In c [126; 42]%N.
Proof. intros []; cbn; eexists _, _; (split; [reflexivity|]); vm_compute; intuition discriminate. Qed.
Lemma not_word c : word_char c -> c <> 42%N /\ c <> 126%N /\ c <> 96%N.
Proof. intros W. repeat split; intros ->; apply W; vm_compute; tauto. Qed.

Lemma simple_unique x k t x' k' t' r r' : simple x k t -> simple x' k' t' -> x ++ r = x' ++ r' -> x = x' /\ k = k' /\ t = t' /\ r = r'.
Proof.
  intros [u Hu Nb _|m q e u Hm Hr Hw] [u' Hu' Nb' _|m' q' e' u' Hm' Hr' Hw'] E.
  - rewrite <- !app_assoc in E. injection E as E. change (txt "`" ++ r) with (96%N :: r) in E. change (txt "`" ++ r') with (96%N :: r') in E.
    apply first_split in E; [|easy|easy]. destruct E as [-> ->]. easy.
  - exfalso. destruct (mark_head _ _ Hm') as (c & s & -> & _ & _ & Hc). cbn in E. injection E as <- _. vm_compute in Hc. intuition discriminate.
  - exfalso. destruct (mark_head _ _ Hm) as (c & s & -> & _ & _ & Hc). cbn in E. injection E as -> _. vm_compute in Hc. intuition discriminate.
  - destruct (word_head _ _ Hr Hw) as (c & s & Ee & W). destruct (word_head _ _ Hr' Hw') as (c' & s' & Ee' & W').
    apply not_word in W. apply not_word in W'. rewrite <- !app_assoc in E.
    assert (Em : m = m' /\ q = q' /\ e ++ m ++ r = e' ++ m' ++ r').
    { destruct W as (W1 & W2 & _), W' as (W1' & W2' & _). subst e e'. clear Hr Hr' Hw Hw'.
      destruct Hm, Hm'; cbn in E; first [exfalso; congruence | split; [easy|]; split; [easy|]; cbn; congruence]. }
    destruct Em as (<- & <- & E'). destruct (mark_head _ _ Hm) as (d & s2 & Emm & A & B & _).
    assert (S1 : stops (m ++ r)) by (rewrite Emm; easy). assert (S2 : stops (m ++ r')) by (rewrite Emm; easy).
    destruct (reads_stop _ _ Hr _ _ _ _ Hr' S1 S2 E') as (-> & -> & E2). apply app_inv_head in E2. easy.
Qed.
Lemma simple_head x k t : simple x k t -> exists c r, x = c :: r /\ In c [96; 126; 42]%N.
Proof.
  intros [u Hu Nb _|m q e u Hm Hr Hw]; [eexists _, _; split; [reflexivity|now left]|].
  destruct (mark_head _ _ Hm) as (c & s & -> & _ & _ & Hc). eexists _, _. split; [reflexivity|now right].
Qed.
Lemma reads_head x t : reads md_codes md_active x t -> t <> [] -> exists c r, x = c :: r /\ ~ In c [96; 126; 42]%N.
Proof.
  intros [|c e u N H|k c e u K H] T; [easy| |].
  - exists c, e. split; [easy|]. intros Hc. apply N. cbn in Hc. destruct Hc as [<-|[<-|[<-|[]]]]; vm_compute; tauto.
  - apply md_code in K. destruct K as [-> _]. eexists _, _. split; [reflexivity|]. vm_compute. intuition discriminate.
Qed.
Lemma target_no h : Forall target_char h -> ~ In 41%N h.
Proof. rewrite Forall_forall. intros H Hc. apply (H _ Hc). vm_compute. tauto. Qed.

Lemma stops_close y : stops (txt "](" ++ y).
Proof. split; [vm_compute; tauto|discriminate]. Qed.
Theorem md_one_reading e l1 : md_inline e l1 -> forall l2, md_inline e l2 -> l1 = l2.
Proof.
  assert (B : In 92%N md_active) by (cbn; tauto). assert (B1 : In 91%N md_active) by (vm_compute; tauto).
  assert (M : forall c, In c [96; 126; 42]%N -> In c md_active /\ c <> 92%N /\ c <> 91%N).
  { intros c Hc. vm_compute in Hc. destruct Hc as [<-|[<-|[<-|[]]]]; vm_compute; intuition discriminate. }
  induction 1 as [|c e l N N2 H IH|c e l P H IH|x k t e l Hs Ha H IH|x t h e l Hr Ht Hn Hh H IH|x k t h e l Hs Hh H IH]; intros l2 H2.
  - remember [] as z eqn:Z. destruct H2 as [|c' e' l' N' N2' H'|c' e' l' P' H'|x' k' t' e' l' Hs' Ha' H'|x' t' h' e' l' Hr' Ht' Hn' Hh' H'|x' k' t' h' e' l' Hs' Hh' H']; try discriminate; [easy|].
    destruct (simple_head _ _ _ Hs') as (d & r & -> & _). discriminate.
  - remember (c :: e) as z eqn:Z. destruct H2 as [|c' e' l' N' N2' H'|c' e' l' P' H'|x' k' t' e' l' Hs' Ha' H'|x' t' h' e' l' Hr' Ht' Hn' Hh' H'|x' k' t' h' e' l' Hs' Hh' H']; try discriminate.
    + injection Z as Z0 Z1; subst. f_equal. auto.
    + injection Z as Z0 _; subst. contradiction.
    + destruct (simple_head _ _ _ Hs') as (d & r & -> & Hd). injection Z as Z0 _; subst. destruct (M _ Hd) as [? _]. contradiction.
    + injection Z as Z0 _; subst. contradiction.
    + injection Z as Z0 _; subst. contradiction.
  - remember (92%N :: c :: e) as z eqn:Z. destruct H2 as [|c' e' l' N' N2' H'|c' e' l' P' H'|x' k' t' e' l' Hs' Ha' H'|x' t' h' e' l' Hr' Ht' Hn' Hh' H'|x' k' t' h' e' l' Hs' Hh' H']; try discriminate.
    + injection Z as Z0 _; subst. contradiction.
    + injection Z as Z0 Z1; subst. f_equal. auto.
    + destruct (simple_head _ _ _ Hs') as (d & r & -> & Hd). injection Z as Z0 _; subst. now destruct (M _ Hd) as (_ & ? & _).
  - remember (x ++ e) as z eqn:Z. destruct (simple_head _ _ _ Hs) as (d & r & Ex & Hd). destruct (M _ Hd) as (A1 & A2 & A3).
    destruct H2 as [|c' e' l' N' N2' H'|c' e' l' P' H'|x' k' t' e' l' Hs' Ha' H'|x' t' h' e' l' Hr' Ht' Hn' Hh' H'|x' k' t' h' e' l' Hs' Hh' H'].
    + now rewrite Ex in Z.
    + exfalso; rewrite Ex in Z; cbn in Z; injection Z as Z0 Z1; rewrite Z0 in *; contradiction.
    + exfalso; rewrite Ex in Z; cbn in Z; congruence.
    + destruct (simple_unique _ _ _ _ _ _ _ _ Hs Hs' (eq_sym Z)) as (<- & <- & <- & <-). f_equal. auto.
    + exfalso; rewrite Ex in Z; cbn in Z; congruence.
    + exfalso; rewrite Ex in Z; cbn in Z; congruence.
  - remember (txt "[" ++ x ++ txt "](" ++ h ++ txt ")" ++ e) as z eqn:Z.
    destruct H2 as [|c' e' l' N' N2' H'|c' e' l' P' H'|x' k' t' e' l' Hs' Ha' H'|x' t' h' e' l' Hr' Ht' Hn' Hh' H'|x' k' t' h' e' l' Hs' Hh' H']; try discriminate.
    + injection Z as Z0 _; subst. contradiction.
    + destruct (simple_head _ _ _ Hs') as (d & r & -> & Hd). injection Z as Z0 _; subst. now destruct (M _ Hd) as (_ & _ & ?).
    + injection Z as Z. destruct (reads_stop _ _ Hr' _ _ _ _ Hr (stops_close _) (stops_close _) Z) as (-> & -> & Z2).
      injection Z2 as Z2. apply first_split in Z2; [|now apply target_no|now apply target_no]. destruct Z2 as [-> ->]. f_equal. auto.
    + exfalso. injection Z as Z. destruct (simple_head _ _ _ Hs') as (d & r & -> & Hd). destruct (reads_head _ _ Hr Ht) as (d' & r' & -> & Hd'). injection Z as Z0 _; subst. contradiction.
  - remember (txt "[" ++ x ++ txt "](" ++ h ++ txt ")" ++ e) as z eqn:Z.
    destruct H2 as [|c' e' l' N' N2' H'|c' e' l' P' H'|x' k' t' e' l' Hs' Ha' H'|x' t' h' e' l' Hr' Ht' Hn' Hh' H'|x' k' t' h' e' l' Hs' Hh' H']; try discriminate.
    + injection Z as Z0 _; subst. contradiction.
    + destruct (simple_head _ _ _ Hs') as (d & r & -> & Hd). injection Z as Z0 _; subst. now destruct (M _ Hd) as (_ & _ & ?).
    + exfalso. injection Z as Z. destruct (simple_head _ _ _ Hs) as (d & r & -> & Hd). destruct (reads_head _ _ Hr' Ht') as (d' & r' & -> & Hd'). injection Z as Z0 _; subst. contradiction.
    + injection Z as Z. destruct (simple_unique _ _ _ _ _ _ _ _ Hs Hs' (eq_sym Z)) as (<- & <- & <- & Z2).
      injection Z2 as Z2. apply first_split in Z2; [|now apply target_no|now apply target_no]. destruct Z2 as [-> ->]. f_equal. auto.
Qed.

Lemma md_shows_unique s r1 r2 : md_shows s r1 -> md_shows s r2 -> r1 = r2.
Proof.
  intros (bs & E & F) (bs' & E' & F'). rewrite E in E'. injection E' as <-. clear E. revert r2 F'.
  induction F as [|[k x] [k1 l1] bs r1 [H1 H2] F IH]; intros r2 F'; inversion F' as [|? [k2 l2] ? r2' [H1' H2'] F2]; subst; [easy|].
  cbn in *. subst. f_equal; [|auto]. f_equal. destruct k2; try (now apply (md_one_reading x)); now subst.
Qed.
