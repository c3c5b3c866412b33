(** Documents whose Markdown shows something else. *)
From Coq Require Import Ascii String.
From Verif Require Import Base BaseFacts FormatRunsModel FormatRunsSpec RopeModel DocModel DocSpec HistModel QueryModel PropSpec DocTheorems DocRefuted
  ListModel ListDocModel ListDocSpec ListDocFacts FragmentModel FragmentRefuted EscapeModel EscapeSpec ExportModel ExportSpec ExportRefuted ExportTheorems MdModel MdSpec MdUnique MdExport.

Definition typed (s : str) : ldoc := no_lists (import_plain_text new_document s).
Lemma typed_lreach s : lreach (typed s).
Proof. apply no_lists_lreach, reach_import, reach_new. Qed.
(** A document of one paragraph [s] in format [f]. *)
Definition formatted (s : str) (f : cfmt) : doc := match insert_formatted_simple new_document 0 s f with Ok (d, _, _) => d | _ => new_document end.
Lemma formatted_reach s f : s <> [] -> reach (formatted s f).
Proof.
  intros H. unfold formatted. destruct (insert_formatted_simple new_document 0 s f) as [[[d p] x]| |] eqn:E; [|apply reach_new|apply reach_new].
  eapply (reach_insert_fmt new_document 0 s f); [apply reach_new|easy|lia|exact E].
Qed.
Definition code_font : cfmt := mk_cfmt (Some (txt "monospace")) None None None None None None None None None None [] None None None None.
Definition target (h : str) : cfmt := mk_cfmt None None None None None None None None None None (Some h) [] (Some true) None None None.
Definition bold_font : cfmt := mk_cfmt None None None (Some true) None None None None None None None [] None None None None.

(** "`a`" as typed and "a" as code. *)
Lemma md_backquote_w : exists L1 L2, lreach L1 /\ lreach L2
  /\ doc_items (l_doc L1) = Ok (map (fun c => Chr c cfmt_default) (txt "`a`")) /\ doc_items (l_doc L2) = Ok [Chr 97%N code_font]
  /\ export_markdown L1 = export_markdown L2.
Proof.
  exists (typed (txt "`a`")), (no_lists (formatted (txt "a") code_font)). split; [apply typed_lreach|].
  split; [apply no_lists_lreach, formatted_reach; discriminate|]. do 2 (split; [vm_compute; reflexivity|]). vm_compute. reflexivity.
Qed.
(** One link with a target of the form x)[b](y and two links. *)
Definition two_links : doc :=
  match insert_formatted_simple (formatted (txt "a") (target (txt "x"))) 1 (txt "b") (target (txt "y")) with Ok (d, _, _) => d | _ => new_document end.
Lemma two_links_reach : reach two_links.
Proof.
  eapply (reach_insert_fmt (formatted (txt "a") (target (txt "x"))) 1 (txt "b") (target (txt "y"))); [apply formatted_reach; discriminate|discriminate|lia|vm_compute; reflexivity].
Qed.
Lemma md_target_w : exists L1 L2, lreach L1 /\ lreach L2
  /\ doc_items (l_doc L1) = Ok [Chr 97%N (target (txt "x)[b](y"))]
  /\ doc_items (l_doc L2) = Ok [Chr 97%N (target (txt "x")); Chr 98%N (target (txt "y"))]
  /\ export_markdown L1 = export_markdown L2.
Proof.
  exists (no_lists (formatted (txt "a") (target (txt "x)[b](y")))), (no_lists two_links). split; [apply no_lists_lreach, formatted_reach; discriminate|].
  split; [apply no_lists_lreach, two_links_reach|]. do 2 (split; [vm_compute; reflexivity|]). vm_compute. reflexivity.
Qed.
(** A numbered list around a plain paragraph starts again after it. *)
Definition leave (k : nat) (L : ldoc) : ldoc := match nth_error (d_order (l_doc L)) k with
  | Some i => match remove_block_from_list L i with Ok L' => L' | _ => L end | None => L end.
Lemma leave_lreach k L : lreach L -> lreach (leave k L).
Proof. intros H. unfold leave. destruct (nth_error _ _) as [i|]; [|easy]. destruct (remove_block_from_list L i) as [L'| |] eqn:E; [|easy|easy]. eapply lreach_leave; eauto. Qed.
Definition three_paras : ldoc := typed (txt "a" ++ [10%N] ++ txt "b" ++ [10%N] ++ txt "c").
Definition one_to_two : ldoc := leave 1 (with_list 0 4 Decimal three_paras).
Definition one_to_one : ldoc := with_list 4 5 Decimal (with_list 0 1 Decimal three_paras).
Lemma md_numbering_w : exists L1 L2, lreach L1 /\ lreach L2
   /\ markers L1 = [Ok (Some (txt "1")); Ok None; Ok (Some (txt "2"))] /\ markers L2 = [Ok (Some (txt "1")); Ok None; Ok (Some (txt "1"))]
   /\ export_markdown L1 = export_markdown L2.
Proof.
  exists one_to_two, one_to_one. split; [apply leave_lreach, with_list_lreach, typed_lreach|]. split; [apply with_list_lreach, with_list_lreach, typed_lreach|].
  split; [vm_compute; reflexivity|]. split; [vm_compute; reflexivity|]. vm_compute. reflexivity.
Qed.
(** Empty paragraphs are not shown. *)
Lemma md_empty_w : exists L1 L2 s1 s2, lreach L1 /\ lreach L2
   /\ export_plain_text (l_doc L1) = Ok (txt "a" ++ [10; 10]%N ++ txt "b") /\ export_plain_text (l_doc L2) = Ok (txt "a" ++ [10%N] ++ txt "b")
   /\ export_markdown L1 = Ok s1 /\ export_markdown L2 = Ok s2
   /\ (forall r, md_shows s1 r <-> md_shows s2 r) /\ exists r, md_shows s1 r.
Proof.
  exists (typed (txt "a" ++ [10; 10]%N ++ txt "b")), (typed (txt "a" ++ [10%N] ++ txt "b")). eexists _, _.
  split; [apply typed_lreach|]. split; [apply typed_lreach|]. repeat (split; [vm_compute; reflexivity|]). split.
  - intros r. unfold md_shows. replace (md_read (txt "a" ++ repeat 10%N 10 ++ txt "b")) with (md_read (txt "a" ++ repeat 10%N 6 ++ txt "b")) by reflexivity. easy.
  - exists [(Para [], [SChar 97%N bare]); (Para [], [SChar 98%N bare])]. exists [(Para [], [97%N]); (Para [], [98%N])]. split; [vm_compute; reflexivity|].
    repeat constructor; vm_compute; intuition discriminate.
Qed.
(** An item of a list at indentation 2 is shown as code. *)
Definition with_list_format (l : id) (q : list_req) (L : ldoc) : ldoc := match set_list_format L l q with Ok L' => L' | _ => L end.
Lemma with_list_format_lreach l q L : lreach L -> lreach (with_list_format l q L).
Proof. intros H. unfold with_list_format. destruct (set_list_format L l q) as [L'| |] eqn:E; [|easy|easy]. eapply lreach_format; eauto. Qed.
Definition indented : ldoc := with_list_format 1%N (mk_list_req None (Some 2%Z) None None) (with_list 0 1 Disc (typed (txt "a"))).
Lemma indented_lreach : lreach indented.
Proof. apply with_list_format_lreach, with_list_lreach, typed_lreach. Qed.
Lemma md_indent_w : exists L e s, lreach L /\ map (listed L) (attrs_of L) = [Some e] /\ l_style e = Disc /\ l_indent e = 2%Z
   /\ export_plain_text (l_doc L) = Ok (txt "a") /\ export_markdown L = Ok s /\ md_shows s [(Code None, map (fun c => SChar c bare) (txt "- a"))].
Proof.
  exists indented. eexists _, _. split; [apply indented_lreach|]. split; [vm_compute; reflexivity|]. repeat (split; [vm_compute; reflexivity|]).
  exists [(Code None, txt "- a")]. split; [vm_compute; reflexivity|]. constructor; [|constructor]. split; reflexivity.
Qed.
(** A code block that has three backquotes ends there. *)
Definition fenced : ldoc := with_format code_req 0 0 (typed (txt "```")).
Lemma md_fence_w : exists L s, lreach L /\ export_plain_text (l_doc L) = Ok (txt "```") /\ map (fun a => f_is_code_block (snd a)) (attrs_of L) = [Some true]
   /\ export_markdown L = Ok s /\ md_shows s [(Code None, []); (Code None, [])].
Proof.
  exists fenced. eexists. split; [apply with_format_lreach, typed_lreach|]. repeat (split; [vm_compute; reflexivity|]).
  exists [(Code None, []); (Code None, [])]. split; [vm_compute; reflexivity|]. repeat (constructor; [split; reflexivity|]). constructor.
Qed.
(** A heading of level 0 is a heading in HTML and not in Markdown. *)
Definition level_req (z : Z) : bfmt_req := mk_breq None (Some z) None None None None None None None None None None None None None.
Lemma md_level_w : exists L s, lreach L /\ (forall height, export_html height L = Ok (html_page (txt "<h1>a</h1>")))
   /\ export_markdown L = Ok s /\ md_shows s [(Para [], [SChar 97%N bare])].
Proof.
  exists (with_format (level_req 0) 0 0 (typed (txt "a"))). eexists. split; [apply with_format_lreach, typed_lreach|].
  split; [intros height; vm_compute; reflexivity|]. split; [vm_compute; reflexivity|]. exists [(Para [], [97%N])]. split; [vm_compute; reflexivity|].
  repeat constructor; vm_compute; intuition discriminate.
Qed.
(** CommonMark: a run of marks can end emphasis only if it is not after white
    space, and after punctuation only if white space or punctuation follows. *)
Definition can_end (before after : char) : Prop :=
  ~ In before [32; 9; 10; 13]%N /\ (In before ascii_punctuation -> In after ([32; 9; 10; 13] ++ ascii_punctuation)%N).
Definition bold_dot : doc :=
  match insert_formatted_simple (formatted (txt "b") cfmt_default) 0 (txt "a.") bold_font with Ok (d, _, _) => d | _ => new_document end.
Lemma bold_dot_reach : reach bold_dot.
Proof. eapply (reach_insert_fmt (formatted (txt "b") cfmt_default) 0 (txt "a.") bold_font); [apply formatted_reach; discriminate|discriminate|lia|vm_compute; reflexivity]. Qed.
Lemma md_flank_w : exists L, lreach L /\ doc_items (l_doc L) = Ok [Chr 97%N bold_font; Chr 46%N bold_font; Chr 98%N cfmt_default]
  /\ export_markdown L = Ok (txt "**a\.**b") /\ ~ can_end 46%N 98%N.
Proof.
  exists (no_lists bold_dot). split; [apply no_lists_lreach, bold_dot_reach|]. split; [vm_compute; reflexivity|]. split; [vm_compute; reflexivity|].
  intros [_ H]. assert (K : In 46%N ascii_punctuation) by (vm_compute; tauto). apply H in K. vm_compute in K. intuition discriminate.
Qed.

(** ** Fragments *)
(** An image is exported as text. *)
Lemma md_frag_image_w : exists i t, frag_md_segment (SegImage i) = frag_md_segment (SegText t cfmt_default) /\ t = txt "![x](x)" /\ iname i = txt "x".
Proof. exists (mk_image 0 (txt "x") 1%Z 1%Z 1%Z cfmt_default), (txt "![x](x)"). split; [vm_compute; reflexivity|easy]. Qed.
(** Code that is linked is exported without its link. *)
Definition linked_code : cfmt := mk_cfmt (Some (txt "monospace")) None None None None None None None None None (Some (txt "u")) [] (Some true) None None None.
Lemma md_frag_code_link_w : exists L1 L2 x1 x2, lreach L1 /\ lreach L2
  /\ doc_items (l_doc L1) = Ok [Chr 97%N code_font] /\ doc_items (l_doc L2) = Ok [Chr 97%N linked_code]
  /\ fragment_from_document L1 = Ok x1 /\ fragment_from_document L2 = Ok x2 /\ frag_to_markdown x1 = frag_to_markdown x2
  /\ export_markdown L2 = Ok (txt "[`a`](u)").
Proof.
  exists (no_lists (formatted (txt "a") code_font)), (no_lists (formatted (txt "a") linked_code)). eexists _, _.
  split; [apply no_lists_lreach, formatted_reach; discriminate|]. split; [apply no_lists_lreach, formatted_reach; discriminate|].
  repeat (split; [vm_compute; reflexivity|]). vm_compute. reflexivity.
Qed.
(** A code block is exported like a plain paragraph. *)
Lemma md_frag_code_w : exists L1 L2 x1 x2, lreach L1 /\ lreach L2
  /\ map (fun a => f_is_code_block (snd a)) (attrs_of L1) = [None] /\ map (fun a => f_is_code_block (snd a)) (attrs_of L2) = [Some true]
  /\ fragment_from_document L1 = Ok x1 /\ fragment_from_document L2 = Ok x2 /\ frag_to_markdown x1 = frag_to_markdown x2.
Proof.
  exists (typed (txt "a")), (with_format code_req 0 0 (typed (txt "a"))). eexists _, _. split; [apply typed_lreach|]. split; [apply with_format_lreach, typed_lreach|].
  repeat (split; [vm_compute; reflexivity|]). vm_compute. reflexivity.
Qed.
(** A paragraph at indentation 2 is shown as code. *)
Definition indent_req (z : Z) : bfmt_req := mk_breq None None (Some z) None None None None None None None None None None None None.
Lemma md_frag_indent_w : exists L x, lreach L /\ export_plain_text (l_doc L) = Ok (txt "a") /\ map (fun a => f_indent (snd a)) (attrs_of L) = [Some 2%Z]
  /\ fragment_from_document L = Ok x /\ md_shows (frag_to_markdown x) [(Code None, [SChar 97%N bare])].
Proof.
  exists (with_format (indent_req 2) 0 0 (typed (txt "a"))). eexists. split; [apply with_format_lreach, typed_lreach|].
  repeat (split; [vm_compute; reflexivity|]). exists [(Code None, [97%N])]. split; [vm_compute; reflexivity|]. repeat constructor.
Qed.
Lemma fragment_gentle : exists fbs t, fragment_from_document sample = Ok (mk_dfrag (Some fbs) t) /\ Forall gentle_fblock fbs
  /\ frag_to_markdown (mk_dfrag (Some fbs) t) = txt "## **ab**" ++ [10; 10]%N ++ txt "1. cd".
Proof.
  assert (W : forall c, In c [97; 98]%N -> word_char c) by (intros c [<-|[<-|[]]]; vm_compute; intuition discriminate).
  eexists _, _. split; [vm_compute; reflexivity|]. split; [|vm_compute; reflexivity]. constructor; [|constructor; [|constructor]].
  - split; [|split; [|split; [|split]]].
    + split; [|easy]. split; [discriminate|]. split; [vm_compute; intuition discriminate|]. split; [|discriminate]. cbn.
      split; [vm_compute; intuition congruence|]. split; [discriminate|]. intros _. split; [exists 97%N, [98%N]|exists 98%N, [97%N]]; (split; [reflexivity|]); apply W; cbn; tauto.
    + repeat constructor; vm_compute; try discriminate; intros H; now exfalso; apply H.
    + split; [exists 97%N, [98%N]|exists 98%N, [97%N]]; easy.
    + reflexivity.
    + discriminate.
  - split; [|split; [|split; [|split]]].
    + split; [|easy]. split; [discriminate|]. split; [vm_compute; intuition discriminate|]. split; [|discriminate]. cbn.
      split; [vm_compute; intuition congruence|]. split; discriminate.
    + repeat constructor; vm_compute; try discriminate; intros H; now exfalso; apply H.
    + split; [exists 99%N, [100%N]|exists 100%N, [99%N]]; easy.
    + reflexivity.
    + discriminate.
Qed.

(** ** A document that is read back: a bold heading, a numbered item *)
Lemma sample_gentle : forall k i a p ss its, doc_items (l_doc sample) = Ok its ->
  nth_error (d_order (l_doc sample)) k = Some i -> nth_error (attrs_of sample) k = Some a -> nth_error (paragraphs its) k = Some p ->
  block_segments (l_doc sample) i = Ok ss -> gentle_para sample a ss p.
Proof.
  intros k i a p ss its E H1 H2 H3 H4. vm_compute in E. injection E as <-. vm_compute in H1, H2, H3.
  assert (W : forall c, In c [97; 98]%N -> word_char c) by (intros c [<-|[<-|[]]]; vm_compute; intuition discriminate).
  destruct k as [|[|[|k]]].
  3: discriminate H1.
  3: destruct k; discriminate H1.
  all: injection H1 as <-.
  all: injection H2 as <-.
  all: injection H3 as <-.
  all: vm_compute in H4.
  all: injection H4 as <-.
  all: unfold gentle_para; cbn [snd f_is_code_block on].
  - split; [|split; [|split]].
    + split; [|easy]. split; [discriminate|]. split; [vm_compute; intuition discriminate|]. split; [|discriminate]. cbn.
      split; [vm_compute; intuition (subst; discriminate)|]. split; [discriminate|]. intros _. split; [exists 97%N, [98%N]|exists 98%N, [97%N]]; (split; [reflexivity|]); apply W; cbn; tauto.
    + split; [exists 97%N, [98%N]|exists 98%N, [97%N]]; easy.
    + intros h [= <-]. lia.
    + discriminate.
  - split; [|split; [|split]].
    + split; [|easy]. split; [discriminate|]. split; [vm_compute; intuition discriminate|]. split; [|discriminate]. cbn.
      split; [vm_compute; intuition (subst; discriminate)|]. split; [discriminate|]. discriminate.
    + split; [exists 99%N, [100%N]|exists 100%N, [99%N]]; easy.
    + discriminate.
    + intros e He. vm_compute in He. injection He as <-. cbn. lia.
Qed.
