(** Importing HTML, with pages whose import is another document. *)
From Coq Require Import Ascii String.
From Verif Require Import Base FormatRunsModel RopeModel DocModel DocSpec PropSpec DocRefuted ListModel ListSpec ListDocModel ListDocSpec ListDocFacts FragmentRefuted
  ExportSpec ExportRefuted ImportModel ImportSpec MdReadModel DocShows MdReadSpec MdReadTheorems MdReadRefuted ImportTheorems HtmlReadModel HtmlReadSpec HtmlReadFacts.

Lemma html_import_theorem lh L page : lreach L -> gentle_html page ->
  exists L', import_html lh L page = Some L' /\ lreach L' /\ document_shows L' (page_shown lh page).
Proof.
  intros R G. destruct (html_read lh page G) as (bs & E & N & V). unfold import_html. rewrite E. eexists. split; [reflexivity|].
  split; [now apply lreach_import|]. rewrite <- V. now apply import_shows.
Qed.

Definition el (n : string) (kids : list dom) : dom := DElem (txt n) [] kids.
Arguments el _%string_scope _.
Definition tx (s : string) : dom := DText (txt s).
Arguments tx _%string_scope.
Definition no_number (_ : str) : option Z := None.
Definition read_html (page : list dom) : ldoc := match import_html no_number MdReadRefuted.blank page with Some L => L | None => MdReadRefuted.blank end.
Definition sample_page : list dom :=
  [el "h2" [tx "T"];
   DElem (txt "p") [(txt "style", txt "direction: rtl; Background: red")]
     [tx "a"; el "b" [tx "b"; el "em" [tx "c"]]; DElem (txt "a") [(txt "href", txt "u")] [el "span" [tx "d"]]];
   el "ol" [DText [10%N]; el "li" [tx "x"; el "ul" [el "li" [tx "y"]]]; DText [10%N]; el "li" [tx "z"]];
   el "div" [el "pre" [DElem (txt "code") [(txt "class", txt "x language-rust")] [DText (txt "f" ++ [10%N] ++ txt "g")]]]].
Lemma sample_page_gentle : gentle_html sample_page.
Proof. split; [right; split; vm_compute; reflexivity|]. repeat constructor; cbn; lia. Qed.

(** What the plain text of the import is. *)
Definition plain_of (page : list dom) : res str := export_plain_text (l_doc (read_html page)).
Lemma html_br_w : exists page L', import_html no_number MdReadRefuted.blank page = Some L' /\ page = [el "p" [tx "a"; el "br" []; tx "b"]]
  /\ export_plain_text (l_doc L') = Ok (txt "ab").
Proof. eexists _, (read_html [el "p" [tx "a"; el "br" []; tx "b"]]). split; [|split; [reflexivity|]]; vm_compute; reflexivity. Qed.
Lemma html_order_w : exists page L', import_html no_number MdReadRefuted.blank page = Some L' /\ page = [tx "a"; el "p" [tx "b"]]
  /\ export_plain_text (l_doc L') = Ok (txt "b" ++ [NL] ++ txt "a").
Proof. eexists _, (read_html [tx "a"; el "p" [tx "b"]]). split; [|split; [reflexivity|]]; vm_compute; reflexivity. Qed.
Lemma html_nested_order_w : exists page L', import_html no_number MdReadRefuted.blank page = Some L'
  /\ page = [el "div" [el "p" [tx "a"]; tx "b"]] /\ export_plain_text (l_doc L') = Ok (txt "b" ++ [NL] ++ txt "a").
Proof. eexists _, (read_html [el "div" [el "p" [tx "a"]; tx "b"]]). split; [|split; [reflexivity|]]; vm_compute; reflexivity. Qed.
Lemma html_space_w : exists page L', import_html no_number MdReadRefuted.blank page = Some L'
  /\ page = [el "p" [tx "a"]; DText [NL]; el "p" [tx "b"]]
  /\ length (d_order (l_doc L')) = 3 /\ export_plain_text (l_doc L') = Ok (txt "a" ++ [NL] ++ txt "b" ++ [NL; NL]).
Proof. eexists _, (read_html [el "p" [tx "a"]; DText [NL]; el "p" [tx "b"]]). split; [|split; [reflexivity|split]]; vm_compute; reflexivity. Qed.
Lemma html_empty_w : exists page L', import_html no_number MdReadRefuted.blank page = Some L'
  /\ page = [el "p" [tx "a"]; el "p" []; el "p" [tx "b"]] /\ export_plain_text (l_doc L') = Ok (txt "a" ++ [NL] ++ txt "b").
Proof. eexists _, (read_html [el "p" [tx "a"]; el "p" []; el "p" [tx "b"]]). split; [|split; [reflexivity|]]; vm_compute; reflexivity. Qed.
Lemma html_item_w : exists page L', import_html no_number MdReadRefuted.blank page = Some L'
  /\ page = [el "ol" [el "li" [el "p" [tx "a"]]; el "li" [tx "b"]]] /\ markers L' = [Ok None; Ok (Some (txt "1"))].
Proof. eexists _, (read_html [el "ol" [el "li" [el "p" [tx "a"]]; el "li" [tx "b"]]]). split; [|split; [reflexivity|]]; vm_compute; reflexivity. Qed.
(** [n] bold elements around a letter. *)
Definition deep (n : nat) : dom := Nat.iter n (fun d => el "b" [d]) (tx "a").
Lemma html_deep_w : exists n L', import_html no_number MdReadRefuted.blank [deep n] = Some L' /\ export_plain_text (l_doc L') = Ok [].
Proof. exists 257, (read_html [deep 257]). split; vm_compute; reflexivity. Qed.
Lemma html_section_w : exists page L', import_html no_number MdReadRefuted.blank page = Some L'
  /\ page = [el "section" [tx "a"]; el "section" [tx "b"]] /\ export_plain_text (l_doc L') = Ok (txt "ab").
Proof. eexists _, (read_html [el "section" [tx "a"]; el "section" [tx "b"]]). split; [|split; [reflexivity|]]; vm_compute; reflexivity. Qed.
Lemma html_wrap_w : exists page L' its, import_html no_number MdReadRefuted.blank page = Some L'
  /\ page = [el "p" [DText (txt "a" ++ [NL] ++ txt "b")]] /\ length (d_order (l_doc L')) = 1
  /\ export_plain_text (l_doc L') = Ok its /\ its = txt "a" ++ [NL] ++ txt "b".
Proof. eexists _, (read_html [el "p" [DText (txt "a" ++ [NL] ++ txt "b")]]), _. split; [|split; [reflexivity|split; [|split]]]; vm_compute; reflexivity. Qed.
