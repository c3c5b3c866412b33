(** Markdown pages whose import is another document. *)
From Coq Require Import Ascii String.
From Verif Require Import Base FormatRunsModel RopeModel DocModel DocSpec PropSpec DocRefuted ListModel ListSpec ListDocModel ListDocSpec ListDocFacts FragmentRefuted
  ExportSpec ExportRefuted ImportModel ImportSpec MdReadModel DocShows MdReadSpec MdReadFacts MdReadTheorems.

Definition blank : ldoc := no_lists new_document.
Lemma blank_lreach : lreach blank.
Proof. apply no_lists_lreach, reach_new. Qed.
Definition word (s : string) : list inl := [IText (txt s)].
(** The document after setting the content of a new document to page [p]. *)
Definition read (p : list mblock) : ldoc := match import_markdown blank (page_events p) with Some L => L | None => blank end.
Definition list_page : list mblock :=
  [MHead 1 (word "T"); MPara (IText (txt "a ") :: IStrong [IText (txt "b"); IEmph (word "c")] :: [ISoft; ICode (txt "d"); IBreak; ILink (txt "u") (word "e")]);
   MList true true [[MPara (word "x"); MList false true [[MPara (word "y")]]]; [MPara (word "z")]];
   MCode (Some (txt "rust")) [txt "f"; txt "g"]].
Lemma list_page_gentle : gentle_page list_page.
Proof. vm_compute. reflexivity. Qed.

Definition bold_bold : list mblock := [MPara [IStrong [IText (txt "a"); IStrong (word "b"); IText (txt "c")]]].
Lemma nested_w : exists p L' its, import_markdown blank (page_events p) = Some L' /\ doc_items (l_doc L') = Ok its
  /\ map snd (page_paras p) = [map (fun c => (c, with_bold bare)) (txt "abc")]
  /\ nth_error its 2 = Some (Chr 99%N cfmt_default).
Proof. exists bold_bold, (read bold_bold). eexists. do 3 (split; [vm_compute; reflexivity|]). vm_compute. reflexivity. Qed.

Definition empty_item : list mblock := [MList true true [[]; [MPara (word "x")]]].
Lemma empty_item_w : exists p L', import_markdown blank (page_events p) = Some L' /\ length (page_paras p) = 2
  /\ length (d_order (l_doc L')) = 1 /\ markers L' = [Ok (Some (txt "1"))].
Proof. exists empty_item, (read empty_item). do 3 (split; [vm_compute; reflexivity|]). vm_compute. reflexivity. Qed.

Definition item_code : list mblock := [MList false true [[MPara (word "a"); MCode None [txt "b"]]]].
Lemma item_code_w : exists p L' its, import_markdown blank (page_events p) = Some L' /\ doc_items (l_doc L') = Ok its
  /\ page_paras p = [(KItem false 0, [(97%N, bare)]); (KCode None, [(98%N, with_code bare)])]
  /\ paragraphs its = [shown_items [(97%N, with_code bare); (98%N, with_code bare)]]
  /\ para_attrs (l_doc L') = [Some (None, kind_fmt (KCode None))].
Proof. exists item_code, (read item_code). eexists. do 4 (split; [vm_compute; reflexivity|]). vm_compute. reflexivity. Qed.

Definition long_head : list mblock := [MHead 1 [IText (txt "a"); IBreak; IText (txt "b")]].
Lemma long_head_w : exists p L', import_markdown blank (page_events p) = Some L'
  /\ page_paras p = [(KHead 1, [(97%N, bare); (98%N, bare)])]
  /\ para_attrs (l_doc L') = [Some (None, kind_fmt (KHead 1)); Some (None, kind_fmt KPara)].
Proof. exists long_head, (read long_head). do 2 (split; [vm_compute; reflexivity|]). vm_compute. reflexivity. Qed.

Definition long_item : list mblock := [MList true true [[MPara [IText (txt "a"); IBreak; IText (txt "b")]]; [MPara (word "c")]]].
Lemma long_item_w : exists p L', import_markdown blank (page_events p) = Some L'
  /\ map fst (page_paras p) = [KItem true 0; KItem true 0]
  /\ markers L' = [Ok (Some (txt "1")); Ok (Some (txt "2")); Ok (Some (txt "3"))].
Proof. exists long_item, (read long_item). do 2 (split; [vm_compute; reflexivity|]). vm_compute. reflexivity. Qed.

Definition two_para_item : list mblock := [MList true false [[MPara (word "a"); MPara (word "b")]; [MPara (word "c")]]].
Lemma two_para_item_w : exists p L', import_markdown blank (page_events p) = Some L'
  /\ p = [MList true false [[MPara (word "a"); MPara (word "b")]; [MPara (word "c")]]]
  /\ markers L' = [Ok (Some (txt "1")); Ok None; Ok (Some (txt "1"))].
Proof. exists two_para_item, (read two_para_item). do 2 (split; [vm_compute; reflexivity|]). vm_compute. reflexivity. Qed.

Lemma two_lists_w : exists p1 p2 L', p1 = [MList true true [[MPara (word "a")]]; MList true true [[MPara (word "b")]]]
  /\ p2 = [MList true true [[MPara (word "a")]; [MPara (word "b")]]]
  /\ import_markdown blank (page_events p1) = Some L' /\ import_markdown blank (page_events p2) = Some L'
  /\ markers L' = [Ok (Some (txt "1")); Ok (Some (txt "2"))].
Proof.
  eexists _, _, (read [MList true true [[MPara (word "a")]; [MPara (word "b")]]]). do 4 (split; [vm_compute; reflexivity|]). vm_compute. reflexivity.
Qed.

Lemma alt_text_w : exists p L', import_markdown blank (page_events p) = Some L' /\ p = [MPara [IImage (word "cat")]]
  /\ doc_items (l_doc L') = Ok (map (fun c => Chr c cfmt_default) (txt "cat")).
Proof. exists [MPara [IImage (word "cat")]], (read [MPara [IImage (word "cat")]]). do 2 (split; [vm_compute; reflexivity|]). vm_compute. reflexivity. Qed.

Lemma code_lines_w : exists p L', gentle_page p /\ import_markdown blank (page_events p) = Some L'
  /\ d_nblocks (l_doc L') = 1%Z /\ export_plain_text (l_doc L') = Ok (txt "a" ++ [NL] ++ txt "b")
  /\ d_nblocks (import_plain_text new_document (txt "a" ++ [NL] ++ txt "b")) = 2%Z.
Proof. exists [MCode None [txt "a"; txt "b"]], (read [MCode None [txt "a"; txt "b"]]). do 4 (split; [vm_compute; reflexivity|]). vm_compute. reflexivity. Qed.
