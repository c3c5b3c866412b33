(** Importing Markdown. *)
From Verif Require Import Base FormatRunsModel RopeModel DocModel DocSpec PropSpec ListModel ListSpec ListDocModel ListDocSpec
  ExportSpec ImportModel ImportSpec MdReadModel DocShows MdReadSpec MdReadFacts ImportTheorems.

Lemma markdown_import_theorem L p : lreach L -> gentle_page p ->
  exists L', import_markdown L (page_events p) = Some L' /\ lreach L' /\ document_shows L' (map expected (page_paras p)).
Proof.
  intros R G. destruct (markdown_read p G) as (bs & E & N & V). unfold import_markdown. rewrite E. eexists. split; [reflexivity|]. split; [now apply lreach_import|].
  rewrite <- V. now apply import_shows.
Qed.
Lemma look_of_fmt k f : look_fmt k = f -> look_of f = k.
Proof. intros <-. destruct k as [[] [] [] [] [] [h|]]; reflexivity. Qed.
