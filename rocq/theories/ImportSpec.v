(** What parsed content shows: the formatted characters of its spans. *)
From Verif Require Import Base FormatRunsModel RopeModel DocModel ListModel ImportModel DocSpec.

(** The list item a parsed block is, for the grouping of list items. *)
Definition piece_of (b : pblock) : piece :=
  match pb_list b with Some st => Item st (pb_indent b) | None => Other end.
Definition span_items (code : bool) (s : span) : list item := map (fun c => Chr c (span_fmt s code)) (sp_text s).
Definition block_items (b : pblock) : list item := flat_map (span_items (pb_code b)) (pb_spans b).
(** The characters of parsed blocks, with a paragraph break between two blocks. *)
Fixpoint items_of_blocks (bs : list pblock) : list item :=
  match bs with
  | [] => []
  | [b] => block_items b
  | b :: rest => block_items b ++ Brk :: items_of_blocks rest
  end.
