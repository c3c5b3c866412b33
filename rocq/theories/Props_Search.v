(** Searching and replacing: theorems only. Programs: SearchModel.v; what the
    words mean: SearchSpec.v, DocSpec.v. *)
From Verif Require Import Base DocModel DocSpec DocRefuted SearchModel SearchSpec SearchTheorems.

(** C16. A case-sensitive literal search reports every occurrence, only
    occurrences, each once, from left to right, overlapping ones included; with
    whole words, those between two edges of words. *)
Theorem find_all_exact : forall g d its query o, reach d -> doc_items d = Ok its ->
  case_sensitive o = true -> use_regex o = false ->
  exists ms, find_all g d query o = Ok ms /\ reports (hits g o (plain its) query) (length query) ms.
Proof. exact find_all_theorem. Qed.
Print Assumptions find_all_exact.
Example find_all_exact_case :
  let g := mk_engines (fun s => s) (fun _ => [(0, 2); (3, 1)]) (fun _ _ _ => None) in
  let d := import_plain_text new_document [97; 97; 32; 97]%N in
  reach d /\ find_all g d [97]%N plain_find = Ok [(0, 1); (1, 1); (3, 1)]
  /\ find_all g d [97]%N (mk_options true true false) = Ok [(3, 1)]
  /\ find_all g aaa [97; 97]%N plain_find = Ok [(0, 2); (1, 2)] /\ find_all g aaa [] plain_find = Ok [].
Proof. split; [repeat constructor|]. vm_compute. easy. Qed.

(** C16. Searching from a position finds the nearest one: forwards from the
    position on, backwards strictly before it. *)
Theorem find_nearest : forall g d its query o from backward, reach d -> doc_items d = Ok its ->
  case_sensitive o = true -> use_regex o = false ->
  exists r, find_text g d query o from backward = Ok r
   /\ (if backward then last_before else next_from) (hits g o (plain its) query) (Z.to_nat from) (option_map fst r)
   /\ (forall m, r = Some m -> snd m = length query).
Proof. exact find_next_theorem. Qed.
Print Assumptions find_nearest.
Example find_nearest_case :
  let d := import_plain_text new_document [97; 98; 97; 98; 97]%N in
  reach d /\ find_text no_engines d [97; 98]%N plain_find 1 false = Ok (Some (2, 2))
  /\ find_text no_engines d [97; 98]%N plain_find 2 true = Ok (Some (0, 2))
  /\ find_text no_engines d [97; 98]%N plain_find 3 false = Ok None.
Proof. split; [repeat constructor|]. vm_compute. easy. Qed.

(** C16. A regex search reports the ranges the engine finds, in characters
    instead of bytes, in its order; with whole words, those between edges. *)
Theorem find_regex : forall g d its query o l, reach d -> doc_items d = Ok its ->
  query <> [] -> use_regex o = true -> rx g query (negb (case_sensitive o)) (plain its) = Some l ->
  Forall (fun x => exists p n, covers (plain its) p n x) l ->
  exists ms, find_all g d query o = Ok ms
   /\ (forall p n, In (p, n) ms <-> (exists x, In x l /\ covers (plain its) p n x)
         /\ (whole_word o = true -> at_word_edge (words g) (plain its) p /\ at_word_edge (words g) (plain its) (p + n)))
   /\ (whole_word o = false -> Forall2 (fun m x => covers (plain its) (fst m) (snd m) x) ms l).
Proof. exact find_regex_theorem. Qed.
Print Assumptions find_regex.
Example find_regex_case :
  let g := mk_engines (fun s => s) (fun _ => []) (fun _ _ _ => Some [(2, 3); (3, 5)]) in
  let d := import_plain_text new_document [233; 97; 233]%N in
  reach d /\ find_all g d [46]%N (mk_options true false true) = Ok [(1, 1); (2, 1)]
  /\ covers [233; 97; 233]%N 1 1 (2, 3) /\ covers [233; 97; 233]%N 2 1 (3, 5).
Proof.
  split; [repeat constructor|]. split; [vm_compute; easy|]. split.
  - exists [233]%N, [97]%N, [233]%N. vm_compute. easy.
  - exists [233; 97]%N, [233]%N, []. vm_compute. easy.
Qed.

(** C17. When lower-casing replaces characters one by one, a search that ignores
    case reports exactly the ranges of the document that spell the query up to
    case. *)
Theorem find_ignoring_case_partial : forall g d its query o lc, reach d -> doc_items d = Ok its ->
  case_sensitive o = false -> use_regex o = false ->
  lower g (plain its) = map lc (plain its) -> lower g query = map lc query ->
  exists ms, find_all g d query o = Ok ms /\ reports (hits_folded g o lc (plain its) query) (length query) ms.
Proof. exact find_folded_theorem. Qed.
Print Assumptions find_ignoring_case_partial.
Example find_ignoring_case_case :
  let lc := fun c => if ((65 <=? c) && (c <=? 90))%N then (c + 32)%N else c in
  let g := mk_engines (map lc) (fun _ => []) (fun _ _ _ => None) in
  let d := import_plain_text new_document [65; 98; 97; 66]%N in
  reach d /\ lower g [65; 98; 97; 66]%N = map lc [65; 98; 97; 66]%N
  /\ find_all g d [97; 98]%N fold_find = Ok [(0, 2); (2, 2)]
  /\ find_all g d [97; 98]%N plain_find = Ok [].
Proof. split; [repeat constructor|]. vm_compute. easy. Qed.

(** C17 fails where lower-casing changes the number of characters: with the real
    lower case of U+0130 (two characters), the "a" after it is reported one
    position too far, outside the text. *)
Theorem find_ignoring_case_refuted : forall g,
  lower g [304; 97]%N = [105; 775; 97]%N -> lower g [97]%N = [97]%N ->
  reach dotted /\ export_plain_text dotted = Ok [304; 97]%N
  /\ find_all g dotted [97]%N fold_find = Ok [(2, 1)].
Proof. exact find_folded_fails. Qed.
Print Assumptions find_ignoring_case_refuted.
Example find_ignoring_case_refuted_case : exists g,
  lower g [304; 97]%N = [105; 775; 97]%N /\ lower g [97]%N = [97]%N.
Proof.
  exists (mk_engines (flat_map (fun c => if N.eqb c 304 then [105; 775]%N else [c])) (fun _ => []) (fun _ _ _ => None)).
  vm_compute. easy.
Qed.

(** C18. Replacing a literal query whose occurrences do not overlap, in a
    document with the right stored positions: every occurrence inside a paragraph
    (or the first one only) becomes the replacement, in the format of the
    character before; the others are counted as skipped; nothing else changes. *)
Theorem replace_literal_partial : forall g d its query o (all : bool) r,
  reach d -> fresh_positions d -> doc_items d = Ok its ->
  case_sensitive o = true -> use_regex o = false -> never_overlaps query (plain its) ->
  exists d' ms, let inside := filter (in_paragraph its) ms in
   let done := if all then inside else firstn 1 inside in
   reports (hits g o (plain its) query) (length query) ms
   /\ replace_text g d query r o all
      = Ok (d', Z.of_nat (length done), (Z.of_nat (length ms) - Z.of_nat (length inside))%Z)
   /\ fresh_positions d' /\ para_attrs d' = para_attrs d
   /\ doc_items d' = Ok (spec_replace r done its)
   /\ export_plain_text d' = Ok (rewrite r 0 done (plain its)).
Proof. exact replace_literal_theorem. Qed.
Print Assumptions replace_literal_partial.

(** C18. The same for any search, regex included, whose matches do not overlap. *)
Theorem replace_matches_partial : forall g d its query o ms (all : bool) r,
  reach d -> fresh_positions d -> doc_items d = Ok its -> find_all g d query o = Ok ms -> good_ranges its ms ->
  let inside := filter (in_paragraph its) ms in
  let done := if all then inside else firstn 1 inside in
  exists d', replace_text g d query r o all
     = Ok (d', Z.of_nat (length done), (Z.of_nat (length ms) - Z.of_nat (length inside))%Z)
   /\ reach d' /\ fresh_positions d'
   /\ doc_items d' = Ok (spec_replace r done its)
   /\ export_plain_text d' = Ok (rewrite r 0 done (plain its))
   /\ para_attrs d' = para_attrs d
   /\ (d_chars d' - d_chars d = Z.of_nat (count_chars (spec_replace r done its)) - Z.of_nat (count_chars its))%Z.
Proof. exact replace_text_theorem. Qed.
Print Assumptions replace_matches_partial.
Example replace_case :
  let d := import_plain_text new_document [97; 98; 10; 97; 98; 97]%N in
  reach d /\ fresh_positions d
  /\ match replace_text no_engines d [97]%N [120; 121]%N plain_find true with
     | Ok (d', n, s) => export_plain_text d' = Ok [120; 121; 98; 10; 120; 121; 98; 120; 121]%N /\ n = 3%Z /\ s = 0%Z
     | _ => False end
  /\ match replace_text no_engines d [98; 10]%N [120]%N plain_find true with
     | Ok (d', n, s) => d' = d /\ n = 0%Z /\ s = 1%Z
     | _ => False end
  /\ good_ranges (match doc_items d with Ok its => its | _ => [] end) [(0, 1); (3, 1); (5, 1)].
Proof.
  split; [repeat constructor|]. split.
  { vm_compute. do 2 eexists. repeat (split; [reflexivity|]). do 2 eexists. repeat (split; [reflexivity|]). exact I. }
  split; [vm_compute; easy|]. split; [vm_compute; easy|]. split.
  - cbn. repeat split; repeat constructor.
  - vm_compute. repeat constructor.
Qed.

(** C18. In every reachable document and for every query, replacing succeeds
    when searching does, leaves a sound document and the paragraphs' attributes,
    and accounts for every match. *)
Theorem replace_always : forall g d query o all r ms, reach d -> find_all g d query o = Ok ms ->
  exists d' n s, replace_text g d query r o all = Ok (d', n, s) /\ reach d' /\ para_attrs d' = para_attrs d
   /\ (0 <= n)%Z /\ (0 <= s)%Z /\ (n + s <= Z.of_nat (length ms))%Z
   /\ (all = true -> (n + s = Z.of_nat (length ms))%Z).
Proof. exact replace_total_theorem. Qed.
Print Assumptions replace_always.
Example replace_always_case :
  reach aaa /\ find_all no_engines aaa [97; 97]%N plain_find = Ok [(0, 2); (1, 2)]
  /\ reach shifted /\ find_all no_engines shifted [99]%N plain_find = Ok [(4, 1)].
Proof.
  split; [repeat constructor|]. split; [vm_compute; easy|]. split; [exact shifted_reach|vm_compute; easy].
Qed.

(** C18 fails for overlapping occurrences: replacing "aa" by "xyz" in "aaa"
    makes two replacements and gives "xyzyz", which no choice of occurrences that
    do not overlap gives. *)
Theorem replace_overlap_refuted : exists d', replace_text no_engines aaa [97; 97]%N [120; 121; 122]%N plain_find true = Ok (d', 2%Z, 0%Z)
  /\ export_plain_text d' = Ok [120; 121; 122; 121; 122]%N
  /\ forall ms, apart 0 ms -> (forall m, In m ms -> snd m = 2 /\ fst m + 2 <= 3) ->
       rewrite [120; 121; 122]%N 0 ms [97; 97; 97]%N <> [120; 121; 122; 121; 122]%N.
Proof. exact replace_overlap_fails. Qed.
Print Assumptions replace_overlap_refuted.
Example replace_overlap_refuted_case : reach aaa /\ export_plain_text aaa = Ok [97; 97; 97]%N.
Proof. split; [repeat constructor|]. vm_compute. easy. Qed.

(** C18 fails once text was typed earlier in the document: "ab/cd" with "x" typed
    at the start, replacing "c" by "z" replaces "d" instead. *)
Theorem replace_stale_refuted : exists d d', reach d /\ export_plain_text d = Ok [120; 97; 98; 10; 99; 100]%N
  /\ replace_text no_engines d [99]%N [122]%N plain_find true = Ok (d', 1%Z, 0%Z)
  /\ export_plain_text d' = Ok [120; 97; 98; 10; 99; 122]%N.
Proof. exact replace_stale_fails. Qed.
Print Assumptions replace_stale_refuted.
Example replace_stale_refuted_case : export_plain_text two_paras = Ok [97; 98; 10; 99; 100]%N.
Proof. vm_compute. easy. Qed.
