(** Searching and replacing in a document with a table (C76). *)
From Verif Require Import Base RopeModel SearchModel SearchSpec TableModel TableSpec TableTextModel TableTextSpec TableEditModel TableEditSpec TableEditRefuted PropSpec FlowSpec
  XCopyRefuted XSearchModel XSearchSpec XSearchTheorems XSearchRefuted.
Local Open Scope Z_scope.

(** All places of the query in the text of the document, that of the cells included. *)
Theorem find_all_with_table : forall g x ts query o, edited x -> document_texts x ts -> case_sensitive o = true -> use_regex o = false ->
  exists ms, x_find_all g x query o = Ok ms /\ reports (hits g o (joined ts) query) (length query) ms.
Proof. exact x_find_all_theorem. Qed.
Print Assumptions find_all_with_table.
Example find_all_with_table_case : edited three /\ document_texts three three_texts /\ x_find_all no_engines three [113]%N plain_find = Ok [(7%nat, 1%nat)]
  /\ x_find_all no_engines three [10]%N plain_find = Ok [(2, 1); (4, 1); (6, 1); (8, 1)]%nat.
Proof. split; [exact three_edited|]. split; [exact three_read|]. split; vm_compute; reflexivity. Qed.

(** The nearest one. *)
Theorem find_nearest_with_table : forall g x ts query o from backward, edited x -> document_texts x ts -> case_sensitive o = true -> use_regex o = false ->
  exists r, x_find_text g x query o from backward = Ok r
   /\ (if backward then last_before else next_from) (hits g o (joined ts) query) (Z.to_nat from) (option_map fst r) /\ (forall m, r = Some m -> snd m = length query).
Proof. exact x_find_next_theorem. Qed.
Print Assumptions find_nearest_with_table.
Example find_nearest_with_table_case : edited three /\ document_texts three three_texts /\ x_find_text no_engines three [10]%N plain_find 3 false = Ok (Some (4, 1)%nat)
  /\ x_find_text no_engines three [10]%N plain_find 3 true = Ok (Some (2, 1)%nat) /\ x_find_text no_engines three [120]%N plain_find 4 false = Ok None.
Proof. split; [exact three_edited|]. split; [exact three_read|]. repeat split; vm_compute; reflexivity. Qed.

(** Without regard to case, when lowering is character by character. *)
Theorem find_ignoring_case_with_table : forall g x ts query o lc, edited x -> document_texts x ts -> case_sensitive o = false -> use_regex o = false ->
  lower g (joined ts) = map lc (joined ts) -> lower g query = map lc query ->
  exists ms, x_find_all g x query o = Ok ms /\ reports (hits_folded g o lc (joined ts) query) (length query) ms.
Proof. exact x_find_folded_theorem. Qed.
Print Assumptions find_ignoring_case_with_table.
Example find_ignoring_case_with_table_case : let lc := fun c => if ((65 <=? c) && (c <=? 90))%N then (c + 32)%N else c in
  let g := mk_engines (map lc) (fun _ => []) (fun _ _ _ => None) in
  edited three /\ document_texts three three_texts /\ x_find_all g three [81]%N fold_find = Ok [(7%nat, 1%nat)] /\ x_find_all g three [81]%N plain_find = Ok [].
Proof. split; [exact three_edited|]. split; [exact three_read|]. split; vm_compute; reflexivity. Qed.

(** With a regular expression: the matches of the engine, in characters. *)
Theorem find_regex_with_table : forall g x ts query o l, edited x -> document_texts x ts ->
  query <> [] -> use_regex o = true -> rx g query (negb (case_sensitive o)) (joined ts) = Some l ->
  Forall (fun y => exists p n, SearchSpec.covers (joined ts) p n y) l ->
  exists ms, x_find_all g x query o = Ok ms
   /\ (forall p n, In (p, n) ms <-> (exists y, In y l /\ SearchSpec.covers (joined ts) p n y)
         /\ (whole_word o = true -> at_word_edge (words g) (joined ts) p /\ at_word_edge (words g) (joined ts) (p + n)))
   /\ (whole_word o = false -> Forall2 (fun m y => SearchSpec.covers (joined ts) (fst m) (snd m) y) ms l).
Proof. exact x_find_regex_theorem. Qed.
Print Assumptions find_regex_with_table.
Example find_regex_with_table_case : let g := mk_engines (fun s => s) (fun _ => []) (fun _ _ _ => Some [(3, 6)]%nat) in
  edited three /\ document_texts three three_texts /\ rx g [46]%N false (joined three_texts) = Some [(3, 6)]%nat /\ SearchSpec.covers (joined three_texts) 3 3 (3, 6)%nat
  /\ x_find_all g three [46]%N (mk_options true false true) = Ok [(3, 3)]%nat.
Proof.
  split; [exact three_edited|]. split; [exact three_read|]. split; [reflexivity|]. split; [|vm_compute; reflexivity].
  exists [97; 98; 10]%N, [120; 10; 121]%N, [10; 113; 10; 99; 100; 101; 102; 103; 104]%N. repeat split.
Qed.

(** Replacing ranges that do not overlap: those inside one paragraph, in a cell or outside,
    are replaced, or the first of them; the others are counted as skipped. Everything on
    record is right again and the table keeps its cells. *)
Theorem replace_ranges_with_table : forall x ts ms (all : bool) r, edited x -> document_texts x ts -> fitting ts ms ->
  let inside := filter (within ts) ms in let done := if all then inside else firstn 1 inside in
  exists x', x_replace_matches x ms all r = Ok (x', Z.of_nat (length done), Z.of_nat (length ms) - Z.of_nat (length inside))
   /\ document_texts x' (replaced_all r ts done) /\ joined (replaced_all r ts done) = rewrite r 0 done (joined ts)
   /\ recorded_right x' (replaced_all r ts done) /\ same_blocks (x_table x) (x_table x').
Proof. exact x_replace_theorem. Qed.
Print Assumptions replace_ranges_with_table.
Example replace_ranges_with_table_case : edited three /\ document_texts three three_texts /\ fitting three_texts [(1, 1); (4, 3); (7, 1); (10, 2)]%nat
  /\ filter (within three_texts) [(1, 1); (4, 3); (7, 1); (10, 2)]%nat = [(1, 1); (7, 1); (10, 2)]%nat
  /\ exists x', x_replace_matches three [(1, 1); (4, 3); (7, 1); (10, 2)]%nat true [122; 122]%N = Ok (x', 3, 1)
     /\ read_texts x' = [[97; 122; 122]; [120]; [121]; [122; 122]; [99; 122; 122; 102; 103; 104]]%N.
Proof.
  split; [exact three_edited|]. split; [exact three_read|]. split; [exact four_ranges|]. split; [reflexivity|]. eexists. split; vm_compute; reflexivity.
Qed.

(** The same through the search. Missing: queries whose places overlap (C18). *)
Theorem replace_text_with_table_partial : forall g x ts query o (all : bool) r, edited x -> document_texts x ts -> case_sensitive o = true -> use_regex o = false -> never_overlaps query (joined ts) ->
  exists x' ms, let inside := filter (within ts) ms in let done := if all then inside else firstn 1 inside in
   reports (hits g o (joined ts) query) (length query) ms
   /\ x_replace_text g x query r o all = Ok (x', Z.of_nat (length done), Z.of_nat (length ms) - Z.of_nat (length inside))
   /\ document_texts x' (replaced_all r ts done) /\ joined (replaced_all r ts done) = rewrite r 0 done (joined ts)
   /\ recorded_right x' (replaced_all r ts done) /\ same_blocks (x_table x) (x_table x').
Proof. exact x_replace_literal_theorem. Qed.
Print Assumptions replace_text_with_table_partial.
Example replace_text_with_table_case : edited three /\ document_texts three three_texts /\ never_overlaps [121]%N (joined three_texts)
  /\ exists x', x_replace_text no_engines three [121]%N [97; 97; 97]%N plain_find true = Ok (x', 1, 0) /\ read_texts x' = [[97; 98]; [120]; [97; 97; 97]; [113]; [99; 100; 101; 102; 103; 104]]%N.
Proof. split; [exact three_edited|]. split; [exact three_read|]. split; [apply no_overlap|]. eexists. split; vm_compute; reflexivity. Qed.

(** After a deletion above the table the search reports a place where the query is not. *)
Theorem find_after_deletion_refuted : exists x x' ts m query, edited x /\ x_delete x 0 1 = Ok (Some x') /\ document_texts x' ts
  /\ x_find_all no_engines x' query plain_find = Ok [m] /\ occurs query (joined ts) 2 /\ ~ occurs query (joined ts) (fst m).
Proof. exact found_elsewhere_refuted. Qed.
Print Assumptions find_after_deletion_refuted.

(** And replacing "p" by "q" leaves the "p" and writes over a "y". *)
Theorem replace_after_deletion_refuted : exists x x' x2 ts, edited x /\ x_delete x 0 1 = Ok (Some x') /\ document_texts x' ts /\ joined ts = [98; 10; 112; 10; 120; 10; 121; 121; 121; 121]%N
  /\ x_replace_text no_engines x' [112]%N [113]%N plain_find true = Ok (x2, 1, 0) /\ document_texts x2 [[98]; [112]; [120]; [113; 121; 121; 121]]%N.
Proof. exact replaced_elsewhere_refuted. Qed.
Print Assumptions replace_after_deletion_refuted.
