(** C15, C19, C29, C33, C36, C38: reading a document. *)
From Verif Require Import Base FormatRunsModel FormatRunsSpec RopeModel DocModel DocSpec HistModel HistSpec
  QueryModel QuerySpec QueryFacts PropSpec DocTheorems QueryTheorems DocRefuted.

(** C15. The block at a position is the paragraph that owns it, with its start,
    length and number. *)
Theorem block_at_owner : forall d p, reach d ->
  exists its i n para, doc_items d = Ok its /\ n = owner its (clip its p)
   /\ nth_error (d_order d) n = Some i /\ nth_error (paragraphs its) n = Some para
   /\ block_at_position d p = Ok (i, Z.of_nat (para_start n its), Z.of_nat (length para), Z.of_nat n).
Proof. exact block_at_theorem. Qed.
Print Assumptions block_at_owner.
Example block_at_owner_case : reach typed_first
  /\ block_at_position typed_first 5 = Ok (3%N, 6, 2, 1)%Z /\ block_at_position typed_first 4 = Ok (2%N, 0, 5, 0)%Z.
Proof. split; [apply typed_first_reach|]. split; vm_compute; reflexivity. Qed.

(** C19, C36. Every paragraph handle of every reachable document: its text,
    position, number and neighbours are those of the paragraph; its fragments
    cover it exactly, with its formats; the format at every offset is right. *)
Theorem paragraph_handles : forall d its k i para, reach d -> doc_items d = Ok its ->
  nth_error (d_order d) k = Some i -> nth_error (paragraphs its) k = Some para ->
  block_text d i = Ok (plain para)
  /\ block_position d i = Ok (para_start k its) /\ block_number d i = Ok k
  /\ block_next d i = Ok (nth_error (d_order d) (S k))
  /\ block_previous d i = Ok (match k with 0 => None | S j => nth_error (d_order d) j end)
  /\ (exists fs, block_fragments d i = Ok fs /\ flat_map frag_items fs = para
        /\ flat_map frag_images_of fs = [] /\ layout i 0 0 fs (length para) (blen (plain para)))
  /\ (forall o, char_format_at d i o = Ok (match nth_error para o with Some (Chr _ f) => Some f | _ => None end)).
Proof. exact paragraph_theorem. Qed.
Print Assumptions paragraph_handles.
(** There are as many handles as paragraphs. *)
Theorem paragraph_handles_number : forall d its, reach d -> doc_items d = Ok its ->
  length (d_order d) = length (paragraphs its).
Proof. exact paragraphs_number. Qed.
Print Assumptions paragraph_handles_number.
Example paragraph_handles_case : reach typed_first
  /\ block_position typed_first 3%N = Ok 6 /\ block_next typed_first 2%N = Ok (Some 3%N).
Proof. split; [apply typed_first_reach|]. split; vm_compute; reflexivity. Qed.

(** C19, images included: any text, well-formed runs, and images in order on
    character edges. An image takes one offset. *)
Theorem fragments_cover : forall t b runs imgs, wf_runs t runs -> img_ok t 0 imgs ->
  exists fs, build_raw_fragments t b runs imgs = Ok fs
    /\ flat_map frag_items fs = styled t runs /\ flat_map frag_images_of fs = imgs
    /\ layout b 0 0 fs (length t + length imgs) (blen t).
Proof. exact fragments_ok. Qed.
Print Assumptions fragments_cover.
Example fragments_cover_case :
  let f := set_merge cfmt_default bold_req in
  let im := mk_image 3 [] 1 1 100 cfmt_default in
  wf_runs [97; 233; 98; 99]%N [mk_run 1 4 f] /\ img_ok [97; 233; 98; 99]%N 0 [im]
  /\ build_raw_fragments [97; 233; 98; 99]%N 7%N [mk_run 1 4 f] [im]
     = Ok [FText [97%N] cfmt_default 0 1 (synth_element_id 7%N 0); FText [233%N] f 1 1 (synth_element_id 7%N 1);
           FImage im 2 (synth_element_id 7%N 3); FText [98%N] f 3 1 (synth_element_id 7%N 3);
           FText [99%N] cfmt_default 4 1 (synth_element_id 7%N 4)].
Proof.
  cbv zeta. split; [|split].
  - split; [cbn; lia|]. split; [exact I|]. constructor; [|constructor]. split; [exists 1|exists 3]; split; (cbn; lia) || reflexivity.
  - split; [exact I|]. constructor; [|constructor]. split; [|cbn; lia]. exists 2. split; [cbn; lia|reflexivity].
  - vm_compute. reflexivity.
Qed.

(** C29. The counters and the largest cursor position are right after any edits
    inside the document. Missing: documents that were never imported, and
    selections that reach past the end. *)
Theorem statistics_partial : forall d, counted d ->
  exists its, doc_items d = Ok its /\ character_count d = Ok (count_chars its) /\ block_count d = Ok (count_paras its)
   /\ max_cursor_position d = Ok (length its).
Proof. exact stats_theorem. Qed.
Print Assumptions statistics_partial.
Theorem word_count_exact : forall d, reach d ->
  exists its, doc_items d = Ok its /\ word_count d = Ok (Z.of_nat (count_words (plain its))).
Proof. exact words_theorem. Qed.
Print Assumptions word_count_exact.
Example statistics_case : counted two_paras /\ character_count two_paras = Ok 4 /\ word_count two_paras = Ok 2%Z
  /\ max_cursor_position two_paras = Ok 5.
Proof. split; [apply two_paras_counted|]. vm_compute. auto. Qed.
Theorem statistics_new_refuted :
  exists es d its, Forall edit_ok es /\ run_edits new_document es = Ok d /\ doc_items d = Ok its
   /\ block_count d = Ok 1 /\ count_paras its = 2 /\ max_cursor_position d = Ok 2 /\ length its = 3.
Proof. exact stats_new_refuted_w. Qed.
Print Assumptions statistics_new_refuted.
Theorem statistics_over_range_refuted :
  exists d d' q, counted d /\ run_edit d (ERemove 3 100) = Ok (d', q) /\ character_count d' = Panic.
Proof. exact stats_over_range_refuted_w. Qed.
Print Assumptions statistics_over_range_refuted.

(** C38. Text at a position. *)
Theorem text_at_exact : forall d its p len, reach d -> doc_items d = Ok its -> (0 <= len)%Z ->
  if ((0 <=? p) && (p <=? Z.of_nat (length its)))%Z
  then exists i, nth_error (d_order d) (breaks (Z.to_nat p) its) = Some i
       /\ text_at_position d p len = Ok (i, firstn (Z.to_nat len) (skipn (Z.to_nat p) (plain its)))
  else text_at_position d p len = Err.
Proof. exact text_at_theorem. Qed.
Print Assumptions text_at_exact.
Example text_at_case : reach typed_first /\ text_at_position typed_first 4 3 = Ok (2%N, [98; 10; 99]%N).
Proof. split; [apply typed_first_reach|vm_compute; reflexivity]. Qed.

(** C33. Element ids: different paragraphs or bytes give different ids, none is
    an entity id below 2^62, and the text fragments of a paragraph have different
    ids. Missing: images, and block ids from 2^30. *)
Theorem element_ids_partial : forall b k b' k',
  (b < 2 ^ 30)%N -> (b' < 2 ^ 30)%N -> (N.of_nat k < 2 ^ 32)%N -> (N.of_nat k' < 2 ^ 32)%N ->
  synth_element_id b k = synth_element_id b' k' -> b = b' /\ k = k'.
Proof. exact synth_inj. Qed.
Print Assumptions element_ids_partial.
Theorem element_ids_high : forall b k, (2 ^ 62 <= synth_element_id b k)%N.
Proof. exact synth_not_entity. Qed.
Print Assumptions element_ids_high.
Theorem fragment_ids_distinct : forall b fs off byte off' byte', (b < 2 ^ 30)%N -> (N.of_nat byte' < 2 ^ 32)%N ->
  layout b off byte fs off' byte' -> flat_map frag_images_of fs = [] ->
  byte <= byte' /\ NoDup (map frag_id fs) /\ Forall (fun f => exists k, byte <= k < byte' /\ frag_id f = synth_element_id b k) fs.
Proof. exact layout_ids. Qed.
Print Assumptions fragment_ids_distinct.
Theorem element_ids_image_refuted :
  exists t b imgs fs f g e, wf_runs t [] /\ build_raw_fragments t b [] imgs = Ok fs
   /\ nth_error fs 0 = Some f /\ nth_error fs 1 = Some g /\ frag_id f = e /\ frag_id g = e.
Proof. exact element_ids_refuted_w. Qed.
Print Assumptions element_ids_image_refuted.
Theorem element_ids_mask_refuted : synth_element_id 1%N 0 = synth_element_id (2 ^ 30 + 1)%N 0.
Proof. exact element_ids_mask_refuted_w. Qed.
Print Assumptions element_ids_mask_refuted.
