(** C01-C06, C41, C43: importing and editing text.

    [reach d]: [d] is obtained from a new document by any calls. [doc_items d] is
    what the document shows: characters with their formats, and paragraph breaks.
    [clip its p] is the position [p] brought between the start and the end. *)
From Verif Require Import Base FormatRunsModel FormatRunsSpec RopeModel DocModel DocSpec HistModel HistSpec
  QueryModel QuerySpec PropSpec DocTheorems QueryTheorems DocRefuted.

(** C01. After [set_plain_text s] the document is [s] with uniform line endings,
    one paragraph per line, no format, and the counters are right. *)
Theorem plain_text_round_trip : forall d s, reach d ->
  let d' := import_plain_text d s in
  let t := unify false s in
  doc_items d' = Ok (text_items t) /\ export_plain_text d' = Ok t
  /\ character_count d' = Ok (count_chars (text_items t)) /\ block_count d' = Ok (count_paras (text_items t))
  /\ para_attrs d' = repeat (Some (None, bfmt_default)) (count_paras (text_items t)).
Proof. exact import_theorem. Qed.
Print Assumptions plain_text_round_trip.
Example plain_text_round_trip_case :
  reach new_document
  /\ unify false [97; 13; 10; 10; 13; 233]%N = [97; 10; 10; 10; 233]%N
  /\ export_plain_text (import_plain_text new_document [97; 13; 10; 10; 13; 233]%N) = Ok [97; 10; 10; 10; 233]%N.
Proof. split; [constructor|]. split; vm_compute; reflexivity. Qed.

(** What a reachable document shows can always be read, and exporting it gives
    its characters with a line feed per break. *)
Theorem reachable_readable : forall d, reach d ->
  exists its, doc_items d = Ok its /\ export_plain_text d = Ok (plain its).
Proof. exact reach_readable. Qed.
Print Assumptions reachable_readable.

(** C02. Typing at any position inserts the text there; it takes the format of
    the character before it; nothing else changes; the new position is its end. *)
Theorem typing_inserts : forall d p text, reach d ->
  exists its d' u, doc_items d = Ok its
   /\ insert_text_simple d p text = Ok (d', Z.of_nat (clip its p + length text), u)
   /\ doc_items d' = Ok (spec_insert (clip its p) text its) /\ para_attrs d' = para_attrs d.
Proof. exact insert_theorem. Qed.
Print Assumptions typing_inserts.
Example typing_inserts_case :
  reach two_paras /\ bind (insert_text_simple two_paras 4 [8364]%N) (fun x => export_plain_text (fst (fst x)))
                     = Ok [97; 98; 10; 99; 8364; 100]%N.
Proof. split; [apply two_paras_reach|vm_compute; reflexivity]. Qed.

(** C03. Deleting between two positions removes exactly the items between them,
    returns their text; the first paragraph of the range keeps its attributes
    and the merged paragraphs' attributes go. *)
Theorem deleting_removes : forall d p a, reach d ->
  exists its d', doc_items d = Ok its
   /\ let s := clip its (Z.min p a) in let e := clip its (Z.max p a) in
      delete_text d p a = Ok (d', Z.min p a, plain (firstn (e - s) (skipn s its)))
      /\ doc_items d' = Ok (spec_delete s e its)
      /\ ((p <> a)%Z -> para_attrs d' = firstn (S (breaks s its)) (para_attrs d) ++ skipn (S (breaks e its)) (para_attrs d)).
Proof. exact delete_theorem. Qed.
Print Assumptions deleting_removes.
Example deleting_removes_case :
  reach two_paras /\ bind (delete_text two_paras 4 1) (fun x => bind (export_plain_text (fst (fst x))) (fun t => Ok (t, snd x)))
                     = Ok ([97; 100], [98; 10; 99])%N.
Proof. split; [apply two_paras_reach|vm_compute; reflexivity]. Qed.

(** C04. A paragraph break at any position splits one paragraph; both halves
    keep its attributes. *)
Theorem break_splits : forall d p, reach d ->
  exists its d', doc_items d = Ok its
   /\ insert_block d p = Ok (d', Z.of_nat (clip its p + 1), d_next d)
   /\ doc_items d' = Ok (spec_break (clip its p) its)
   /\ (let k := breaks (clip its p) its in para_attrs d' = firstn (S k) (para_attrs d) ++ skipn k (para_attrs d)).
Proof. exact break_theorem. Qed.
Print Assumptions break_splits.
Example break_splits_case :
  reach two_paras /\ bind (insert_block two_paras 1) (fun x => export_plain_text (fst (fst x)))
                     = Ok [97; 10; 98; 10; 99; 100]%N.
Proof. split; [apply two_paras_reach|vm_compute; reflexivity]. Qed.

(** C41. Formatted insertion. *)
Theorem formatted_insertion : forall d p text f, reach d -> (0 <= p)%Z -> text <> [] ->
  exists its d' u, doc_items d = Ok its
   /\ insert_formatted_simple d p text f = Ok (d', (p + Z.of_nat (length text))%Z, u)
   /\ doc_items d' = Ok (spec_insert_fmt (clip its p) text f its) /\ para_attrs d' = para_attrs d.
Proof. exact insert_fmt_theorem. Qed.
Print Assumptions formatted_insertion.
(** C41, attributes: text inserted with a requested format carries each of these
    six requested attributes. Missing: the others. *)
Theorem inserted_format_partial : forall q,
  let g := ins_to_cfmt (req_to_ins q) in
  let takes := fun A (new now : option A) => forall v, new = Some v -> now = Some v in
  takes _ (q_font_family q) (font_family g) /\ takes _ (q_font_point_size q) (font_point_size g)
  /\ takes _ (q_font_bold q) (font_bold g) /\ takes _ (q_font_italic q) (font_italic g)
  /\ takes _ (q_font_underline q) (font_underline g) /\ takes _ (q_font_strikeout q) (font_strikeout g).
Proof. exact inserted_attrs. Qed.
Print Assumptions inserted_format_partial.
(** A requested weight is dropped; an unset size and family become 0 and "". *)
Theorem inserted_weight_refuted :
  exists q, q_font_weight q = Some 700%Z /\ font_weight (ins_to_cfmt (req_to_ins q)) <> Some 700%Z.
Proof. exact inserted_weight_refuted_w. Qed.
Print Assumptions inserted_weight_refuted.
Theorem inserted_unset_refuted :
  exists q, q_font_point_size q = None /\ q_font_family q = None
   /\ font_point_size (ins_to_cfmt (req_to_ins q)) = Some 0%Z /\ font_family (ins_to_cfmt (req_to_ins q)) = Some [].
Proof. exact inserted_unset_refuted_w. Qed.
Print Assumptions inserted_unset_refuted.
Example formatted_insertion_case :
  reach two_paras
  /\ bind (insert_formatted_simple two_paras 1 [120]%N (set_merge cfmt_default bold_req)) (fun x => doc_items (fst (fst x)))
     = Ok [Chr 97%N cfmt_default; Chr 120%N (set_merge cfmt_default bold_req); Chr 98%N cfmt_default; Brk;
           Chr 99%N cfmt_default; Chr 100%N cfmt_default].
Proof. split; [apply two_paras_reach|vm_compute; reflexivity]. Qed.

(** C05. Any history of cursor edits, whatever their positions: every call
    succeeds, what is shown is the history replayed on the items, and the
    exported text is the history of string splices on the exported text. *)
Theorem histories_are_splices : forall d es, reach d -> Forall edit_ok es ->
  exists its d', doc_items d = Ok its /\ run_edits d es = Ok d'
   /\ doc_items d' = Ok (fold_left (fun its e => spec_edit e its) es its)
   /\ export_plain_text d = Ok (plain its)
   /\ export_plain_text d' = Ok (fold_left string_edit es (plain its)).
Proof. exact edits_theorem. Qed.
Print Assumptions histories_are_splices.
Example histories_are_splices_case :
  let es := [EInsert 1 4 [120; 121]; EBreak 2 2; ERemove 0 9; EInsertFmt 7 7 [122] (mk_insfmt [] 0 true false false false)]%N in
  reach two_paras /\ Forall edit_ok es
  /\ bind (run_edits two_paras es) export_plain_text = Ok [122]%N.
Proof. split; [apply two_paras_reach|]. split; [repeat constructor; discriminate|vm_compute; reflexivity]. Qed.

(** One cursor edit, with the cursor it leaves. *)
Theorem cursor_edit : forall d e, reach d -> edit_ok e ->
  exists its d', doc_items d = Ok its /\ run_edit d e = Ok (d', edit_cursor e its)
   /\ doc_items d' = Ok (spec_edit e its).
Proof. exact edit_theorem. Qed.
Print Assumptions cursor_edit.

(** C06. An edit leaves every character and break before the edited range as it
    was, and moves every one after it, format included; typed characters take the
    format of the character before them (the default one at a paragraph start). *)
Theorem formats_follow_text : forall d e, reach d -> edit_ok e ->
  exists its d' q its', doc_items d = Ok its /\ run_edit d e = Ok (d', q) /\ doc_items d' = Ok its'
   /\ let s := Nat.min (fst (edit_range e)) (length its) in
      let z := Nat.min (snd (edit_range e)) (length its) in
      (forall k, k < s -> nth_error its' k = nth_error its k)
      /\ (forall k, z <= k -> nth_error its' (s + length (edit_text e) + (k - z)) = nth_error its k)
      /\ (forall k c, nth_error (edit_text e) k = Some c ->
           nth_error its' (s + k) = Some (match e with
             | EInsert _ _ _ => Chr c (last_fmt (firstn s its))
             | EInsertFmt _ _ _ x => Chr c (ins_to_cfmt x)
             | _ => Brk end)).
Proof. exact edit_formats_theorem. Qed.
Print Assumptions formats_follow_text.
Example formats_follow_text_case :
  let f := set_merge cfmt_default bold_req in
  reach bold_first /\ bind (run_edit bold_first (EInsert 1 1 [120; 121])%N) (fun x => doc_items (fst x))
      = Ok [Chr 97%N f; Chr 120%N f; Chr 121%N f; Chr 98%N f; Brk; Chr 99%N cfmt_default; Chr 100%N cfmt_default].
Proof. split; [apply bold_first_reach|vm_compute; reflexivity]. Qed.
