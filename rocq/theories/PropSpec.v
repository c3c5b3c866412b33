(** Small specifications used by the theorems on documents. *)
From Verif Require Import Base FormatRunsModel FormatRunsSpec RopeModel DocModel DocSpec HistModel HistSpec QueryModel QuerySpec SearchModel SearchSpec
  ListDocModel FragmentModel FragmentText FragmentSpec ImportModel.

(** Line endings made uniform: a carriage return becomes a line feed, and a line
    feed just after a carriage return disappears. *)
Fixpoint unify (after_cr : bool) (s : str) : str :=
  match s with
  | [] => []
  | c :: s' =>
      if N.eqb c CR then NL :: unify true s'
      else if N.eqb c NL && after_cr then unify false s'
      else c :: unify false s'
  end.

(** The items of a plain text: line feeds are paragraph breaks. *)
Definition text_items (s : str) : list item :=
  map (fun c => if N.eqb c NL then Brk else Chr c cfmt_default) s.

(** Paragraphs: the items between the breaks. *)
Fixpoint paragraphs (its : list item) : list (list item) :=
  match its with
  | [] => [[]]
  | Brk :: rest => [] :: paragraphs rest
  | x :: rest => match paragraphs rest with p :: ps => (x :: p) :: ps | [] => [[x]] end
  end.
(** Position of the first character of paragraph [k]. *)
Definition para_start (k : nat) (its : list item) : nat :=
  fold_right (fun p n => length p + 1 + n) 0 (firstn k (paragraphs its)).

(** The paragraph a position belongs to: the number of breaks before it, except
    that the end of a paragraph that is neither empty nor the last one belongs
    to the following paragraph. *)
Definition owner (its : list item) (q : nat) : nat :=
  breaks q its +
  match nth_error its q, rev (firstn q its) with
  | Some Brk, Chr _ _ :: _ => 1
  | _, _ => 0
  end.

(** Everything a document stores, except the counter that numbers new blocks;
    maps are compared key by key. *)
Record same_document (a b : doc) : Prop := {
  sd_rope : rope (d_rs a) = rope (d_rs b);
  sd_entries : entries (index (d_rs a)) = entries (index (d_rs b));
  sd_total : total (index (d_rs a)) = total (index (d_rs b));
  sd_midx : forall m, midx (index (d_rs a)) m = midx (index (d_rs b)) m;
  sd_anchors : anchor_count (index (d_rs a)) = anchor_count (index (d_rs b));
  sd_blocks : d_blocks a = d_blocks b;
  sd_runs : forall i, d_runs a i = d_runs b i;
  sd_images : forall i, d_images a i = d_images b i;
  sd_fblocks : d_fblocks a = d_fblocks b;
  sd_order : d_order a = d_order b;
  sd_chars : d_chars a = d_chars b;
  sd_nblocks : d_nblocks a = d_nblocks b
}.

(** Documents obtained from an imported text or page by editing calls whose positions
    are inside the document, by formatting calls, by replacing ranges that do
    not overlap when the stored positions are right, and by pastes that keep
    the counts. *)
Inductive counted : doc -> Prop :=
| counted_import d s : reach d -> counted (import_plain_text d s)
| counted_edit d its e d' q :
    counted d -> edit_ok e -> doc_items d = Ok its -> snd (edit_range e) <= length its ->
    run_edit d e = Ok (d', q) -> counted d'
| counted_format d m p a d' ivs : counted d -> format_text m d p a = Ok (d', ivs) -> counted d'
| counted_block_format d q p a d' : counted d -> set_block_format q d p a = Ok d' -> counted d'
| counted_replace d its ms all r d' n s :
    counted d -> fresh_positions d -> doc_items d = Ok its -> good_ranges its ms ->
    replace_matches d ms all r = Ok (d', n, s) -> counted d'
| counted_list d i l : counted d -> counted (set_block_list d i l)
| counted_paste L its fbs p L' np k :
    counted (l_doc L) -> Forall text_only fbs -> single_inline fbs \/ in_order (l_doc L) ->
    doc_items (l_doc L) = Ok its -> keeps_counts fbs its (clip its p) = true ->
    insert_fragment L p p (Some fbs) = Ok (L', np, k) -> counted (l_doc L')
| counted_import_parsed html L bs :
    reach (l_doc L) -> bs <> [] -> counted (l_doc (import_parsed html L bs)).

(** Documents obtained from an imported text or page, or from any edited document by a
    deletion that ends in its last paragraph, by paragraph breaks, formatting,
    typing in the last paragraph only, replacing ranges that do not overlap, and
    pastes that keep the positions. *)
Inductive tidy : doc -> Prop :=
| tidy_import d s : reach d -> tidy (import_plain_text d s)
| tidy_break d p d' np i : tidy d -> insert_block d p = Ok (d', np, i) -> tidy d'
| tidy_format d m p a d' ivs : tidy d -> format_text m d p a = Ok (d', ivs) -> tidy d'
| tidy_block_format d q p a d' : tidy d -> set_block_format q d p a = Ok d' -> tidy d'
| tidy_type d its p text d' np u :
    tidy d -> doc_items d = Ok its -> breaks (clip its p) its = breaks (length its) its ->
    insert_text_simple d p text = Ok (d', np, u) -> tidy d'
| tidy_delete d its p a d' np cut :
    reach d -> doc_items d = Ok its -> p <> a -> breaks (clip its (Z.max p a)) its = breaks (length its) its ->
    delete_text d p a = Ok (d', np, cut) -> tidy d'
| tidy_replace d its ms all r d' n s :
    tidy d -> doc_items d = Ok its -> good_ranges its ms ->
    replace_matches d ms all r = Ok (d', n, s) -> tidy d'
| tidy_list d i l : tidy d -> tidy (set_block_list d i l)
| tidy_paste L its fbs p L' np k :
    tidy (l_doc L) -> Forall text_only fbs -> doc_items (l_doc L) = Ok its ->
    keeps_positions fbs its (clip its p) = true ->
    insert_fragment L p p (Some fbs) = Ok (L', np, k) -> tidy (l_doc L')
| tidy_import_parsed html L bs :
    reach (l_doc L) -> bs <> [] -> tidy (l_doc (import_parsed html L bs)).

(** A paragraph of [n] characters from position [s] is touched by the selection
    [rs..re] when one of its characters' positions is in the selection; an empty
    paragraph has its one position instead. *)
Definition selected_para (s n : nat) (rs re : Z) : Prop :=
  exists x, s <= x < s + Nat.max 1 n /\ (rs <= Z.of_nat x <= re)%Z.
