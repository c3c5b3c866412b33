(** What it means that a document consists of given paragraphs: their formatted
    characters, their formats, and the lists they are items of. *)
From Verif Require Import Base FormatRunsModel RopeModel DocModel DocSpec PropSpec ListModel ListSpec ListDocModel.

Record dpara := mk_dpara { dp_items : list item; dp_fmt : bfmt; dp_piece : piece }.

Definition document_shows (L : ldoc) (ps : list dpara) : Prop :=
  exists its ls,
    doc_items (l_doc L) = Ok its /\ paragraphs its = map dp_items ps
    /\ length ls = length ps /\ para_attrs (l_doc L) = map Some (combine ls (map dp_fmt ps))
    (* the items are in lists of their style and level, the other paragraphs in none *)
    /\ (forall k st n, nth_error (map dp_piece ps) k = Some (ListModel.Item st n) ->
          exists l, nth_error ls k = Some (Some l) /\ get_list L l = Some (mk_list st (Z.of_nat n) [] []))
    /\ (forall k, nth_error (map dp_piece ps) k = Some Other -> nth_error ls k = Some None)
    (* which items share their list *)
    /\ (forall i j a b, i < j -> nth_error ls i = Some (Some a) -> nth_error ls j = Some (Some b) ->
          (a = b <-> same_list (map dp_piece ps) i j))
    (* the counts kept with the document *)
    /\ d_nblocks (l_doc L) = Z.of_nat (length ps)
    /\ d_chars (l_doc L) = fold_right Z.add 0%Z (map (fun p => Z.of_nat (length (dp_items p))) ps).
