(** What a DOCX file shows, and what the one of a document should show. *)
From Coq Require Import Sorting.Permutation.
From Verif Require Import Base FormatRunsModel FormatRunsSpec RopeModel DocModel DocSpec QueryModel HistModel PropSpec ExportSpec TableModel TableSpec
  DocxModel.
Local Open Scope Z_scope.

(** The characters of a paragraph with their looks. *)
Definition run_look (r : drun) : look := mk_look (dr_courier r) (dr_bold r) (dr_italic r) (dr_underline r) (dr_strike r) None.
Definition run_shown (r : drun) : list shown := map (fun c => SChar c (run_look r)) (dr_text r).
Definition para_shown (p : dpara) : list shown := flat_map run_shown (dp_runs p).
(** The look of a character of the document; links are not exported. *)
Definition unlinked (k : look) : look := mk_look (k_code k) (k_bold k) (k_italic k) (k_underline k) (k_strike k) None.
Definition item_shown (x : item) : list shown := match x with Chr c f => [SChar c (unlinked (look_of f))] | Brk => [] end.
(** The paragraph [p] of the file shows the paragraph [its] with the format [f]. A line
    height of a thousand is 240. *)
Definition spacing_right (lh : Z) (s : Z) : Prop := (s <= lh * 240 / 1000 <= s + 1)%Z.
Definition faithful (p : dpara) (a : option id * bfmt) (its : list item) : Prop :=
  para_shown p = flat_map item_shown its
  /\ dp_heading p = f_heading_level (snd a) /\ dp_keep p = on (f_non_breakable_lines (snd a))
  /\ match f_line_height (snd a) with
     | Some lh => (0 <= lh <= 4000 -> exists s, dp_spacing p = Some s /\ spacing_right lh s)
     | None => dp_spacing p = None
     end
  /\ Forall (fun r => dr_text r <> []) (dp_runs p).
(** Heading levels are from 1 to 6. *)
Definition proper_heading (a : option id * bfmt) : Prop := match f_heading_level (snd a) with Some h => 1 <= h <= 6 | None => True end.
Inductive all_faithful : list dpara -> list (option id * bfmt) -> list (list item) -> Prop :=
| af_nil : all_faithful [] [] []
| af_cons p ps a atts x its : faithful p a x -> all_faithful ps atts its -> all_faithful (p :: ps) (a :: atts) (x :: its).

(** The stored positions of the paragraphs ascend. *)
Definition ascending_positions (d : doc) : Prop :=
  forall k l i j b c, (k < l)%nat -> nth_error (d_order d) k = Some i -> nth_error (d_order d) l = Some j ->
    get_block d i = Some b -> get_block d j = Some c -> b_pos b < b_pos c.

(** ** Tables *)
(** How a table is laid out: cells one after the other, each over as many columns as it
    takes; one that continues a merge shows the cell above. *)
Fixpoint cell_over {A} (start k : Z) (row : list (dcell A)) : option (dcell A) :=
  match row with
  | [] => None
  | c :: rest => if (start <=? k) && (k <? start + dc_span c) then Some c else cell_over (start + dc_span c) k rest
  end.
Definition row_width {A} (row : list (dcell A)) : Z := fold_right (fun c n => dc_span c + n) 0 row.
Fixpoint laid_out {A} (above : list (list (dcell A))) (k : Z) : option (list A) :=
  match above with
  | [] => None
  | row :: rest =>
      match cell_over 0 k row with
      | Some c => match dc_merge c with Some false => laid_out rest k | _ => Some (dc_paras c) end
      | None => None
      end
  end.
(** What the slot in row [r] and column [k] shows. *)
Definition slot_shown {A} (t : list (list (dcell A))) (r k : Z) : option (list A) := laid_out (rev (firstn (S (Z.to_nat r)) t)) k.
