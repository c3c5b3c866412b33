(** What a flat document is to its user: a sequence of characters, each with a
    format, and paragraph breaks. Written without the editing functions of the
    model; [doc_items] reads a document with the two read accessors a user has
    (the text of a paragraph, the format in force at a character). *)
From Verif Require Import Base FormatRunsModel FormatRunsSpec RopeModel DocModel SearchModel ListDocModel
  FragmentModel FragmentText ImportModel.

Inductive item := Chr (c : char) (f : cfmt) | Brk.

(** Plain text: a break is a newline. *)
Definition item_char (x : item) : char := match x with Chr c _ => c | Brk => NL end.
Definition plain (its : list item) : str := map item_char its.

(** Characters of one paragraph with the format in force at each of them;
    [off] is the byte offset of the first one. *)
Fixpoint styled_from (off : nat) (t : str) (runs : list run) : list item :=
  match t with
  | [] => []
  | c :: t' => Chr c (eff_at runs off) :: styled_from (off + utf8_len c) t' runs
  end.
Definition styled (t : str) (runs : list run) : list item := styled_from 0 t runs.

(** Paragraphs in display order. *)
Fixpoint read_items (d : doc) (is_ : list id) : res (list item) :=
  match is_ with
  | [] => Ok []
  | [i] => let! t := block_content (d_rs d) i in Ok (styled t (d_runs d i))
  | i :: rest =>
      let! t := block_content (d_rs d) i in
      let! more := read_items d rest in
      Ok (styled t (d_runs d i) ++ Brk :: more)
  end.
Definition doc_items (d : doc) : res (list item) := read_items d (d_order d).

(** Format of the character just before the end of [l]; the default format at
    the start of a paragraph. *)
Definition last_fmt (l : list item) : cfmt :=
  match rev l with Chr _ f :: _ => f | _ => cfmt_default end.

(** Editing as list surgery. *)
Definition spec_insert (p : nat) (text : str) (its : list item) : list item :=
  firstn p its ++ map (fun c => Chr c (last_fmt (firstn p its))) text ++ skipn p its.
Definition spec_insert_fmt (p : nat) (text : str) (f : cfmt) (its : list item) : list item :=
  firstn p its ++ map (fun c => Chr c f) text ++ skipn p its.
Definition spec_delete (s e : nat) (its : list item) : list item :=
  firstn s its ++ skipn e its.
Definition spec_break (p : nat) (its : list item) : list item :=
  firstn p its ++ Brk :: skipn p its.
Definition restyle (m : cfmt -> cfmt) (x : item) : item :=
  match x with Chr c f => Chr c (m f) | Brk => Brk end.
Definition spec_format (m : cfmt -> cfmt) (s e : nat) (its : list item) : list item :=
  firstn s its ++ map (restyle m) (firstn (e - s) (skipn s its)) ++ skipn e its.

(** A position given by the caller, brought into the document. *)
Definition clip (its : list item) (p : Z) : nat :=
  Z.to_nat (Z.max 0 (Z.min p (Z.of_nat (length its)))).

(** Characters and paragraphs of a document. *)
Definition is_break (x : item) : bool := match x with Brk => true | Chr _ _ => false end.
Definition count_chars (its : list item) : nat := length (filter (fun x => negb (is_break x)) its).
Definition count_paras (its : list item) : nat := S (length (filter is_break its)).

(** Number of paragraph breaks before a position. *)
Definition breaks (n : nat) (its : list item) : nat := length (filter is_break (firstn n its)).

(** List membership and block format of a paragraph, and of all of them in
    display order. *)
Definition attr (d : doc) (i : id) : option (option id * bfmt) :=
  option_map (fun b => (b_list b, b_fmt b)) (get_block d i).
Definition para_attrs (d : doc) : list (option (option id * bfmt)) := map (attr d) (d_order d).

(** Replacing the characters [s..e) of a string. *)
Definition splice (s e : nat) (text t : str) : str := firstn s t ++ text ++ skipn e t.

(** A range given by two positions in either order. *)
Definition lo (its : list item) (p a : nat) : nat := Nat.min (Nat.min p a) (length its).
Definition hi (its : list item) (p a : nat) : nat := Nat.min (Nat.max p a) (length its).

(** Every paragraph's stored position is its real one: the positions the range
    formatting functions read. *)
Fixpoint fresh_from (d : doc) (pos : nat) (is_ : list id) : Prop :=
  match is_ with
  | [] => True
  | i :: rest =>
      exists b t, get_block d i = Some b /\ block_content (d_rs d) i = Ok t
        /\ b_pos b = Z.of_nat pos /\ fresh_from d (pos + length t + 1) rest
  end.
Definition fresh_positions (d : doc) : Prop := fresh_from d 0 (d_order d).

(** States a program can reach with the operations of the model, whatever
    their arguments, as long as they return. Formatted insertion is called with
    a position that is not negative (the public API takes [usize] positions) and
    with some text: with the empty text it stores an empty run, which
    [empty_formatted_insert_refuted] shows separately. *)
Inductive reach : doc -> Prop :=
| reach_new : reach new_document
| reach_import d s : reach d -> reach (import_plain_text d s)
| reach_insert d p text d' np u :
    reach d -> insert_text_simple d p text = Ok (d', np, u) -> reach d'
| reach_replace d p a text d' np :
    reach d -> insert_text_selection d p a text = Ok (d', np) -> reach d'
| reach_delete d p a d' np cut :
    reach d -> delete_text d p a = Ok (d', np, cut) -> reach d'
| reach_break d p d' np i :
    reach d -> insert_block d p = Ok (d', np, i) -> reach d'
| reach_format d m p a d' ivs :
    reach d -> format_text m d p a = Ok (d', ivs) -> reach d'
| reach_block_format d q p a d' :
    reach d -> set_block_format q d p a = Ok d' -> reach d'
| reach_insert_fmt d p text f d' np u :
    reach d -> text <> [] -> (0 <= p)%Z -> insert_formatted_simple d p text f = Ok (d', np, u) -> reach d'
| reach_replace_fmt d p a text f d' np :
    reach d -> text <> [] -> (0 <= Z.min p a)%Z -> insert_formatted_selection d p a text f = Ok (d', np) -> reach d'
| reach_matches d ms all r d' n s :
    reach d -> replace_matches d ms all r = Ok (d', n, s) -> reach d'
| reach_restore d snap :
    reach d -> reach snap -> (d_next snap <= d_next d)%N -> reach (restore_snapshot d snap)
| reach_list d i l : reach d -> reach (set_block_list d i l)
| reach_paste L fbs p L' np k :
    reach (l_doc L) -> Forall text_only fbs -> single_inline fbs \/ in_order (l_doc L) ->
    insert_fragment L p p (Some fbs) = Ok (L', np, k) -> reach (l_doc L')
| reach_import_parsed html L bs :
    reach (l_doc L) -> bs <> [] -> reach (l_doc (import_parsed html L bs)).
