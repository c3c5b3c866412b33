(** What undo and redo of table operations should do. *)
From Verif Require Import Base RopeModel DocModel DocSpec PropSpec UndoModel SessionModel TableModel TableSpec TableTextModel TableTextSpec TableUndoModel.

(** Numbers given out before [n] are shown, later ones are not. *)
Definition seen (n i : id) : option id := if N.ltb i n then Some i else None.
(** A paragraph with its position, its length and its text; a cell with its place,
    its spans, its format and its paragraphs. *)
Definition block_look := (option id * Z * Z * res str)%type.
Definition cell_look := (option id * Z * Z * Z * Z * N * list block_look)%type.
Definition look_block (nb : id) (st : rstore) (b : tblock) : block_look :=
  (seen nb (tb_id b), tb_pos b, tb_len b, block_content st (tb_id b)).
Definition look_cell (nb nc : id) (st : rstore) (c : tcell) : cell_look :=
  (seen nc (tc_id c), tc_row c, tc_col c, tc_rs c, tc_cs c, tc_fmt c, map (look_block nb st) (tc_blocks c)).
(** Everything there is to see in a document with a table, up to the numbers of
    blocks from [nb] on, of cells from [nc] on and of tables from [nt] on. *)
Record look := mk_look {
  k_table : option id; k_rows : Z; k_cols : Z; k_widths : list Z; k_cells : list cell_look; k_others : list block_look;
  k_at : nat; k_count : Z; k_chars : Z; k_rope : str
}.
Definition look_table (nb nc nt : id) (x : xdoc) : look :=
  let d := x_table x in let st := x_store x in
  mk_look (seen nt (x_tid x)) (t_rows d) (t_cols d) (t_widths d) (map (look_cell nb nc st) (t_cells d))
    (map (look_block nb st) (t_others d)) (t_at d) (t_count d) (t_chars d) (rope st).
(** The same document, up to numbers given out since the counters were [n]. *)
Definition same_but_new_numbers (n : id * id * id) (A B : tstate) : Prop :=
  let '(nb, nc, nt) := n in
  match A, B with
  | Plain d _ _, Plain d' _ _ => same_document d d'
  | Tabled x _, Tabled y _ => look_table nb nc nt x = look_table nb nc nt y
  | Bare others m ch st _ _ _, Bare others' m' ch' st' _ _ _ =>
      map (look_block nb st) others = map (look_block nb st') others' /\ m = m' /\ ch = ch' /\ rope st = rope st'
  | _, _ => False
  end.
(** The same document, numbers included; only the counters may differ. *)
Definition same_content (A B : tstate) : Prop :=
  match A, B with
  | Plain d _ _, Plain d' _ _ => same_document d d'
  | Tabled x _, Tabled y _ =>
      let d := x_table x in let d' := x_table y in
      t_rows d' = t_rows d /\ t_cols d' = t_cols d /\ t_widths d' = t_widths d /\ t_cells d' = t_cells d /\ t_others d' = t_others d
      /\ t_at d' = t_at d /\ t_count d' = t_count d /\ t_chars d' = t_chars d /\ x_store y = x_store x /\ x_tid y = x_tid x
  | Bare others n ch st _ _ _, Bare others' n' ch' st' _ _ _ => others' = others /\ n' = n /\ ch' = ch /\ st' = st
  | _, _ => False
  end.

(** Documents to start from: any document without a table, and any table made in
    one and edited. *)
Definition starting (c : tstate) : Prop :=
  match c with
  | Plain d _ _ => reach d
  | Tabled x nt => xhistory x /\ (x_tid x < nt)%N
  | Bare _ _ _ _ _ _ _ => False
  end.
(** The table and the cell a request names were there when the counters were [n]. *)
Definition names_old (n : id * id * id) (r : trequest) : Prop :=
  let '(_, nc, nt) := n in
  match r with
  | NewTable _ _ _ _ => True
  | OnTable _ (Split i _ _) => (i < nc)%N
  | OnTable t _ => (t < nt)%N
  | DropTable t => (t < nt)%N
  end.
(** No group is open, and the document's stack is there: so it is in a new
    document, and after every call. *)
Record resting (m : manager tcmd) : Prop := {
  rest_open : open m = None; rest_level : level m = 0; rest_stack : get_stack m 1 <> None
}.
(** Undo and redo in any order: [k] of [n] calls are done before, the result is how
    many are done after; [None] when undone or redone too often. *)
Fixpoint walk (n k : nat) (us : list tcall) : option nat :=
  match us with
  | [] => Some k
  | TUndo :: rest => match k with O => None | S k' => walk n k' rest end
  | TRedo :: rest => if k <? n then walk n (S k) rest else None
  | TDo _ :: _ => None
  end.
