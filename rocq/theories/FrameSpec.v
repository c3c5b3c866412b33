(** What a document with frames shows. *)
From Verif Require Import Base FormatRunsModel RopeModel DocModel HistModel QueryModel DocSpec ListModel FrameModel.

(** Documents made by editing a text, then inserting frames into it and typing, anywhere.
    Left out: insertions that put the frame outside the text or inside another frame. *)
Inductive framed : gdoc -> Prop :=
| framed_plain d : reach d -> framed (plain_doc d)
| framed_insert x p x' : framed x -> insert_frame x p = Ok (InMain x') -> framed x'
| framed_type x p text x' np : framed x -> g_insert_text x (Z.of_nat p) text = Ok (x', np) -> framed x'.

(** The paragraphs in the order a reader sees them, with their texts. *)
Fixpoint read_all (st : rstore) (bs : list block) : res (list (id * str)) :=
  match bs with
  | [] => Ok []
  | b :: rest => let! t := block_content st (b_id b) in let! l := read_all st rest in Ok ((b_id b, t) :: l)
  end.
Definition shown (x : gdoc) : res (list (id * str)) := read_all (d_rs (g_doc x)) (g_flow x).
(** The paragraphs of the frames. *)
Definition frame_paras (x : gdoc) : list id := map (fun s => b_id (s_block s)) (g_subs x).

(** Characters up to the end of some paragraphs, one more for each break. *)
Definition before (l : list (id * str)) : nat := fold_right (fun p n => length (snd p) + 1 + n) 0 l.
(** A position moved into the text. *)
Definition inside (l : list (id * str)) (p : nat) : nat := Nat.min p (before l - 1).

(** What a snapshot shows. *)
Definition elem_child (e : element) : child := match e with EBlock s => CBlock (ps_id s) | EFrame f _ => CFrame f end.
Definition elem_paras (e : element) : list psnap := match e with EBlock s => [s] | EFrame _ ss => ss end.
Fixpoint placed_from (pos : nat) (l : list (id * str)) : list psnap :=
  match l with
  | [] => []
  | (i, t) :: rest => mk_psnap i pos t :: placed_from (pos + length t + 1) rest
  end.

(** The stored positions of the paragraphs outside frames grow. *)
Fixpoint growing (l : list Z) : Prop :=
  match l with
  | [] => True
  | a :: rest => Forall (fun b => (a < b)%Z) rest /\ growing rest
  end.
Definition spaced (d : doc) : Prop := growing (map b_pos (get_multi d (d_order d))).
(** Texts on lines of their own. *)
Fixpoint lines (ts : list str) : str :=
  match ts with
  | [] => []
  | [t] => t
  | t :: rest => t ++ 10%N :: lines rest
  end.
(** The paragraphs that are not in frames. *)
Definition outside_frames (x : gdoc) (l : list (id * str)) : list (id * str) :=
  filter (fun p => negb (existsb (N.eqb (fst p)) (frame_paras x))) l.
