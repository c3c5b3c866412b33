(** What searching and replacing in a document with a table should do: the text of the
    document is its paragraphs in order, with a line feed between them. *)
From Verif Require Import Base DocSpec SearchModel SearchSpec TableEditSpec FlowSpec.

(** The range [m] lies inside paragraph [k]. *)
Definition lies_in (ts : list str) (m : nat * nat) (k : nat) : bool :=
  match nth_error ts k with
  | Some t => (start_of k ts <=? fst m) && (fst m + snd m <=? start_of k ts + length t)
  | None => false
  end.
(** It lies inside one of them. *)
Definition within (ts : list str) (m : nat * nat) : bool := existsb (lies_in ts m) (seq 0 (length ts)).
(** The ranges replaced in their paragraphs, from the last to the first. *)
Definition replaced_all (r : str) (ts : list str) (ms : list (nat * nat)) : list str :=
  fold_right (fun m us => match find (lies_in ts m) (seq 0 (length ts)) with
     | Some k => replaced us k (fst m - start_of k ts) (fst m - start_of k ts + snd m) r | None => us end) ts ms.
(** Ranges of the text that can be replaced together. *)
Definition fitting (ts : list str) (ms : list (nat * nat)) : Prop :=
  apart 0 ms /\ Forall (fun m => fst m + snd m <= length (joined ts)) ms.
