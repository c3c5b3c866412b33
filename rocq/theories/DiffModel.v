(** Change reports: the text difference computed after undo and redo, the flow
    difference computed after every edit, and the shifting of positions.

    Sources: crates/public_api/src/document.rs, crates/public_api/src/inner.rs. *)
From Verif Require Import Base.

Section Diff.
Context {A : Type} (eqb : A -> A -> bool).

(** [a.iter().zip(b.iter()).take_while(|(a, b)| a == b).count()]. *)
Fixpoint common (a b : list A) : nat :=
  match a, b with
  | x :: a', y :: b' => if eqb x y then S (common a' b') else 0
  | _, _ => 0
  end.

(** document.rs:1067-1096 [compute_text_edit]: offset, removed, added. The
    suffix is counted on the whole texts, at most as far as the prefix. *)
Definition compute_text_edit (before after : list A) : nat * nat * nat :=
  let prefix := common before after in
  let br := length before - prefix in
  let ar := length after - prefix in
  let m := Nat.min br ar in
  let suffix := common (firstn m (rev before)) (firstn m (rev after)) in
  (prefix, br - suffix, ar - suffix).

(** inner.rs:237-280 [check_flow_changed]: the events, given the remembered and
    the current child order. *)
Inductive flow_event := FlowRemoved (at_ count : nat) | FlowInserted (at_ count : nat).
Definition flow_events (old new : list A) : list flow_event :=
  let prefix := common old new in
  let suffix := common (rev (skipn prefix old)) (rev (skipn prefix new)) in
  let removed := length old - prefix - suffix in
  let inserted := length new - prefix - suffix in
  (if 0 <? removed then [FlowRemoved prefix removed] else [])
  ++ (if 0 <? inserted then [FlowInserted prefix inserted] else []).
End Diff.

(** inner.rs:420-428 [adjust_offset]. *)
Definition adjust_offset (offset edit_pos removed added : nat) : nat :=
  if offset <=? edit_pos then offset
  else if offset <=? edit_pos + removed then edit_pos + added
  else offset - removed + added.

(** document.rs:1014-1021 [UndoBlockState]; the block format is any type with
    an equality. *)
Record bstate (F : Type) := mk_bstate { bs_id : N; bs_pos : nat; bs_text : str; bs_fmt : F }.
Arguments mk_bstate {F}. Arguments bs_id {F}. Arguments bs_pos {F}. Arguments bs_text {F}. Arguments bs_fmt {F}.

(** document.rs:1059-1065 [build_doc_text]: texts joined with line feeds. *)
Fixpoint join_nl (ts : list str) : str :=
  match ts with [] => [] | [t] => t | t :: rest => t ++ NL :: join_nl rest end.
Definition build_doc_text {F} (l : list (bstate F)) : str := join_nl (map bs_text l).

(** document.rs:1098-1190 [emit_undo_redo_change_events], the region of the
    [ContentsChanged] event: [None] when no content changed. Negative positions
    do not occur: positions are [nat]. [text_length] is the length of the text. *)
Definition find_state {F} (l : list (bstate F)) (i : N) : option (bstate F) :=
  find (fun s => (bs_id s =? i)%N) l.
(** document.rs:1108-1112, 1124-1129: [earliest_pos], [old_end], [new_end]. *)
Record region := mk_region { rg_pos : option nat; rg_old : nat; rg_new : nat; rg_blocks : nat }.
Definition earliest (r : region) (p : nat) : option nat :=
  Some (match rg_pos r with None => p | Some q => Nat.min q p end).
Definition str_eqb (a b : str) : bool := if list_eq_dec N.eq_dec a b then true else false.
(** document.rs:1117-1151. *)
Definition region_after {F} (before : list (bstate F)) (r : region) (s : bstate F) : region :=
  match find_state before (bs_id s) with
  | Some b =>
      if str_eqb (bs_text b) (bs_text s) then r
      else mk_region (earliest r (bs_pos s))
                     (Nat.max (rg_old r) (bs_pos b + length (bs_text b)))
                     (Nat.max (rg_new r) (bs_pos s + length (bs_text s))) (S (rg_blocks r))
  | None =>
      mk_region (earliest r (bs_pos s)) (rg_old r)
                (Nat.max (rg_new r) (bs_pos s + length (bs_text s))) (S (rg_blocks r))
  end.
(** document.rs:1154-1162. *)
Definition region_before {F} (after : list (bstate F)) (r : region) (b : bstate F) : region :=
  match find_state after (bs_id b) with
  | Some _ => r
  | None => mk_region (earliest r (bs_pos b)) (Nat.max (rg_old r) (bs_pos b + length (bs_text b)))
                      (rg_new r) (S (rg_blocks r))
  end.
(** document.rs:1164-1185: position, removed, added and number of blocks. *)
Definition undo_event {F} (before after : list (bstate F)) : option (nat * nat * nat * nat) :=
  let r := fold_left (region_before after) before
             (fold_left (region_after before) after (mk_region None 0 0 0)) in
  match rg_pos r with
  | None => None
  | Some p => Some (p, rg_old r - p, rg_new r - p, rg_blocks r)
  end.
