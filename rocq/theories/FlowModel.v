(** Snapshots of the flow and lookup of paragraphs, documents with one frame.

    Sources: crates/public_api/src/{document,text_frame,text_block}.rs. *)
From Verif Require Import Base FormatRunsModel RopeModel DocModel HistModel QueryModel ListModel ListDocModel.

(** flow.rs [BlockSnapshot]; the list info is its marker, the parent frame and the cell
    are left out. *)
Record bsnap := mk_bsnap {
  sn_id : id; sn_pos : nat; sn_len : nat; sn_text : str; sn_frags : list fragment; sn_fmt : bfmt; sn_marker : option str
}.

(** text_block.rs:893-950 [build_block_snapshot_with_position_and_parent], no
    highlighter attached. [at_]: the position given by the caller. *)
Definition block_snapshot (L : ldoc) (i : id) (at_ : option nat) : res (option bsnap) :=
  let d := l_doc L in
  match get_block d i with
  | None => Ok None
  | Some b =>
      let! b := refreshed d b in
      let! m := block_marker L i in
      let! p := (match at_ with Some p => Ok p | None => to_usize (b_pos b) end) in
      let! t := block_content (d_rs d) i in
      let! n := char_length d i in
      let! n := to_usize n in
      let! fs := build_raw_fragments t i (d_runs d i) (d_images d i) in
      Ok (Some (mk_bsnap i p n t fs (b_fmt b) m))
  end.

(** text_frame.rs:248-292 [snapshot_from_child_order], entries that are blocks. *)
Fixpoint snapshot_order (L : ldoc) (is_ : list id) (running : nat) : res (list bsnap) :=
  match is_ with
  | [] => Ok []
  | i :: rest =>
      let! s := block_snapshot L i (Some running) in
      match s with
      | Some s => let! ss := snapshot_order L rest (running + sn_len s + 1) in Ok (s :: ss)
      | None => snapshot_order L rest running
      end
  end.
(** text_frame.rs:294-320 [snapshot_fallback]: blocks by refreshed position. *)
Fixpoint snapshot_each (L : ldoc) (bs : list block) : res (list bsnap) :=
  match bs with
  | [] => Ok []
  | b :: rest =>
      let! s := block_snapshot L (b_id b) None in
      let! ss := snapshot_each L rest in
      Ok (match s with Some s => s :: ss | None => ss end)
  end.
(** text_frame.rs:222-240 [build_flow_snapshot], document.rs:660-668 [snapshot_flow]. *)
Definition snapshot_flow (L : ldoc) : res (list bsnap) :=
  let d := l_doc L in
  match d_order d with
  | [] => let! bs := refreshed_all d (get_multi d (d_fblocks d)) in snapshot_each L (sort_blocks bs)
  | is_ => snapshot_order L is_ 0
  end.

(** document.rs:516-553 [snapshot_block_at_position]; [all]: all ids, for the block taken
    when none contains the position. *)
Fixpoint snapshot_find (L : ldoc) (all is_ : list id) (running : Z) (p : nat) : res (option bsnap) :=
  match is_ with
  | [] => match rev all with i :: _ => block_snapshot L i None | [] => Ok None end
  | i :: rest =>
      match get_block (l_doc L) i with
      | None => Ok None
      | Some _ =>
          let! n := char_length (l_doc L) i in
          if ((running <=? Z.of_nat p) && (Z.of_nat p <=? running + n))%Z then block_snapshot L i (Some (Z.to_nat running))
          else snapshot_find L all rest (running + n + 1)%Z p
      end
  end.
Definition snapshot_block_at_position (L : ldoc) (p : nat) : res (option bsnap) :=
  let ids := collect_block_ids (l_doc L) in snapshot_find L ids ids 0 p.

(** document.rs:593-610 [blocks]. *)
Definition blocks (d : doc) : res (list id) := let! bs := blocks_sorted d in Ok (map b_id bs).
(** document.rs:571-588 [block_by_number]. *)
Definition block_by_number (d : doc) (k : nat) : res (option id) := let! bs := blocks_sorted d in Ok (option_map b_id (nth_error bs k)).

(** document.rs:633-648: whether a block is in the range. A sum above [usize::MAX] is
    left out. *)
Definition in_range (d : doc) (p n : nat) (b : block) : res bool :=
  let start := Z.to_nat (b_pos b) in
  let! len := char_length d (b_id b) in
  let stop := start + Z.to_nat len in
  Ok (if n =? 0 then (start <=? p) && (p <? stop) else (start <? p + n) && (p <? stop)).
Fixpoint filter_range (d : doc) (p n : nat) (bs : list block) : res (list id) :=
  match bs with
  | [] => Ok []
  | b :: rest => let! y := in_range d p n b in let! ids := filter_range d p n rest in Ok (if y then b_id b :: ids else ids)
  end.
(** document.rs:612-655 [blocks_in_range]. *)
Definition blocks_in_range (d : doc) (p n : nat) : res (list id) := let! bs := blocks_sorted d in filter_range d p n bs.
