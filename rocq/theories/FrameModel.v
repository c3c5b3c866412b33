(** Frames inserted in the text: a document whose main frame holds paragraphs and frames
    of one paragraph each.

    Sources: crates/document_editing/src/use_cases/{insert_frame,insert_text}_uc.rs,
    crates/document_io/src/use_cases/export_plain_text_uc.rs,
    crates/public_api/src/{cursor,text_frame}.rs. *)
From Verif Require Import Base FormatRunsModel RopeModel DocModel HistModel QueryModel ListModel.

(** An entry of [child_order]: a positive number is a block, a negative one a frame. *)
Inductive child := CBlock (i : id) | CFrame (f : id).
(** A frame inserted by [insert_frame]: its id, whether it has a parent, and its only block. *)
Record sub := mk_sub { s_frame : id; s_nested : bool; s_block : block }.
(** [g_doc]: the rope, the block tables and [blocks] of the main frame, the counts; its
    [d_order] is not used: [g_order] is the [child_order] of the main frame. [g_subs]: the
    other frames in the order of [Document.frames]. Their blocks take their ids from
    [d_next]. *)
Record gdoc := mk_gdoc { g_doc : doc; g_order : list child; g_subs : list sub; g_nextf : id }.

(** A document without frames. *)
Definition plain_doc (d : doc) : gdoc := mk_gdoc d (map CBlock (d_order d)) [] 2%N.

(** rope_helpers.rs:46-58 [block_char_length], 0 for blocks that are not in the rope. *)
Definition g_len (x : gdoc) (b : block) : res Z := char_length (g_doc x) (b_id b).

(** ** insert_frame_uc.rs:41-80 [find_frame_at_position] *)
(** The loop of lines 66-74: [k] is the index of the first block of the list. *)
Fixpoint closest (x : gdoc) (bs : list block) (k last : nat) (p : Z) : res nat :=
  match bs with
  | [] => Ok last
  | b :: rest =>
      let! n := g_len x b in
      if (p <=? b_pos b + n)%Z then Ok k else closest x rest (S k) k p
  end.
(** One frame, lines 49-77; [bs] are its blocks. *)
Definition frame_hit (x : gdoc) (bs : list block) (p : Z) : res (option nat) :=
  let bs := sort_blocks bs in
  match bs, rev bs with
  | first :: _, last :: _ =>
      let! n := g_len x last in
      if ((b_pos first <=? p) && (p <=? b_pos last + n))%Z
      then let! k := closest x bs 0 0 p in Ok (Some k)
      else Ok None
  | _, _ => Ok None
  end.
Fixpoint subs_hit (x : gdoc) (ss : list sub) (p : Z) : res (option id) :=
  match ss with
  | [] => Ok None
  | s :: rest =>
      let! h := frame_hit x [s_block s] p in
      match h with Some _ => Ok (Some (s_frame s)) | None => subs_hit x rest p end
  end.

(** ** insert_frame_uc.rs:84-205 [execute_insert_frame] *)
(** Where the new frame went: into the main frame, into no frame, or into another one.
    What the last does to the document is left out. *)
Inductive placed := InMain (x : gdoc) | TopLevel (x : gdoc) | InSub (f : id).
(** Lines 150-178 and 190-193: the frame, its empty block, the counts. *)
Definition add_sub (x : gdoc) (nested : bool) (p : Z) (order : list child) (rs : rstore) : gdoc :=
  let d := g_doc x in
  mk_gdoc (mk_doc rs (d_blocks d) (d_runs d) (d_images d) (d_fblocks d) (d_order d) (d_chars d)
                  (d_nblocks d + 1)%Z (d_next d + 1)%N)
          order
          (g_subs x ++ [mk_sub (g_nextf x) nested (mk_block (d_next d) p None bfmt_default)])
          (g_nextf x + 1)%N.
Definition insert_frame (x : gdoc) (p : Z) : res placed :=
  let d := g_doc x in
  let! h := frame_hit x (get_multi d (d_fblocks d)) p in
  match h with
  | Some k =>
      let at_ := Nat.min (S k) (length (g_order x)) in
      let! order := vec_insert (g_order x) at_ (CFrame (g_nextf x)) in
      Ok (InMain (add_sub x true p order (d_rs d)))
  | None =>
      let! f := subs_hit x (g_subs x) p in
      match f with
      | Some f => Ok (InSub f)
      | None => Ok (TopLevel (add_sub x false p (g_order x) (rope_append_empty_block (d_rs d) (d_next d))))
      end
  end.

(** ** The blocks in the order of the flow: editing_helpers.rs:249-302
    [collect_block_ids_recursive] and the reads of the blocks *)
Definition find_sub (x : gdoc) (f : id) : option sub := find (fun s => N.eqb (s_frame s) f) (g_subs x).
Definition child_blocks (x : gdoc) (c : child) : list block :=
  match c with
  | CBlock i => match get_block (g_doc x) i with Some b => [b] | None => [] end
  | CFrame f => match find_sub x f with Some s => [s_block s] | None => [] end
  end.
Definition g_flow (x : gdoc) : list block := flat_map (child_blocks x) (g_order x).

(** ** insert_text_uc.rs:267-420, without a selection *)
(** insert_text_uc.rs:441-476 [find_block_at_position_sequential]. *)
Fixpoint g_find (x : gdoc) (bs : list block) (running p : Z) : res (block * Z) :=
  match bs with
  | [] => Err
  | b :: rest =>
      let! n := g_len x b in
      if ((running <=? p) && (p <=? running + n))%Z then Ok (b, running)
      else match rest with [] => Ok (b, running) | _ => g_find x rest (running + n + 1) p end
  end.
(** Lines 372-396: the stored positions. *)
Definition g_shift (b : block) (n : Z) (y : block) : block :=
  if (negb (N.eqb (b_id y) (b_id b)) && (b_pos b <? b_pos y)%Z)%bool then set_b_pos y (b_pos y + n)%Z else y.
Definition on_block (f : block -> block) (s : sub) : sub := mk_sub (s_frame s) (s_nested s) (f (s_block s)).
(** The walk of the flow (lines 283-313) when some block is not in the rope; left out:
    documents with frames that are all top-level, where the rope is asked. The block typed
    in is written back unchanged (line 341). *)
Definition g_insert_text (x : gdoc) (p : Z) (text : str) : res (gdoc * Z) :=
  let d := g_doc x in
  match g_subs x with
  | [] => let! (d', np, _) := insert_text_simple d p text in Ok (mk_gdoc d' (g_order x) [] (g_nextf x), np)
  | _ =>
      let! (b, start) := g_find x (g_flow x) 0 p in
      let! n := g_len x b in
      let off := clamp 0 n (p - start) in
      let i := b_id b in
      let! bt := block_content (d_rs d) i in
      let o := logical_offset_to_byte bt (d_images d i) (Z.to_nat off) in
      let! _ := byte_slice bt 0 o in
      let! d2 := insert_bytes d i o text in
      let m := Z.of_nat (length text) in
      Ok (mk_gdoc (set_chars (set_blocks d2 (map (g_shift b m) (d_blocks d2))) (d_chars d + m)%Z)
                  (g_order x) (map (on_block (g_shift b m)) (g_subs x)) (g_nextf x),
          (start + off + m)%Z)
  end.

(** ** export_plain_text_uc.rs:31-96 *)
Fixpoint texts_of (st : rstore) (bs : list block) : res (list str) :=
  match bs with
  | [] => Ok []
  | b :: rest => let! t := block_content st (b_id b) in let! ts := texts_of st rest in Ok (t :: ts)
  end.
Definition g_export (x : gdoc) : res str :=
  let d := g_doc x in
  match g_subs x with
  | [] => export_plain_text d
  | _ =>
      let! ts := texts_of (d_rs d) (sort_blocks (get_multi d (d_fblocks d)) ++ map s_block (g_subs x)) in
      Ok (join_lines ts)
  end.

(** ** text_frame.rs:248-292 [snapshot_from_child_order]: position, text and length of the
    paragraphs; other fields of the snapshots are left out *)
Record psnap := mk_psnap { ps_id : id; ps_pos : nat; ps_text : str }.
Inductive element := EBlock (s : psnap) | EFrame (f : id) (ss : list psnap).
Definition one_snapshot (x : gdoc) (b : block) (running : nat) : res (psnap * nat) :=
  let! t := block_content (d_rs (g_doc x)) (b_id b) in
  let! n := g_len x b in
  let! n := to_usize n in
  Ok (mk_psnap (b_id b) running t, running + n + 1).
Fixpoint snapshot_children (x : gdoc) (cs : list child) (running : nat) : res (list element) :=
  match cs with
  | [] => Ok []
  | CBlock i :: rest =>
      match get_block (g_doc x) i with
      | Some b =>
          let! (s, running') := one_snapshot x b running in
          let! es := snapshot_children x rest running' in Ok (EBlock s :: es)
      | None => snapshot_children x rest running
      end
  | CFrame f :: rest =>
      match find_sub x f with
      | Some sb =>
          let! (s, running') := one_snapshot x (s_block sb) running in
          let! es := snapshot_children x rest running' in Ok (EFrame f [s] :: es)
      | None => snapshot_children x rest running
      end
  end.
Definition snapshot_frames (x : gdoc) : res (list element) := snapshot_children x (g_order x) 0.

(** document_inspection [get_document_stats]: the stored counts. *)
Definition g_chars (x : gdoc) : Z := d_chars (g_doc x).
Definition g_nblocks (x : gdoc) : Z := d_nblocks (g_doc x).
