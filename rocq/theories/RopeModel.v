(** The rope and its byte-offset index:
    crates/common/src/database/block_offset_index.rs and rope_helpers.rs.

    Simplifications: [u32] offsets are [nat] (no 4 GiB overflow panic); the
    [im::HashMap] marker index is a function; locks, [Arc] and rope chunking
    are dropped. [partition_point] / [binary_search_by_key] are linear scans,
    which give the same answer on strictly sorted entries (the facts show the
    entries are strictly sorted). *)
From Verif Require Import Base.

(** Entity identifiers ([types::EntityId], u64). *)
Definition id := N.

(** block_offset_index.rs [OffsetMarker]. *)
Inductive marker := MBlock (b : id) | MAnchor (t : id).
Definition marker_eqb (a b : marker) : bool :=
  match a, b with
  | MBlock x, MBlock y => N.eqb x y
  | MAnchor x, MAnchor y => N.eqb x y
  | _, _ => false
  end.
Definition is_anchor_marker (m : marker) : bool :=
  match m with MAnchor _ => true | MBlock _ => false end.
(** [OffsetMarker::as_block]. *)
Definition as_block (m : marker) : option id :=
  match m with MBlock b => Some b | MAnchor _ => None end.

(** block_offset_index.rs:50-86 [BlockOffsetIndex]. *)
Record oindex := mk_oindex {
  entries : list (marker * nat);
  total : nat;
  midx : marker -> option nat;
  anchor_count : nat
}.

(** [BlockOffsetIndex::default]. *)
Definition oindex_new : oindex := mk_oindex [] 0 (fun _ => None) 0.

Definition bump_anchor (m : marker) (n : nat) : nat :=
  if is_anchor_marker m then S n else n.

(** block_offset_index.rs:120-132 [insert_at]; [Vec::insert] panics past the end. *)
Definition insert_at (ix : oindex) (p : nat) (m : marker) (bs : nat) : res oindex :=
  if p <=? length (entries ix) then
    Ok (mk_oindex (firstn p (entries ix) ++ (m, bs) :: skipn p (entries ix))
                  (total ix)
                  (fun k => if marker_eqb k m then Some p
                            else match midx ix k with
                                 | Some q => Some (if p <=? q then S q else q)
                                 | None => None end)
                  (bump_anchor m (anchor_count ix)))
  else Panic.

(** block_offset_index.rs:136-150 [push]. *)
Definition push (ix : oindex) (m : marker) (bs : nat) : oindex :=
  mk_oindex (entries ix ++ [(m, bs)]) (total ix)
            (fun k => if marker_eqb k m then Some (length (entries ix)) else midx ix k)
            (bump_anchor m (anchor_count ix)).

(** block_offset_index.rs:105-107 [set_total_bytes]. *)
Definition set_total (ix : oindex) (t : nat) : oindex :=
  mk_oindex (entries ix) t (midx ix) (anchor_count ix).

(** block_offset_index.rs:159-172 [remove_at]; [Vec::remove] panics past the end. *)
Definition remove_at (ix : oindex) (p : nat) : res oindex :=
  match nth_error (entries ix) p with
  | None => Panic
  | Some (m, _) =>
      Ok (mk_oindex (firstn p (entries ix) ++ skipn (S p) (entries ix))
                    (total ix)
                    (fun k => if marker_eqb k m then None
                              else match midx ix k with
                                   | Some q => Some (if p <? q then q - 1 else q)
                                   | None => None end)
                    (if is_anchor_marker m then anchor_count ix - 1 else anchor_count ix))
  end.

Definition in_markers (m : marker) (l : list (marker * nat)) : bool :=
  existsb (fun e => marker_eqb m (fst e)) l.

(** block_offset_index.rs:177-201 [drain_inclusive]; [Vec::drain] panics on a
    bad range. *)
Definition drain_inclusive (ix : oindex) (a b : nat) : res oindex :=
  if (a <=? S b) && (b <? length (entries ix)) then
    let removed := firstn (S b - a) (skipn a (entries ix)) in
    Ok (mk_oindex (firstn a (entries ix) ++ skipn (S b) (entries ix))
                  (total ix)
                  (fun k => if in_markers k removed then None
                            else match midx ix k with
                                 | Some q => Some (if b <? q then q - length removed else q)
                                 | None => None end)
                  (anchor_count ix
                   - length (filter (fun e => is_anchor_marker (fst e)) removed)))
  else Panic.

(** block_offset_index.rs:259-269 [range_with_successor]; indexing panics when
    the cached position is out of range. *)
Definition range_with_successor (ix : oindex) (m : marker) : res (option (nat * nat * bool)) :=
  match midx ix m with
  | None => Ok None
  | Some i =>
      match nth_error (entries ix) i with
      | None => Panic
      | Some (_, s) =>
          match nth_error (entries ix) (S i) with
          | Some (_, e) => Ok (Some (s, e, true))
          | None => Ok (Some (s, total ix, false))
          end
      end
  end.

(** block_offset_index.rs:234-243 [range_of] (same as above without the flag). *)
Definition range_of (ix : oindex) (m : marker) : res (option (nat * nat)) :=
  let! r := range_with_successor ix m in
  Ok (match r with Some (s, e, _) => Some (s, e) | None => None end).

(** [entries.iter().position(|(m, _)| m == marker)]. *)
Fixpoint entry_pos (m : marker) (l : list (marker * nat)) : option nat :=
  match l with
  | [] => None
  | (k, _) :: rest => if marker_eqb m k then Some 0 else option_map S (entry_pos m rest)
  end.

(** block_offset_index.rs:283-296 [marker_at_byte]: the last entry that starts
    at or before [byte]. *)
Fixpoint last_at_or_before (l : list (marker * nat)) (byte : nat) (acc : option marker) : option marker :=
  match l with
  | [] => acc
  | (m, bs) :: rest => if bs <=? byte then last_at_or_before rest byte (Some m) else acc
  end.
Definition marker_at_byte (ix : oindex) (byte : nat) : option marker :=
  if total ix <? byte then None else last_at_or_before (entries ix) byte None.

(** block_offset_index.rs:328-350 [shift_after] / [apply_delta], positive delta. *)
Fixpoint shift_up (l : list (marker * nat)) (thr n : nat) : list (marker * nat) :=
  match l with
  | [] => []
  | (m, bs) :: rest =>
      if bs <? thr then (m, bs) :: shift_up rest thr n
      else map (fun e => (fst e, snd e + n)) l
  end.
Definition shift_after_up (ix : oindex) (thr n : nat) : oindex :=
  mk_oindex (shift_up (entries ix) thr n) (total ix + n) (midx ix) (anchor_count ix).

(** The same with a negative delta: [checked_sub] panics on underflow. *)
Fixpoint sub_all (l : list (marker * nat)) (n : nat) : res (list (marker * nat)) :=
  match l with
  | [] => Ok []
  | (m, bs) :: rest =>
      if n <=? bs then let! r := sub_all rest n in Ok ((m, bs - n) :: r) else Panic
  end.
Fixpoint shift_down (l : list (marker * nat)) (thr n : nat) : res (list (marker * nat)) :=
  match l with
  | [] => Ok []
  | (m, bs) :: rest =>
      if bs <? thr then let! r := shift_down rest thr n in Ok ((m, bs) :: r)
      else sub_all l n
  end.
Definition shift_after_down (ix : oindex) (thr n : nat) : res oindex :=
  let! l := shift_down (entries ix) thr n in
  if n <=? total ix then Ok (mk_oindex l (total ix - n) (midx ix) (anchor_count ix)) else Panic.

(** The two store fields the rope helpers touch. *)
Record rstore := mk_rstore { rope : str; index : oindex }.

(** rope_helpers.rs:262-266 [rope_reset]. *)
Definition rope_reset : rstore := mk_rstore [] oindex_new.

(** rope_helpers.rs:30, 52, 163, 211: end of a block's content. *)
Definition content_end (s e : nat) (succ : bool) : nat :=
  if succ && (s <? e) then e - 1 else e.

(** rope_helpers.rs:20-35 [block_content_via_store]. *)
Definition block_content (st : rstore) (b : id) : res str :=
  let! r := range_with_successor (index st) (MBlock b) in
  match r with
  | None => Ok []
  | Some (s, e, succ) => byte_slice (rope st) s (content_end s e succ)
  end.

(** rope_helpers.rs:46-58 [block_char_length]; [usize] subtraction underflow
    would panic. *)
Definition block_char_length (st : rstore) (b : id) : res nat :=
  let! r := range_with_successor (index st) (MBlock b) in
  match r with
  | None => Ok 0
  | Some (s, e, succ) =>
      let! cs := byte_to_char (rope st) s in
      let! ce := byte_to_char (rope st) (content_end s e succ) in
      if cs <=? ce then Ok (ce - cs) else Panic
  end.

(** rope_helpers.rs:69-77 [block_document_position]; [stored] is the block's
    own field, used when the block is not in the index. *)
Definition block_document_position (st : rstore) (b : id) (stored : Z) : res Z :=
  let! r := range_of (index st) (MBlock b) in
  match r with
  | None => Ok stored
  | Some (s, _) => let! c := byte_to_char (rope st) s in Ok (Z.of_nat c)
  end.

(** rope_helpers.rs:95-106 [rope_positions_match_flow]; [nblocks] is the size
    of the block table. *)
Definition positions_match_flow (st : rstore) (nblocks : nat) : bool :=
  (anchor_count (index st) =? 0) && (length (entries (index st)) =? nblocks).

(** rope_helpers.rs:126-185 [find_block_at_char_position]. *)
Definition find_block_at_char_position (st : rstore) (nblocks : nat) (position : Z)
  : res (option (id * nat * nat)) :=
  if negb (positions_match_flow st nblocks) then Ok None
  else
    let pc := Z.to_nat (Z.max 0 (Z.min position (Z.of_nat (length (rope st))))) in
    let! abs := char_to_byte (rope st) pc in
    match marker_at_byte (index st) abs with
    | Some (MBlock b) =>
        let! r := range_with_successor (index st) (MBlock b) in
        match r with
        | None => Ok None
        | Some (s, e, succ) =>
            let! cs := byte_to_char (rope st) s in
            let! ac := byte_to_char (rope st) (Nat.min abs (content_end s e succ)) in
            if cs <=? ac then Ok (Some (b, ac - cs, cs)) else Panic
        end
    | _ => Ok None
    end.

(** rope_helpers.rs:201-225 [block_char_to_byte_in_block]. *)
Definition block_char_to_byte_in_block (st : rstore) (b : id) (off : nat) : res (nat * nat) :=
  let! r := range_with_successor (index st) (MBlock b) in
  match r with
  | None => Ok (0, 0)
  | Some (s, e, succ) =>
      let ce := content_end s e succ in
      if s <=? ce then
        let! cs := byte_to_char (rope st) s in
        let! cend := byte_to_char (rope st) ce in
        if cs <=? cend then
          let! ab := char_to_byte (rope st) (cs + Nat.min off (cend - cs)) in
          if s <=? ab then Ok (ab - s, ce - s) else Panic
        else Panic
      else Panic
  end.

(** rope_helpers.rs:244-258 [rope_flat_text_if_simple]. *)
Definition rope_flat_text_if_simple (st : rstore) (top_frames : nat) : option str :=
  if negb (top_frames =? 1) then None
  else if existsb (fun e => is_anchor_marker (fst e)) (entries (index st)) then None
  else Some (rope st).

(** rope_helpers.rs:274-286 [rope_append_block]. *)
Definition rope_append_block (st : rstore) (b : id) (t : str) : rstore :=
  mk_rstore (rope st ++ t)
            (set_total (push (index st) (MBlock b) (blen (rope st))) (blen (rope st ++ t))).

(** rope_helpers.rs:387-399 [rope_insert_block_boundary]. *)
Definition rope_insert_block_boundary (st : rstore) : rstore :=
  mk_rstore (rope st ++ [NL]) (set_total (index st) (blen (rope st ++ [NL]))).

(** rope_helpers.rs:409-440 [rope_insert_in_block]. *)
Definition rope_insert_in_block (st : rstore) (b : id) (off : nat) (t : str) : res rstore :=
  if blen t =? 0 then Ok st
  else
    let! r := range_of (index st) (MBlock b) in
    match r with
    | None => Ok st
    | Some (s, _) =>
        let! ci := byte_to_char (rope st) (s + off) in
        let! rp := rope_insert (rope st) ci t in
        Ok (mk_rstore rp (shift_after_up (index st) (s + 1) (blen t)))
    end.

(** rope_helpers.rs:453-497 [rope_split_block]. *)
Definition rope_split_block (st : rstore) (cur : id) (off : nat) (new : id) : res rstore :=
  let! r := range_of (index st) (MBlock cur) in
  match r with
  | None => Ok st
  | Some (s, _) =>
      let! i := unwrap (entry_pos (MBlock cur) (entries (index st))) in
      let! ci := byte_to_char (rope st) (s + off) in
      let! rp := rope_insert (rope st) ci [NL] in
      let! ix := insert_at (shift_after_up (index st) (s + off + 1) 1)
                           (S i) (MBlock new) (s + off + 1) in
      Ok (mk_rstore rp ix)
  end.

(** rope_helpers.rs:511-574 [rope_merge_block_range]. *)
Definition rope_merge_block_range (st : rstore) (sb : id) (so : nat) (eb : id) (eo : nat) : res rstore :=
  let! rs := range_of (index st) (MBlock sb) in
  match rs with
  | None => Ok st
  | Some (ss, _) =>
      let! re := range_of (index st) (MBlock eb) in
      match re with
      | None => Ok st
      | Some (es, _) =>
          let! si := unwrap (entry_pos (MBlock sb) (entries (index st))) in
          let! ei := unwrap (entry_pos (MBlock eb) (entries (index st))) in
          if ei <=? si then Ok st
          else
            let ds := ss + so in
            let de := es + eo in
            if de <=? ds then Ok st
            else
              let! cs := byte_to_char (rope st) ds in
              let! ce := byte_to_char (rope st) de in
              let! rp := rope_remove (rope st) cs ce in
              let! ix := drain_inclusive (index st) (S si) ei in
              let! ix := shift_after_down ix (ds + 1) (de - ds) in
              Ok (mk_rstore rp ix)
      end
  end.

(** rope_helpers.rs:598-674 [rope_insert_table_anchor]. *)
Definition rope_insert_table_anchor (st : rstore) (tid target : id) (after : bool) : res rstore :=
  let! r := range_of (index st) (MBlock target) in
  match r with
  | None => Ok st
  | Some (s, e) =>
      let! i := unwrap (entry_pos (MBlock target) (entries (index st))) in
      let is_last := S i =? length (entries (index st)) in
      let pos := if after then e else s in
      let '(txt, mstart, epos) :=
        if negb after then ([FFFC; NL], pos, i)
        else if negb is_last then ([FFFC; NL], pos, S i)
        else ([NL; FFFC], S pos, S i) in
      let! ci := byte_to_char (rope st) pos in
      let! rp := rope_insert (rope st) ci txt in
      let! ix := insert_at (shift_after_up (index st) pos 4) epos (MAnchor tid) mstart in
      Ok (mk_rstore rp ix)
  end.

(** rope_helpers.rs:685-702 [rope_append_table_anchor]. *)
Definition rope_append_table_anchor (st : rstore) (tid : id) : rstore :=
  let rp := rope st ++ (if blen (rope st) =? 0 then [FFFC] else [NL; FFFC]) in
  mk_rstore rp (set_total (push (index st) (MAnchor tid) (blen rp - 3)) (blen rp)).

(** rope_helpers.rs:712-755 [rope_remove_table_anchor]; [u32] underflow of
    [anchor_byte_start - 1] panics. *)
Definition rope_remove_table_anchor (st : rstore) (tid : id) : res rstore :=
  let! r := range_of (index st) (MAnchor tid) in
  match r with
  | None => Ok st
  | Some (s, _) =>
      let! i := unwrap (entry_pos (MAnchor tid) (entries (index st))) in
      let is_last := S i =? length (entries (index st)) in
      let! (a, b) :=
        (if is_last && (0 <? i)
         then (if 1 <=? s then Ok (s - 1, s + 3) else Panic)
         else Ok (s, s + 4)) in
      let! cs := byte_to_char (rope st) a in
      let! ce := byte_to_char (rope st) b in
      let! rp := rope_remove (rope st) cs ce in
      let! ix := remove_at (index st) i in
      let! ix := shift_after_down ix a 4 in
      Ok (mk_rstore rp ix)
  end.

(** rope_helpers.rs:767-823 [rope_remove_block]. *)
Definition rope_remove_block (st : rstore) (b : id) : res rstore :=
  let! r := range_of (index st) (MBlock b) in
  match r with
  | None => Ok st
  | Some (s, e) =>
      let! i := unwrap (entry_pos (MBlock b) (entries (index st))) in
      let is_last := S i =? length (entries (index st)) in
      let rs := if is_last && (0 <? i) then s - 1 else s in
      if e <=? rs then
        let! ix := remove_at (index st) i in Ok (mk_rstore (rope st) ix)
      else
        let! cs := byte_to_char (rope st) rs in
        let! ce := byte_to_char (rope st) e in
        let! rp := rope_remove (rope st) cs ce in
        let! ix := remove_at (index st) i in
        let! ix := shift_after_down ix e (e - rs) in
        Ok (mk_rstore rp ix)
  end.

(** rope_helpers.rs:837-887 [rope_replace_block_content]. *)
Definition rope_replace_block_content (st : rstore) (b : id) (t : str) : res rstore :=
  let! r := range_of (index st) (MBlock b) in
  match r with
  | None => Ok st
  | Some (s, e) =>
      let! cb := (if e <? total (index st)
                  then (if s + 1 <=? e then Ok (e - s - 1) else Panic)
                  else (if s <=? e then Ok (e - s) else Panic)) in
      if (cb =? 0) && (blen t =? 0) then Ok st
      else
        let! cs := byte_to_char (rope st) s in
        let! rp := (if 0 <? cb then
                      let! ce := byte_to_char (rope st) (s + cb) in
                      rope_remove (rope st) cs ce
                    else Ok (rope st)) in
        let! rp := (if 0 <? blen t then rope_insert rp cs t else Ok rp) in
        if blen t =? cb then Ok (mk_rstore rp (index st))
        else if cb <? blen t then
          Ok (mk_rstore rp (shift_after_up (index st) (s + 1) (blen t - cb)))
        else
          let! ix := shift_after_down (index st) (s + 1) (cb - blen t) in
          Ok (mk_rstore rp ix)
  end.

(** rope_helpers.rs:892-922 [rope_delete_in_block]. *)
Definition rope_delete_in_block (st : rstore) (b : id) (x y : nat) : res rstore :=
  if y <=? x then Ok st
  else
    let! r := range_of (index st) (MBlock b) in
    match r with
    | None => Ok st
    | Some (s, _) =>
        let! cs := byte_to_char (rope st) (s + x) in
        let! ce := byte_to_char (rope st) (s + y) in
        let! rp := rope_remove (rope st) cs ce in
        let! ix := shift_after_down (index st) (s + 1) (y - x) in
        Ok (mk_rstore rp ix)
    end.

(** rope_helpers.rs:305-337 [rope_insert_block_at]. *)
Fixpoint first_past (l : list (marker * nat)) (byte : nat) : nat :=
  match l with
  | [] => 0
  | (_, bs) :: rest => if byte <? bs then 0 else S (first_past rest byte)
  end.
Definition rope_insert_block_at (st : rstore) (pos : nat) (b : id) (t : str) : res rstore :=
  let p := first_past (entries (index st)) pos in
  let! ci := byte_to_char (rope st) pos in
  let! rp := rope_insert (rope st) ci (NL :: t) in
  let! ix := insert_at (shift_after_up (index st) (pos + 1) (1 + blen t)) p (MBlock b) (pos + 1) in
  Ok (mk_rstore rp ix).

(** rope_helpers.rs:372-382 [rope_append_empty_block]. *)
Definition rope_append_empty_block (st : rstore) (b : id) : rstore :=
  let st' := if blen (rope st) =? 0 then st else rope_insert_block_boundary st in
  mk_rstore (rope st')
            (set_total (push (index st') (MBlock b) (blen (rope st'))) (blen (rope st'))).
