(** Searching and replacing text.

    Sources: crates/document_search/src/use_cases/{search_helpers,find_text_uc,
    find_all_uc,replace_text_uc}.rs.

    Library functions are arguments of the model: [lower] is
    [str::to_lowercase], [words] is [unicode_word_indices] (given as character
    start and character length instead of byte start and slice), [rx] is the
    regex engine ([RegexBuilder::build] then [find_iter]: [None] for a pattern
    that does not compile, otherwise the byte ranges it yields). *)
From Verif Require Import Base FormatRunsModel RopeModel DocModel.

(** search_helpers.rs:36-46 [build_byte_to_char_map], read at [b]: 0 at a byte
    that starts no character, out of bounds past the end. *)
Fixpoint byte_map_go (text : str) (off ci b : nat) : nat :=
  match text with
  | [] => if b =? off then ci else 0
  | c :: rest => if b =? off then ci else byte_map_go rest (off + utf8_len c) (S ci) b
  end.
Definition byte_to_char_map (text : str) (b : nat) : res nat :=
  if b <=? blen text then Ok (byte_map_go text 0 0 b) else Panic.

(** search_helpers.rs:53-66 [build_word_boundary_set], as a membership test. *)
Definition word_boundary (words : str -> list (nat * nat)) (text : str) (k : nat) : bool :=
  (k =? 0) || (k =? length text)
  || existsb (fun w => (k =? fst w) || (k =? fst w + snd w)) (words text).

(** search_helpers.rs:96-109: one regex match. *)
Definition regex_match (wb : nat -> bool) (text : str) (m : nat * nat) : res (list (nat * nat)) :=
  let! s := byte_to_char_map text (fst m) in
  let! e := byte_to_char_map text (snd m) in
  if e <? s then Panic
  else if wb s && wb e then Ok [(s, e - s)] else Ok [].
Fixpoint regex_matches (wb : nat -> bool) (text : str) (l : list (nat * nat)) : res (list (nat * nat)) :=
  match l with
  | [] => Ok []
  | m :: rest =>
      let! here := regex_match wb text m in
      let! more := regex_matches wb text rest in
      Ok (here ++ more)
  end.

(** [search_text.char_indices().map(|(i, _)| i).collect()]. *)
Fixpoint char_indices (off : nat) (s : str) : list nat :=
  match s with
  | [] => []
  | c :: rest => off :: char_indices (off + utf8_len c) rest
  end.

Definition str_eqb (a b : str) : bool :=
  if list_eq_dec N.eq_dec a b then true else false.

(** search_helpers.rs:127-146, the [while] loop from [pos]; [fuel] bounds the
    number of iterations and [find_literal] gives enough. *)
Fixpoint literal_go (wb : nat -> bool) (text query : str) (ci : list nat) (fuel pos : nat)
  : res (list (nat * nat)) :=
  match fuel with
  | 0 => Ok []
  | S fuel' =>
      let n := length query in
      if pos + n <=? length ci then
        let! bs := unwrap (nth_error ci pos) in
        let! be := (if pos + n <? length ci then unwrap (nth_error ci (pos + n)) else Ok (blen text)) in
        let! sub := byte_slice text bs be in
        let! more := literal_go wb text query ci fuel' (S pos) in
        Ok (if str_eqb sub query && wb pos && wb (pos + n) then (pos, n) :: more else more)
      else Ok []
  end.

(** search_helpers.rs:110-126. *)
Definition find_literal (lower : str -> str) (wb : nat -> bool) (text query : str) (case_sensitive : bool)
  : res (list (nat * nat)) :=
  let st := if case_sensitive then text else lower text in
  let sq := if case_sensitive then query else lower query in
  let ci := char_indices 0 st in
  if (length sq =? 0) || (length ci <? length sq) then Ok []
  else literal_go wb st sq ci (S (length ci)) 0.

(** The engines of the dependencies. *)
Record engines := mk_engines {
  lower : str -> str;
  words : str -> list (nat * nat);
  rx : str -> bool -> str -> option (list (nat * nat))
}.

(** FindTextDto / FindAllDto / ReplaceTextDto: the three flags. *)
Record find_options := mk_options { case_sensitive : bool; whole_word : bool; use_regex : bool }.

(** search_helpers.rs:71-151 [find_all_matches]. *)
Definition find_all_matches (g : engines) (text query : str) (o : find_options) : res (list (nat * nat)) :=
  match query with
  | [] => Ok []
  | _ =>
      let wb := if whole_word o then word_boundary (words g) text else (fun _ => true) in
      if use_regex o then
        match rx g query (negb (case_sensitive o)) text with
        | None => Err
        | Some l => regex_matches wb text l
        end
      else find_literal (lower g) wb text query (case_sensitive o)
  end.

(** find_text_uc.rs:27-57 and find_all_uc.rs [build_full_text]: the same
    computation as the plain text export. *)
Definition full_text (d : doc) : res str := export_plain_text d.

(** find_all_uc.rs:67-95 [execute]: positions with lengths. *)
Definition find_all (g : engines) (d : doc) (query : str) (o : find_options) : res (list (nat * nat)) :=
  let! text := full_text d in find_all_matches g text query o.

(** find_text_uc.rs:68-111 [execute]; [None] is [found: false]. *)
Definition find_text (g : engines) (d : doc) (query : str) (o : find_options) (from : Z) (backward : bool)
  : res (option (nat * nat)) :=
  let! text := full_text d in
  let! ms := find_all_matches g text query o in
  let start := Z.to_nat (Z.max from 0) in
  Ok (if backward then find (fun m => fst m <? start) (rev ms)
      else find (fun m => start <=? fst m) ms).

(** replace_text_uc.rs:76-91 [find_block_for_position]: blocks are located by
    their stored positions. A negative stored position becomes a huge [usize]
    and matches nothing. *)
Fixpoint find_block_for_position (d : doc) (bs : list block) (k p : nat) : res (option (nat * nat)) :=
  match bs with
  | [] => Ok None
  | b :: rest =>
      let! n := char_length d (b_id b) in
      if ((0 <=? b_pos b) && (b_pos b <=? Z.of_nat p) && (Z.of_nat p <? b_pos b + n))%Z
      then Ok (Some (k, p - Z.to_nat (b_pos b)))
      else find_block_for_position d rest (S k) p
  end.

(** replace_text_uc.rs:93-107 [match_in_single_block]. *)
Definition match_in_single_block (d : doc) (bs : list block) (m : nat * nat) : res (option (nat * nat)) :=
  let! r := find_block_for_position d bs 0 (fst m) in
  match r with
  | None => Ok None
  | Some (k, off) =>
      let! b := unwrap (nth_error bs k) in
      let! n := char_length d (b_id b) in
      Ok (if (Z.of_nat (off + snd m) <=? n)%Z then Some (k, off) else None)
  end.

(** replace_text_uc.rs:114-191 [replace_in_block]. *)
Definition replace_in_block (d : doc) (x : block) (cs ce : nat) (r : str) : res doc :=
  let i := b_id x in
  let! bt := block_content (d_rs d) i in
  let bs := logical_offset_to_byte bt (d_images d i) cs in
  let be := logical_offset_to_byte bt (d_images d i) ce in
  let! _ := byte_slice bt 0 bs in
  let! _ := byte_slice bt bs be in
  let d1 := set_runs d i (shift_runs_for_insert (shift_runs_for_delete (d_runs d i) bs be) bs (blen r)) in
  let d2 := set_images d1 i
              (shift_images_for_insert (fst (shift_images_for_delete (d_images d1 i) bs be)) bs (blen r)) in
  let d3 := update_block d2 x in
  let! rs1 := rope_delete_in_block (d_rs d3) i bs be in
  let! rs2 := rope_insert_in_block rs1 i bs r in
  Ok (set_rs d3 rs2).

(** replace_text_uc.rs:225-239: (length, block index, offset) of the matches
    inside one block, and how many are not. *)
Fixpoint valid_matches (d : doc) (bs : list block) (ms : list (nat * nat))
  : res (list (nat * nat * nat) * Z) :=
  match ms with
  | [] => Ok ([], 0%Z)
  | m :: rest =>
      let! r := match_in_single_block d bs m in
      let! (vs, skipped) := valid_matches d bs rest in
      match r with
      | Some (k, off) => Ok ((snd m, k, off) :: vs, skipped)
      | None => Ok (vs, (skipped + 1)%Z)
      end
  end.

(** replace_text_uc.rs:259-278: the replacements, on the list already reversed. *)
Fixpoint replace_each (d : doc) (bs : list block) (vs : list (nat * nat * nat)) (r : str) : res doc :=
  match vs with
  | [] => Ok d
  | (len, k, off) :: rest =>
      let! b := unwrap (nth_error bs k) in
      let! x := ok_or (get_block d (b_id b)) in
      let! d' := replace_in_block d x off (off + len) r in
      replace_each d' bs rest r
  end.

(** replace_text_uc.rs:290-295 [delta_by_block]; an absent key counts as 0, with
    which the loop below does the same. *)
Definition delta_of (r : str) (vs : list (nat * nat * nat)) (k : nat) : Z :=
  fold_right (fun v n => let '(len, k', _) := v in
                         if k' =? k then (Z.of_nat (length r) - Z.of_nat len + n)%Z else n) 0%Z vs.

(** replace_text_uc.rs:297-323: blocks whose stored position moves. *)
Fixpoint shifted_blocks (bs : list block) (delta : nat -> Z) (cur : list block) (shift : Z) : list block :=
  match cur with
  | [] => []
  | b :: rest =>
      let d := match index_of_block (b_id b) bs with Some k => delta k | None => 0%Z end in
      let more := shifted_blocks bs delta rest (shift + d)%Z in
      if (shift =? 0)%Z then more else set_b_pos b (b_pos b + shift)%Z :: more
  end.

(** replace_text_uc.rs:221-345, [execute_replace] once the matches are known:
    the new document, [replacements_count] and [skipped_cross_block]. *)
Definition replace_matches (d : doc) (ms : list (nat * nat)) (all : bool) (r : str) : res (doc * Z * Z) :=
  match ms with
  | [] => Ok (d, 0%Z, 0%Z)
  | _ =>
      let bs := sort_blocks (get_multi d (d_fblocks d)) in
      let! (vs, skipped) := valid_matches d bs ms in
      let vs := if all then vs else firstn 1 vs in
      match vs with
      | [] => Ok (d, 0%Z, skipped)
      | _ =>
          let! d1 := replace_each d bs (rev vs) r in
          let cur := sort_blocks (get_multi d1 (d_fblocks d1)) in
          let d2 := update_multi d1 (shifted_blocks bs (delta_of r vs) cur 0) in
          let total := fold_right (fun v n => (Z.of_nat (length r) - Z.of_nat (fst (fst v)) + n)%Z) 0%Z vs in
          Ok (set_chars d2 (d_chars d2 + total)%Z, Z.of_nat (length vs), skipped)
      end
  end.

(** replace_text_uc.rs:193-220 [execute_replace]. *)
Definition replace_text (g : engines) (d : doc) (query r : str) (o : find_options) (all : bool)
  : res (doc * Z * Z) :=
  let! text := full_text d in
  let! ms := find_all_matches g text query o in
  replace_matches d ms all r.
