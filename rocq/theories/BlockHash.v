(** Model of src/blockhash.{h,cc}: the index of 16-byte blocks of a buffer.

    Pointers into the source buffer or into the target are modelled by offsets.
    Offsets of type int are integers without wrapping, except where the code
    casts explicitly; the buffers that matter are shorter than 2^31 bytes.
    [None] is an access outside a buffer or a vector.  VCD_DFATAL only logs. *)

From Verif Require Import Base RollingHash.

(** blockhash.h 73, 324-325, 329 *)
Definition kBlockSize : Z := 16.
(** blockhash.h 324-325 *)
Definition kMaxMatchesToCheck : nat := 64.
(** blockhash.h 329 *)
Definition kMaxProbes : nat := 16.

(** blockhash.h 446-500: the members *)
Record blockhash := {
  bh_source : list Z;       (* source_data_, source_size_ *)
  bh_start : Z;             (* starting_offset_ *)
  bh_mask : Z;              (* hash_table_mask_ *)
  bh_table : list Z;        (* hash_table_ *)
  bh_next : list Z;         (* next_block_table_ *)
  bh_last_of : list Z;      (* last_block_table_ *)
  bh_last : Z               (* last_block_added_ *)
}.

(** blockhash.h 77-110 [Match] *)
Record match_ := { m_size : Z; m_source : Z; m_target : Z }.
(** blockhash.h 79 *)
Definition no_match : match_ := {| m_size := 0; m_source := -1; m_target := -1 |}.
(** blockhash.h 81-89 [ReplaceIfBetterMatch] *)
Definition replace_if_better (m : match_) (size source target : Z) : match_ :=
  if m_size m <? size then {| m_size := size; m_source := source; m_target := target |} else m.

(** blockhash.cc 108-148 [CalcTableSize]; [table_size] has 64 bits, so that the
    loop is left after at most 64 shifts.  [None]: out of fuel. *)
Fixpoint table_size_loop (fuel : nat) (table_size min_size : Z) : option Z :=
  match fuel with
  | O => None
  | S n =>
      if table_size <? min_size then
        let t := to_size (table_size * 2) in
        if t <=? 0 then Some 0 else table_size_loop n t min_size
      else if negb (Z.land table_size (table_size - 1) =? 0) then Some 0
      else Some table_size
  end.
(** blockhash.cc 108-150 [CalcTableSize] *)
Definition calc_table_size (size : Z) : option Z :=
  let min_size := size / 4 + 1 in
  match table_size_loop 66 1 min_size with
  | None => None
  | Some t => if (0 <? size) && (to_size (min_size * 2) <? t) then Some 0 else Some t
  end.

(** blockhash.h 337-339 [GetNumberOfBlocks], 343-345 [GetHashTableIndex],
    349-351 [NextIndexToAdd] *)
Definition number_of_blocks (bh : blockhash) : Z := zlen (bh_source bh) / kBlockSize.
(** blockhash.h 343-345 *)
Definition hash_table_index (bh : blockhash) (hash_value : Z) : Z := Z.land hash_value (bh_mask bh).
(** blockhash.h 349-351 *)
Definition next_index_to_add (bh : blockhash) : Z := (bh_last bh + 1) * kBlockSize.

(** blockhash.cc 152-197 [AddBlock] *)
Definition add_block (bh : blockhash) (hash_value : Z) : option blockhash :=
  match bh_table bh with
  | [] => Some bh                                                        (* VCD_DFATAL *)
  | _ =>
      let block_number := bh_last bh + 1 in
      if to_int32 (number_of_blocks bh) <=? block_number then Some bh    (* VCD_DFATAL *)
      else
        match get (bh_next bh) block_number with
        | None => None
        | Some nx =>
            if negb (nx =? -1) then Some bh                              (* VCD_DFATAL *)
            else
              let i := hash_table_index bh hash_value in
              match get (bh_table bh) i with
              | None => None
              | Some first =>
                  if first <? 0 then
                    match put (bh_table bh) i block_number, put (bh_last_of bh) block_number block_number with
                    | Some t, Some l =>
                        Some {| bh_source := bh_source bh; bh_start := bh_start bh; bh_mask := bh_mask bh;
                                bh_table := t; bh_next := bh_next bh; bh_last_of := l; bh_last := block_number |}
                    | _, _ => None
                    end
                  else
                    match get (bh_last_of bh) first with
                    | None => None
                    | Some last =>
                        match get (bh_next bh) last with
                        | None => None
                        | Some nx2 =>
                            if negb (nx2 =? -1) then Some bh             (* VCD_DFATAL *)
                            else
                              match put (bh_next bh) last block_number, put (bh_last_of bh) first block_number with
                              | Some n, Some l =>
                                  Some {| bh_source := bh_source bh; bh_start := bh_start bh; bh_mask := bh_mask bh;
                                          bh_table := bh_table bh; bh_next := n; bh_last_of := l; bh_last := block_number |}
                              | _, _ => None
                              end
                        end
                    end
              end
        end
  end.

(** blockhash.h 179-183 [AddOneIndexHash] *)
Definition add_one_index_hash (bh : blockhash) (index hash_value : Z) : option blockhash :=
  if index =? next_index_to_add bh then add_block bh hash_value else Some bh.

(** blockhash.cc 234-237, the loop of [AddAllBlocksThroughIndex]; the fuel is
    enough for all blocks of the source *)
Fixpoint add_blocks_loop (fuel : nat) (bh : blockhash) (block_ptr end_ptr : Z) : option blockhash :=
  if block_ptr <? end_ptr then
    match fuel with
    | O => None
    | S n =>
        match slice (bh_source bh) block_ptr kBlockSize with
        | None => None
        | Some b =>
            match hash_direct kBlockSize b with
            | None => None
            | Some h =>
                match add_block bh h with
                | None => None
                | Some bh' => add_blocks_loop n bh' (block_ptr + kBlockSize) end_ptr
                end
            end
        end
    end
  else Some bh.

(** blockhash.cc 203-238 [AddAllBlocksThroughIndex] *)
Definition add_all_blocks_through_index (bh : blockhash) (end_index : Z) : option blockhash :=
  let size := zlen (bh_source bh) in
  if to_int32 size <? end_index then Some bh                             (* VCD_DFATAL *)
  else if end_index <=? bh_last bh * kBlockSize then Some bh             (* VCD_DFATAL *)
  else if size <? kBlockSize then Some bh
  else
    let last_legal := to_int32 (size - kBlockSize) in
    let end_limit := if last_legal <? end_index then last_legal + 1 else end_index in
    add_blocks_loop (Z.to_nat (number_of_blocks bh)) bh (next_index_to_add bh) end_limit.

(** blockhash.cc 28-36 (constructor), 55-78 [Init]: [None] is undefined
    behaviour, [Some None] a return value false, that is a NULL hash for the
    callers 80-105. *)
Definition bh_init (source : list Z) (starting_offset : Z) (populate : bool) : option (option blockhash) :=
  match calc_table_size (zlen source) with
  | None => None
  | Some table_size =>
      if table_size =? 0 then Some None
      else
        let blocks := zlen source / kBlockSize in
        let bh := {| bh_source := source; bh_start := starting_offset; bh_mask := to_uint32 (table_size - 1);
                     bh_table := zrepeat (-1) table_size; bh_next := zrepeat (-1) blocks;
                     bh_last_of := zrepeat (-1) blocks; bh_last := -1 |} in
        if populate then
          match add_all_blocks_through_index bh (to_int32 (zlen source)) with
          | None => None
          | Some bh' => Some (Some bh')
          end
        else Some (Some bh)
  end.

(** blockhash.cc 80-91 [CreateDictionaryHash], 93-105 [CreateTargetHash] *)
Definition create_dictionary_hash (dict : list Z) : option (option blockhash) := bh_init dict 0 true.
(** blockhash.cc 93-105 *)
Definition create_target_hash (target : list Z) (dictionary_size : Z) : option (option blockhash) :=
  bh_init target (to_int32 dictionary_size) false.

(** Comparing bytes, as memcmp and the comparison by machine words do. *)
(** blockhash.cc 276-301: [BlockCompareWords], [BlockContentsMatch] *)
Fixpoint bytes_eqb (a b : list Z) : bool :=
  match a, b with
  | [], [] => true
  | x :: a', y :: b' => (x =? y) && bytes_eqb a' b'
  | _, _ => false
  end.
(** blockhash.cc 247-301 [BlockContentsMatch] *)
Definition block_contents_match (block1 block2 : list Z) : bool :=
  if negb (hd 0 block1 =? hd 0 block2) then false else bytes_eqb block1 block2.

(** blockhash.cc 303-315 [SkipNonMatchingBlocks]: [n] is kMaxProbes - probes *)
Fixpoint skip_non_matching (n : nat) (bh : blockhash) (block_number : Z) (block : list Z) : option Z :=
  if block_number <? 0 then Some block_number
  else
    match slice (bh_source bh) (block_number * kBlockSize) kBlockSize with
    | None => None
    | Some s =>
        if block_contents_match block s then Some block_number
        else
          match n with
          | O => Some (-1)
          | S n' =>
              match get (bh_next bh) block_number with
              | None => None
              | Some b => skip_non_matching n' bh b block
              end
          end
    end.

(** blockhash.cc 320-329 [FirstMatchingBlock] *)
Definition first_matching_block (bh : blockhash) (hash_value : Z) (block : list Z) : option Z :=
  match get (bh_table bh) (hash_table_index bh hash_value) with
  | None => None
  | Some b => skip_non_matching kMaxProbes bh b block
  end.

(** blockhash.cc 331-339 [NextMatchingBlock] *)
Definition next_matching_block (bh : blockhash) (block_number : Z) (block : list Z) : option Z :=
  if number_of_blocks bh <=? to_size block_number then Some (-1)         (* VCD_DFATAL *)
  else
    match get (bh_next bh) block_number with
    | None => None
    | Some b => skip_non_matching kMaxProbes bh b block
    end.

(** blockhash.cc 355-370 [MatchingBytesToLeft]: [n] is max_bytes - bytes_found,
    [s] and [t] are the offsets of source_ptr and target_ptr *)
Fixpoint matching_left (n : nat) (source : list Z) (s : Z) (target : list Z) (t : Z) : option Z :=
  match n with
  | O => Some 0
  | S n' =>
      match get source (s - 1), get target (t - 1) with
      | Some a, Some b =>
          if negb (a =? b) then Some 0
          else
            match matching_left n' source (s - 1) target (t - 1) with
            | Some k => Some (1 + k)
            | None => None
            end
      | _, _ => None
      end
  end.

(** blockhash.cc 376-388 [MatchingBytesToRight] *)
Fixpoint matching_right (n : nat) (source : list Z) (s : Z) (target : list Z) (t : Z) : option Z :=
  match n with
  | O => Some 0
  | S n' =>
      match get source s, get target t with
      | Some a, Some b =>
          if a =? b then
            match matching_right n' source (s + 1) target (t + 1) with
            | Some k => Some (1 + k)
            | None => None
            end
          else Some 0
      | _, _ => None
      end
  end.

(** blockhash.cc 407-442, the body of the loop of [FindBestMatch].
    target_candidate_start is the offset [cand] in [target], target_start the
    offset [start]. *)
Definition extend_match (bh : blockhash) (block_number : Z) (target : list Z) (cand start target_size : Z)
    (best : match_) : option match_ :=
  let source_match_offset := block_number * kBlockSize in
  let source_match_end := source_match_offset + kBlockSize in
  let target_match_offset := to_int32 (cand - start) in
  let target_match_end := target_match_offset + kBlockSize in
  match matching_left (Z.to_nat (Z.min source_match_offset target_match_offset))
          (bh_source bh) source_match_offset target (start + target_match_offset) with
  | None => None
  | Some to_left =>
      let source_bytes_to_right := to_size (zlen (bh_source bh) - source_match_end) in
      let target_bytes_to_right := to_size (target_size - target_match_end) in
      let limit := Z.min source_bytes_to_right target_bytes_to_right in
      match matching_right (Z.to_nat (to_int32 limit))
              (bh_source bh) source_match_end target (start + target_match_end) with
      | None => None
      | Some to_right =>
          Some (replace_if_better best (kBlockSize + to_left + to_right)
                  (source_match_offset - to_left + bh_start bh) (target_match_offset - to_left))
      end
  end.

(** blockhash.cc 397-444 [FindBestMatch], the loop; [n] is the number of matches
    that may still be checked *)
Fixpoint find_loop (n : nat) (bh : blockhash) (block_number : Z) (block target : list Z)
    (cand start target_size : Z) (best : match_) : option match_ :=
  if block_number <? 0 then Some best
  else
    match n with
    | O => Some best                                                     (* TooManyMatches *)
    | S n' =>
        match extend_match bh block_number target cand start target_size best with
        | None => None
        | Some best' =>
            match next_matching_block bh block_number block with
            | None => None
            | Some b => find_loop n' bh b block target cand start target_size best'
            end
        end
    end.
(** blockhash.cc 397-446 [FindBestMatch] *)
Definition find_best_match (bh : blockhash) (hash_value : Z) (target : list Z)
    (cand start target_size : Z) (best : match_) : option match_ :=
  match slice target cand kBlockSize with
  | None => None
  | Some block =>
      match first_matching_block bh hash_value block with
      | None => None
      | Some b => find_loop kMaxMatchesToCheck bh b block target cand start target_size best
      end
  end.
