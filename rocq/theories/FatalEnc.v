(** The fatal errors of the encoder.

    VCD_DFATAL (logging.h 37-46) prints a message; in a build without NDEBUG the
    VCD_ENDL at the end of the message then calls exit(1) (logging.h 26-31).  Every
    function here follows the function of the same name in [BlockHash], [Engine],
    [AddrCache], [EncodeTable] or [Encoder], calls the same functions on the same
    states, and returns the place of the first VCD_DFATAL it reaches.  Undefined
    behaviour (None in the other models) is not a place.

    Simplification: the engine calls the coder between its own steps, the model asks
    for the places of the engine first and for those of the coder afterwards.

    Not in the list of places, because the state of the model cannot express the
    situation: blockhash.cc 59 (Init twice for the same object; only 80-105 call it,
    for a new object) and rolling_hash.h 110 (the table for removed bytes has not been
    filled; vcdiffengine.cc 56 fills it). *)

From Verif Require Import Base SpecEncode Varint Adler AddrCache CodeTable InstructionMap EncodeTable JsonWriter RollingHash BlockHash Engine Encoder.

(** The places where VCD_DFATAL (logging.h 37-46) is used: file and line are given for
    each. *)
Inductive esite :=
| SizeOverflow        (* blockhash.cc 122 CalcTableSize *)
| SizeNotPower        (* blockhash.cc 131 CalcTableSize *)
| SizeTooLarge        (* blockhash.cc 141 CalcTableSize *)
| NoTableSize         (* blockhash.cc 64 Init *)
| AddBeforeInit       (* blockhash.cc 154 AddBlock *)
| AddPastLast         (* blockhash.cc 163 AddBlock *)
| NextNotFree         (* blockhash.cc 170 AddBlock *)
| ChainNotEnded       (* blockhash.cc 186 AddBlock *)
| ThroughBeyond       (* blockhash.cc 205 AddAllBlocksThroughIndex *)
| ThroughBehind       (* blockhash.cc 212 AddAllBlocksThroughIndex *)
| NextOfInvalid       (* blockhash.cc 334 NextMatchingBlock *)
| EngineInitTwice     (* vcdiffengine.cc 46 Init *)
| NoDictionaryHash    (* vcdiffengine.cc 53 Init *)
| EncodeBeforeInit    (* vcdiffengine.cc 138 EncodeInternal *)
| NoTargetHash        (* vcdiffengine.cc 160 EncodeInternal *)
| AddressNegative     (* addrcache.cc 145 EncodeAddress *)
| AddressNotBefore    (* addrcache.cc 151 EncodeAddress *)
| WriterNotInit       (* encodetable.cc 175 EncodeInstruction *)
| NoOpcode            (* encodetable.cc 228 EncodeInstruction *)
| CopyNotInit         (* encodetable.cc 245 Copy *)
| LengthWrong         (* encodetable.cc 361 Output *)
| ReInitFailed        (* encodetable.cc 382 Output *)
| VarintNegative      (* varint_bigendian.cc 63 EncodeInternal *)
| LengthNegative      (* varint_bigendian.cc 111 Length *)
| CoderInitFailed.    (* vcencoder.cc 122 StartEncoding *)

(** exit(1) (logging.h 26-31) ends the program at the first place reached *)
Definition efirst (a b : option esite) : option esite := match a with Some s => Some s | None => b end.

(** ** blockhash.cc *)

(** blockhash.cc 108-148 [CalcTableSize] (see [table_size_loop]) *)
Fixpoint e_table_size_loop (fuel : nat) (table_size min_size : Z) : option esite :=
  match fuel with
  | O => None
  | S n =>
      if table_size <? min_size then
        let t := to_size (table_size * 2) in
        if t <=? 0 then Some SizeOverflow else e_table_size_loop n t min_size
      else if negb (Z.land table_size (table_size - 1) =? 0) then Some SizeNotPower
      else None
  end.
(** blockhash.cc 108-150 [CalcTableSize] (see [calc_table_size]) *)
Definition e_calc_table_size (size : Z) : option esite :=
  let min_size := size / 4 + 1 in
  efirst (e_table_size_loop 66 1 min_size)
    (match table_size_loop 66 1 min_size with
     | None => None
     | Some t => if (0 <? size) && (to_size (min_size * 2) <? t) then Some SizeTooLarge else None
     end).

(** blockhash.cc 152-197 [AddBlock] (see [add_block]) *)
Definition e_add_block (bh : blockhash) (hash_value : Z) : option esite :=
  match bh_table bh with
  | [] => Some AddBeforeInit
  | _ =>
      let block_number := bh_last bh + 1 in
      if to_int32 (number_of_blocks bh) <=? block_number then Some AddPastLast
      else
        match get (bh_next bh) block_number with
        | None => None
        | Some nx =>
            if negb (nx =? -1) then Some NextNotFree
            else
              match get (bh_table bh) (hash_table_index bh hash_value) with
              | None => None
              | Some first =>
                  if first <? 0 then None
                  else
                    match get (bh_last_of bh) first with
                    | None => None
                    | Some last =>
                        match get (bh_next bh) last with
                        | None => None
                        | Some nx2 => if negb (nx2 =? -1) then Some ChainNotEnded else None
                        end
                    end
              end
        end
  end.

(** blockhash.h 179-183 [AddOneIndexHash] (see [add_one_index_hash]) *)
Definition e_add_one_index_hash (bh : blockhash) (index hash_value : Z) : option esite :=
  if index =? next_index_to_add bh then e_add_block bh hash_value else None.

(** blockhash.cc 234-237 (see [add_blocks_loop]) *)
Fixpoint e_add_blocks_loop (fuel : nat) (bh : blockhash) (block_ptr end_ptr : Z) : option esite :=
  if block_ptr <? end_ptr then
    match fuel with
    | O => None
    | S n =>
        match slice (bh_source bh) block_ptr kBlockSize with
        | None => None
        | Some b =>
            match hash_direct kBlockSize b with
            | None => None
            | Some h =>
                efirst (e_add_block bh h)
                  (match add_block bh h with
                   | None => None
                   | Some bh' => e_add_blocks_loop n bh' (block_ptr + kBlockSize) end_ptr
                   end)
            end
        end
    end
  else None.

(** blockhash.cc 203-238 [AddAllBlocksThroughIndex] (see [add_all_blocks_through_index]) *)
Definition e_add_all_blocks_through_index (bh : blockhash) (end_index : Z) : option esite :=
  let size := zlen (bh_source bh) in
  if to_int32 size <? end_index then Some ThroughBeyond
  else if end_index <=? bh_last bh * kBlockSize then Some ThroughBehind
  else if size <? kBlockSize then None
  else
    let last_legal := to_int32 (size - kBlockSize) in
    let end_limit := if last_legal <? end_index then last_legal + 1 else end_index in
    e_add_blocks_loop (Z.to_nat (number_of_blocks bh)) bh (next_index_to_add bh) end_limit.

(** blockhash.cc 55-78 [Init] of a new object (see [bh_init]) *)
Definition e_bh_init (source : list Z) (starting_offset : Z) (populate : bool) : option esite :=
  efirst (e_calc_table_size (zlen source))
    (match calc_table_size (zlen source) with
     | None => None
     | Some table_size =>
         if table_size =? 0 then Some NoTableSize
         else
           let blocks := zlen source / kBlockSize in
           let bh := {| bh_source := source; bh_start := starting_offset; bh_mask := to_uint32 (table_size - 1);
                        bh_table := zrepeat (-1) table_size; bh_next := zrepeat (-1) blocks;
                        bh_last_of := zrepeat (-1) blocks; bh_last := -1 |} in
           if populate then e_add_all_blocks_through_index bh (to_int32 (zlen source)) else None
     end).

(** blockhash.cc 331-339 [NextMatchingBlock] (see [next_matching_block]) *)
Definition e_next_matching_block (bh : blockhash) (block_number : Z) : option esite :=
  if number_of_blocks bh <=? to_size block_number then Some NextOfInvalid else None.

(** blockhash.cc 397-444 [FindBestMatch], the loop (see [find_loop]) *)
Fixpoint e_find_loop (n : nat) (bh : blockhash) (block_number : Z) (block target : list Z)
    (cand start target_size : Z) (best : match_) : option esite :=
  if block_number <? 0 then None
  else
    match n with
    | O => None
    | S n' =>
        match extend_match bh block_number target cand start target_size best with
        | None => None
        | Some best' =>
            efirst (e_next_matching_block bh block_number)
              (match next_matching_block bh block_number block with
               | None => None
               | Some b => e_find_loop n' bh b block target cand start target_size best'
               end)
        end
    end.
(** blockhash.cc 397-446 [FindBestMatch] (see [find_best_match]) *)
Definition e_find_best_match (bh : blockhash) (hash_value : Z) (target : list Z)
    (cand start target_size : Z) (best : match_) : option esite :=
  match slice target cand kBlockSize with
  | None => None
  | Some block =>
      match first_matching_block bh hash_value block with
      | None => None
      | Some b => e_find_loop kMaxMatchesToCheck bh b block target cand start target_size best
      end
  end.

(** ** vcdiffengine.cc *)

(** vcdiffengine.cc 44-58 [Init] (see [engine_init]) *)
Definition e_engine_init (en : engine) : option esite :=
  match en_hash en with
  | Some _ => Some EngineInitTwice
  | None =>
      efirst (e_bh_init (en_dict en) 0 true)
        (match create_dictionary_hash (en_dict en) with
         | Some None => Some NoDictionaryHash
         | _ => None
         end)
  end.

(** vcdiffengine.cc 75-115 [EncodeCopyForBestMatch] (see [encode_copy_for_best_match]) *)
Definition e_encode_copy_for_best_match (dict_hash : blockhash) (target_hash : option blockhash)
    (hash_value : Z) (target : list Z) (cand start size : Z) : option esite :=
  efirst (e_find_best_match dict_hash hash_value target cand start size no_match)
    (match find_best_match dict_hash hash_value target cand start size no_match with
     | None => None
     | Some best1 =>
         match target_hash with
         | Some th => e_find_best_match th hash_value target cand start size best1
         | None => None
         end
     end).

(** vcdiffengine.cc 173-212, the loop of [EncodeInternal] (see [encode_loop]) *)
Fixpoint e_encode_loop (fuel : nat) (dict_hash : blockhash) (target : list Z) (rt : list Z)
    (next_encode cand hash_value : Z) (target_hash : option blockhash) : option esite :=
  match fuel with
  | O => None
  | S n =>
      let target_size := zlen target in
      let start_of_last_block := target_size - kBlockSize in
      efirst (e_encode_copy_for_best_match dict_hash target_hash hash_value target cand next_encode (target_size - next_encode))
        (match encode_copy_for_best_match dict_hash target_hash hash_value target cand next_encode
                 (target_size - next_encode) with
         | None => None
         | Some (bytes_encoded, calls) =>
             if 0 <? bytes_encoded then
               let next := next_encode + bytes_encoded in
               if start_of_last_block <? next then None
               else
                 match slice target next kBlockSize with
                 | None => None
                 | Some b =>
                     match hash_direct kBlockSize b with
                     | None => None
                     | Some h =>
                         match target_hash with
                         | None => e_encode_loop n dict_hash target rt next next h None
                         | Some th =>
                             efirst (e_add_all_blocks_through_index th (to_int32 next))
                               (match add_all_blocks_through_index th (to_int32 next) with
                                | None => None
                                | Some th' => e_encode_loop n dict_hash target rt next next h (Some th')
                                end)
                         end
                     end
                 end
             else if start_of_last_block <? cand + 1 then None
             else
               efirst (match target_hash with None => None | Some th => e_add_one_index_hash th (to_int32 cand) hash_value end)
                 (match (match target_hash with
                         | None => Some None
                         | Some th =>
                             match add_one_index_hash th (to_int32 cand) hash_value with
                             | None => None
                             | Some th' => Some (Some th')
                             end
                         end) with
                  | None => None
                  | Some target_hash' =>
                      match get target cand, get target (cand + kBlockSize) with
                      | Some first, Some last =>
                          match update_hash rt hash_value first last with
                          | None => None
                          | Some h => e_encode_loop n dict_hash target rt next_encode (cand + 1) h target_hash'
                          end
                      | _, _ => None
                      end
                  end)
         end)
  end.

(** vcdiffengine.cc 132-228 [Encode] (see [engine_encode]) *)
Definition e_engine_encode (en : engine) (look_for_target_matches : bool) (target : list Z) : option esite :=
  match en_hash en with
  | None => Some EncodeBeforeInit
  | Some dict_hash =>
      let target_size := zlen target in
      if target_size =? 0 then None
      else if target_size <? kBlockSize then None
      else
        efirst (if look_for_target_matches then e_bh_init target (to_int32 (zlen (en_dict en))) false else None)
          (match (if look_for_target_matches then create_target_hash target (zlen (en_dict en))
                  else Some None) with
           | None => None
           | Some th =>
               if look_for_target_matches && (match th with None => true | Some _ => false end)
               then Some NoTargetHash
               else
                 match slice target 0 kBlockSize with
                 | None => None
                 | Some b =>
                     match hash_direct kBlockSize b with
                     | None => None
                     | Some h => e_encode_loop (Z.to_nat target_size) dict_hash target (remove_table kBlockSize) 0 0 h th
                     end
                 end
           end)
  end.

(** ** encodetable.cc *)

(** varint_bigendian.cc 58-80 [EncodeInternal] *)
Definition e_varint (v : Z) : option esite := if v <? 0 then Some VarintNegative else None.
(** encodetable.cc 278-286 [AppendSizeToString], [AppendSizeToOutputString] (see [size_bytes]) *)
Definition e_size (size : Z) : option esite := e_varint (to_int32 size).
(** varint_bigendian.cc 108-124 [Length] *)
Definition e_length (v : Z) : option esite := if v <? 0 then Some LengthNegative else None.
(** encodetable.cc 274-276 [CalculateLengthOfSizeAsVarint] (see [size_length]) *)
Definition e_size_length (size : Z) : option esite := e_length (to_int32 size).

(** addrcache.cc 141-197 [EncodeAddress] (see [encode_address]) *)
Definition e_encode_address (address here : Z) : option esite :=
  if address <? 0 then Some AddressNegative else if here <=? address then Some AddressNotBefore else None.

(** encodetable.cc 212-234 (see [encode_single]) *)
Definition e_encode_single (m : instruction_map) (inst size mode : Z) : option esite :=
  match (if size <=? 255 then first_lookup (im_first m) inst size mode else Some kNoOpcode) with
  | None => None
  | Some op =>
      if negb (op =? kNoOpcode) then None
      else
        match first_lookup (im_first m) inst 0 mode with
        | None => None
        | Some op => if op =? kNoOpcode then Some NoOpcode else e_size size
        end
  end.

(** encodetable.cc 171-235 [EncodeInstruction] (see [encode_instruction]) *)
Definition e_encode_instruction (w : writer) (inst size mode : Z) : option esite :=
  match wr_map w with
  | None => Some WriterNotInit
  | Some m =>
      if 0 <=? wr_last w then
        match get (wr_inst w) (wr_last w) with
        | None => None
        | Some last =>
            match (if size <=? 255 then second_lookup (im_second m) last inst size mode
                   else Some kNoOpcode) with
            | None => None
            | Some op =>
                if negb (op =? kNoOpcode) then None
                else
                  match second_lookup (im_second m) last inst 0 mode with
                  | None => None
                  | Some op => if negb (op =? kNoOpcode) then e_size size else e_encode_single m inst size mode
                  end
            end
        end
      else e_encode_single m inst size mode
  end.

(** encodetable.cc 243-266 [Copy] (see [writer_copy]) *)
Definition e_writer_copy (w : writer) (offset size : Z) : option esite :=
  match wr_map w with
  | None => Some CopyNotInit
  | Some _ =>
      efirst (e_encode_address offset (to_int32 (wr_dict_size w + wr_len w)))
        (match encode_address (wr_cache w) offset (to_int32 (wr_dict_size w + wr_len w)) with
         | None => None
         | Some (mode, e, c) =>
             let w1 := set_state w c (wr_dict_size w) (wr_len w) (wr_map w) (wr_last w) in
             efirst (e_encode_instruction w1 VCD_COPY size mode)
               (if write_as_varint c mode then e_varint e else None)
         end)
  end.

(** encodetable.cc 237-272: one call of [Add], [Copy] or [Run] (see [writer_call]) *)
Definition e_writer_call (w : writer) (i : instruction) : option esite :=
  match i with
  | Add d => e_encode_instruction w VCD_ADD (zlen d) 0
  | Copy a n => e_writer_copy w a n
  | Run n _ => e_encode_instruction w VCD_RUN n 0
  end.
(** encodetable.cc 237-272: a sequence of calls (see [writer_calls]) *)
Fixpoint e_writer_calls (w : writer) (l : list instruction) : option esite :=
  match l with
  | [] => None
  | i :: tl =>
      efirst (e_writer_call w i)
        (match writer_call w i with Some w' => e_writer_calls w' tl | None => None end)
  end.

(** encodetable.cc 290-305 [CalculateLengthOfTheDeltaEncoding] (see [delta_length]) *)
Definition e_delta_length (w : writer) : option esite :=
  efirst (e_size_length (wr_len w))
    (efirst (e_size_length (zlen (wr_data w)))
      (efirst (e_size_length (zlen (wr_inst w)))
        (efirst (e_size_length (zlen (wr_addr w)))
          (if wr_has_cks w then e_length (wr_cks w) else None)))).

(** encodetable.cc 339-358: what [Output] appends between "Start of Delta Encoding" and
    "End of Delta Encoding", the end of [window_bytes] *)
Definition delta_bytes (w : writer) : list Z :=
  size_bytes (wr_len w) ++ [0]
  ++ size_bytes (zlen (wr_data w)) ++ size_bytes (zlen (wr_inst w)) ++ size_bytes (zlen (wr_addr w))
  ++ (if wr_has_cks w then encode_bytes I64 (wr_cks w) else [])
  ++ wr_data w ++ wr_inst w ++ wr_addr w.

(** encodetable.cc 307-365, a window that is not empty (see [window_bytes]) *)
Definition e_window (w : writer) : option esite :=
  efirst (e_delta_length w)
    (efirst (e_size_length (wr_dict_size w))
      (efirst (e_size_length 0)
        (efirst (e_size_length (delta_length w))
          (efirst (e_size (wr_dict_size w))
            (efirst (e_size 0)
              (efirst (e_size (delta_length w))
                (efirst (e_size (wr_len w))
                  (efirst (e_size (zlen (wr_data w)))
                    (efirst (e_size (zlen (wr_inst w)))
                      (efirst (e_size (zlen (wr_addr w)))
                        (efirst (if wr_has_cks w then e_varint (wr_cks w) else None)
                          (if negb (delta_length w =? zlen (delta_bytes w)) then Some LengthWrong else None)))))))))))).

(** encodetable.cc 307-385 [Output] (see [writer_output]) *)
Definition e_writer_output (w : writer) : option esite :=
  efirst (match wr_inst w with [] => None | _ => e_window w end)
    (let w' := match wr_inst w with
               | [] => w
               | _ => set_sections w [] [] [] (wr_len w)
               end in
     match writer_init w' (wr_dict_size w') with
     | Some (_, false) => Some ReInitFailed
     | _ => None
     end).

(** ** vcencoder.cc *)

(** vcencoder.cc 119-134 [StartEncoding] (see [start_encoding]) *)
Definition e_start_encoding (e : encoder) : option esite :=
  match coder_init (ec_coder e) (zlen (en_dict (ec_engine e))) with
  | Some (_, false) => Some CoderInitFailed
  | _ => None
  end.

(** vcencoder.cc 136-153 [EncodeChunk] (see [encode_chunk]); the JSON writer has no
    VCD_DFATAL (jsonwriter.cc) *)
Definition e_encode_chunk (e : encoder) (data : list Z) : option esite :=
  if negb (ec_allowed e) then None
  else if negb (coder_verify (ec_coder e) data) then None
  else
    let c := if fl_checksum (ec_flags e) then coder_checksum (ec_coder e) (compute_adler32 data) else ec_coder e in
    efirst (e_engine_encode (ec_engine e) (ec_look e) data)
      (match engine_encode (ec_engine e) (ec_look e) data with
       | Some (Some calls) =>
           match c with
           | Json _ => None
           | Binary w =>
               efirst (e_writer_calls w calls)
                 (match writer_calls w calls with Some w' => e_writer_output w' | None => None end)
           end
       | _ => None
       end).

(** vcencoder.h 167-203: one call on a streaming encoder (see [do_ecall]) *)
Definition e_ecall (e : encoder) (c : ecall) : option esite :=
  match c with
  | EStart => e_start_encoding e
  | EChunk data => e_encode_chunk e data
  | EFinish => None
  end.
(** vcencoder.h 167-203: any sequence of calls (see [do_ecalls]) *)
Fixpoint e_ecalls (e : encoder) (l : list ecall) : option esite :=
  match l with
  | [] => None
  | c :: tl =>
      efirst (e_ecall e c)
        (match do_ecall e c with Some (e', _, _) => e_ecalls e' tl | None => None end)
  end.

(** vcencoder.cc 57-67, 166-174: a HashedDictionary, Init, an encoder for it, and any
    sequence of calls on it (see [streaming_encoder]) *)
Definition e_streaming (dict : list Z) (f : flags) (look : bool) (l : list ecall) : option esite :=
  efirst (e_engine_init (new_engine dict))
    (match streaming_encoder dict f look with Some e => e_ecalls e l | None => None end).

(** vcencoder.cc 219-224: the calls of [EncodeToInterface] on the streaming encoder (see
    [encode_stream] for one chunk) *)
Definition e_encode_stream (e : encoder) (target : list Z) : option esite :=
  efirst (e_start_encoding e)
    (match start_encoding e with Some (e1, true, _) => e_encode_chunk e1 target | _ => None end).

(** vcencoder.cc 205-225 [EncodeToInterface] (see [encode]) *)
Definition e_encode (v : vcdiff_encoder) (target : list Z) : option esite :=
  match ve_encoder v with
  | Some e => e_encode_stream e target
  | None =>
      efirst (e_engine_init (ve_engine v))
        (match engine_init (ve_engine v) with
         | Some (en, true) => e_encode_stream (new_encoder en (ve_flags v) (ve_look v)) target
         | _ => None
         end)
  end.
(** vcencoder.h 219-260: any sequence of [Encode] calls on a VCDiffEncoder *)
Fixpoint e_encodes (v : vcdiff_encoder) (l : list (list Z)) : option esite :=
  match l with
  | [] => None
  | t :: tl =>
      efirst (e_encode v t)
        (match encode v t with Some (v', _, _) => e_encodes v' tl | None => None end)
  end.
