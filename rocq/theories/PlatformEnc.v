(** The encoder on platforms with different widths of [size_t] and [unsigned long],
    and with either way of comparing blocks.

    As in [Platform]: the functions of [BlockHash], [Engine], [EncodeTable],
    [JsonWriter] and [Encoder] that compute with size_t or that compare blocks,
    and their callers.  The other functions are shared. *)

From Verif Require Import Base Varint AddrCache SpecEncode Adler CodeTable InstructionMap EncodeTable JsonWriter
  RollingHash BlockHash Engine Encoder Platform.

(** A build of the library: the data model, whether VCDIFF_USE_BLOCK_COMPARE_WORDS
    is defined, and the byte order of the machine.  blockhash.cc 292-296,
    config.h.in 52 *)
Record build := { b_platform : platform; b_words : bool; b_little : bool }.

(** ** The index of blocks *)

(** blockhash.cc 108-148 [CalcTableSize], the loop; [table_size] has at most 64
    bits, so that it is left after at most 64 shifts.  [None]: out of fuel. *)
Fixpoint p_table_size_loop (p : platform) (fuel : nat) (table_size min_size : Z) : option Z :=
  match fuel with
  | O => None
  | S n =>
      if table_size <? min_size then
        let t := wrap p (table_size * 2) in
        if t <=? 0 then Some 0 else p_table_size_loop p n t min_size
      else if negb (Z.land table_size (table_size - 1) =? 0) then Some 0
      else Some table_size
  end.

(** blockhash.cc 108-150 [CalcTableSize] *)
Definition p_calc_table_size (p : platform) (size : Z) : option Z :=
  let min_size := size / 4 + 1 in
  match p_table_size_loop p 66 1 min_size with
  | None => None
  | Some t => if (0 <? size) && (wrap p (min_size * 2) <? t) then Some 0 else Some t
  end.

(** blockhash.cc 28-36 (constructor), 55-78 [Init]: [None] is undefined
    behaviour, [Some None] a return value false, that is a NULL hash for the
    callers 80-105. *)
Definition p_bh_init (p : platform) (source : list Z) (starting_offset : Z) (populate : bool) : option (option blockhash) :=
  match p_calc_table_size p (zlen source) with
  | None => None
  | Some table_size =>
      if table_size =? 0 then Some None
      else
        let blocks := zlen source / kBlockSize in
        let bh := {| bh_source := source; bh_start := starting_offset; bh_mask := to_uint32 (table_size - 1);
                     bh_table := zrepeat (-1) table_size; bh_next := zrepeat (-1) blocks;
                     bh_last_of := zrepeat (-1) blocks; bh_last := -1 |} in
        if populate then
          match add_all_blocks_through_index bh (to_int32 (zlen source)) with
          | None => None
          | Some bh' => Some (Some bh')
          end
        else Some (Some bh)
  end.

(** blockhash.cc 80-91 [CreateDictionaryHash], 93-105 [CreateTargetHash] *)
Definition p_create_dictionary_hash (p : platform) (dict : list Z) : option (option blockhash) := p_bh_init p dict 0 true.

(** blockhash.cc 93-105 *)
Definition p_create_target_hash (p : platform) (target : list Z) (dictionary_size : Z) : option (option blockhash) :=
  p_bh_init p target (to_int32 dictionary_size) false.

(** blockhash.cc 26 [uword_t], sizeof(unsigned long) *)
Definition uword_size (p : platform) : nat := match p with ILP32 | LLP64 => 4 | LP64 => 8 end.

(** blockhash.cc 260-264: the value of the unsigned long that memcpy makes from
    its bytes *)
Fixpoint word_little (l : list Z) : Z := match l with [] => 0 | x :: l' => x + 256 * word_little l' end.
(** blockhash.cc 260-264, on a big-endian machine *)
Definition word_big (l : list Z) : Z := fold_left (fun v x => 256 * v + x) l 0.
(** blockhash.cc 257-265 [CompareWholeWordValues<1>] *)
Definition compare_word (m : build) (block1 block2 : list Z) : bool :=
  let w := uword_size (b_platform m) in
  let value := if b_little m then word_little else word_big in
  value (firstn w block1) =? value (firstn w block2).
(** blockhash.cc 242-254 [CompareWholeWordValues]; there is no instance for 0 words *)
Fixpoint compare_words (m : build) (number_of_words : nat) (block1 block2 : list Z) : bool :=
  match number_of_words with
  | O => true
  | S O => compare_word m block1 block2
  | S n =>
      let w := uword_size (b_platform m) in
      compare_word m block1 block2 && compare_words m n (skipn w block1) (skipn w block2)
  end.
(** blockhash.cc 278-281 [BlockCompareWordsInline] *)
Definition block_compare_words (m : build) (block1 block2 : list Z) : bool :=
  compare_words m (Z.to_nat (kBlockSize / Z.of_nat (uword_size (b_platform m)))) block1 block2.
(** blockhash.cc 287-301 [BlockContentsMatch] *)
Definition b_block_contents_match (m : build) (block1 block2 : list Z) : bool :=
  if negb (hd 0 block1 =? hd 0 block2) then false
  else if b_words m then block_compare_words m block1 block2
  else bytes_eqb block1 block2.

(** blockhash.cc 303-315 [SkipNonMatchingBlocks]: [n] is kMaxProbes - probes *)
Fixpoint b_skip_non_matching (m : build) (n : nat) (bh : blockhash) (block_number : Z) (block : list Z) : option Z :=
  if block_number <? 0 then Some block_number
  else
    match slice (bh_source bh) (block_number * kBlockSize) kBlockSize with
    | None => None
    | Some s =>
        if b_block_contents_match m block s then Some block_number
        else
          match n with
          | O => Some (-1)
          | S n' =>
              match get (bh_next bh) block_number with
              | None => None
              | Some b => b_skip_non_matching m n' bh b block
              end
          end
    end.

(** blockhash.cc 320-329 [FirstMatchingBlock] *)
Definition b_first_matching_block (m : build) (bh : blockhash) (hash_value : Z) (block : list Z) : option Z :=
  match get (bh_table bh) (hash_table_index bh hash_value) with
  | None => None
  | Some b => b_skip_non_matching m kMaxProbes bh b block
  end.

(** blockhash.cc 331-339 [NextMatchingBlock] *)
Definition b_next_matching_block (m : build) (bh : blockhash) (block_number : Z) (block : list Z) : option Z :=
  if number_of_blocks bh <=? wrap (b_platform m) block_number then Some (-1)         (* VCD_DFATAL *)
  else
    match get (bh_next bh) block_number with
    | None => None
    | Some b => b_skip_non_matching m kMaxProbes bh b block
    end.

(** blockhash.cc 407-442, the body of the loop of [FindBestMatch].
    target_candidate_start is the offset [cand] in [target], target_start the
    offset [start]. *)
Definition p_extend_match (p : platform) (bh : blockhash) (block_number : Z) (target : list Z) (cand start target_size : Z)
    (best : match_) : option match_ :=
  let source_match_offset := block_number * kBlockSize in
  let source_match_end := source_match_offset + kBlockSize in
  let target_match_offset := to_int32 (cand - start) in
  let target_match_end := target_match_offset + kBlockSize in
  match matching_left (Z.to_nat (Z.min source_match_offset target_match_offset))
          (bh_source bh) source_match_offset target (start + target_match_offset) with
  | None => None
  | Some to_left =>
      let source_bytes_to_right := wrap p (zlen (bh_source bh) - source_match_end) in
      let target_bytes_to_right := wrap p (target_size - target_match_end) in
      let limit := Z.min source_bytes_to_right target_bytes_to_right in
      match matching_right (Z.to_nat (to_int32 limit))
              (bh_source bh) source_match_end target (start + target_match_end) with
      | None => None
      | Some to_right =>
          Some (replace_if_better best (kBlockSize + to_left + to_right)
                  (source_match_offset - to_left + bh_start bh) (target_match_offset - to_left))
      end
  end.

(** blockhash.cc 397-444 [FindBestMatch], the loop; [n] is the number of matches
    that may still be checked *)
Fixpoint b_find_loop (m : build) (n : nat) (bh : blockhash) (block_number : Z) (block target : list Z)
    (cand start target_size : Z) (best : match_) : option match_ :=
  if block_number <? 0 then Some best
  else
    match n with
    | O => Some best                                                     (* TooManyMatches *)
    | S n' =>
        match p_extend_match (b_platform m) bh block_number target cand start target_size best with
        | None => None
        | Some best' =>
            match b_next_matching_block m bh block_number block with
            | None => None
            | Some b => b_find_loop m n' bh b block target cand start target_size best'
            end
        end
    end.

(** blockhash.cc 397-446 [FindBestMatch] *)
Definition b_find_best_match (m : build) (bh : blockhash) (hash_value : Z) (target : list Z)
    (cand start target_size : Z) (best : match_) : option match_ :=
  match slice target cand kBlockSize with
  | None => None
  | Some block =>
      match b_first_matching_block m bh hash_value block with
      | None => None
      | Some b => b_find_loop m kMaxMatchesToCheck bh b block target cand start target_size best
      end
  end.

(** ** The engine *)

(** vcdiffengine.cc 44-58 [Init] *)
Definition p_engine_init (p : platform) (en : engine) : option (engine * bool) :=
  match en_hash en with
  | Some _ => Some (en, false)                                           (* VCD_DFATAL *)
  | None =>
      match p_create_dictionary_hash p (en_dict en) with
      | None => None
      | Some None => Some (en, false)
      | Some (Some h) => Some ({| en_dict := en_dict en; en_hash := Some h |}, true)
      end
  end.

(** vcdiffengine.cc 75-115 [EncodeCopyForBestMatch]: the return value
    bytes_encoded and the calls made.  [target_hash = None] is NULL, that is
    look_for_target_matches is false. *)
Definition b_encode_copy_for_best_match (m : build) (dict_hash : blockhash) (target_hash : option blockhash)
    (hash_value : Z) (target : list Z) (cand start size : Z) : option (Z * list instruction) :=
  match b_find_best_match m dict_hash hash_value target cand start size no_match with
  | None => None
  | Some best1 =>
      match (match target_hash with
             | Some th => b_find_best_match m th hash_value target cand start size best1
             | None => Some best1
             end) with
      | None => None
      | Some best =>
          if negb (kMinimumMatchSize <=? m_size best) then Some (0, [])
          else if 0 <? m_target best then
            match slice target start (m_target best) with
            | None => None
            | Some d => Some (m_target best + m_size best, [Add d; Copy (m_source best) (m_size best)])
            end
          else Some (m_target best + m_size best, [Copy (m_source best) (m_size best)])
      end
  end.

(** vcdiffengine.cc 173-212, the loop of [EncodeInternal]: next_encode at the end
    of the loop and the calls made.  Each iteration moves candidate_pos; the
    fuel is the size of the target. *)
Fixpoint b_encode_loop (m : build) (fuel : nat) (dict_hash : blockhash) (target : list Z) (rt : list Z)
    (next_encode cand hash_value : Z) (target_hash : option blockhash) : option (Z * list instruction) :=
  match fuel with
  | O => None
  | S n =>
      let target_size := zlen target in
      let start_of_last_block := target_size - kBlockSize in
      match b_encode_copy_for_best_match m dict_hash target_hash hash_value target cand next_encode
              (target_size - next_encode) with
      | None => None
      | Some (bytes_encoded, calls) =>
          if 0 <? bytes_encoded then
            let next := next_encode + bytes_encoded in
            if start_of_last_block <? next then Some (next, calls)
            else
              match slice target next kBlockSize with
              | None => None
              | Some b =>
                  match hash_direct kBlockSize b with
                  | None => None
                  | Some h =>
                      match target_hash with
                      | None => prepend calls (b_encode_loop m n dict_hash target rt next next h None)
                      | Some th =>
                          match add_all_blocks_through_index th (to_int32 next) with
                          | None => None
                          | Some th' => prepend calls (b_encode_loop m n dict_hash target rt next next h (Some th'))
                          end
                      end
                  end
              end
          else if start_of_last_block <? cand + 1 then Some (next_encode, calls)
          else
            match (match target_hash with
                   | None => Some None
                   | Some th =>
                       match add_one_index_hash th (to_int32 cand) hash_value with
                       | None => None
                       | Some th' => Some (Some th')
                       end
                   end) with
            | None => None
            | Some target_hash' =>
                match get target cand, get target (cand + kBlockSize) with
                | Some first, Some last =>
                    match update_hash rt hash_value first last with
                    | None => None
                    | Some h => prepend calls (b_encode_loop m n dict_hash target rt next_encode (cand + 1) h target_hash')
                    end
                | _, _ => None
                end
            end
      end
  end.

(** vcdiffengine.cc 132-228 [Encode]: the calls made on the coder.
    [Some (Some l)]: the calls [l] followed by Output; [Some None]: no calls at
    all, not even Output. *)
Definition b_engine_encode (m : build) (en : engine) (look_for_target_matches : bool) (target : list Z)
    : option (option (list instruction)) :=
  match en_hash en with
  | None => Some None                                                    (* VCD_DFATAL *)
  | Some dict_hash =>
      let target_size := zlen target in
      if target_size =? 0 then Some None
      else if target_size <? kBlockSize then
        match add_unmatched_remainder target 0 target_size with
        | None => None
        | Some l => Some (Some l)
        end
      else
        match (if look_for_target_matches then p_create_target_hash (b_platform m) target (zlen (en_dict en))
               else Some None) with
        | None => None
        | Some th =>
            if look_for_target_matches && (match th with None => true | Some _ => false end)
            then Some None                                               (* VCD_DFATAL *)
            else
              match slice target 0 kBlockSize with
              | None => None
              | Some b =>
                  match hash_direct kBlockSize b with
                  | None => None
                  | Some h =>
                      match b_encode_loop m (Z.to_nat target_size) dict_hash target (remove_table kBlockSize) 0 0 h th with
                      | None => None
                      | Some (next_encode, calls) =>
                          match add_unmatched_remainder target next_encode (target_size - next_encode) with
                          | None => None
                          | Some l => Some (Some (calls ++ l))
                          end
                      end
                  end
              end
        end
  end.

(** ** The writers *)

(** encodetable.cc 239-240, 270-271 *)
Definition p_append_data (p : platform) (w : writer) (l : list Z) (size : Z) : writer :=
  if wr_il w then set_sections w (wr_inst w ++ l) (wr_data w) (wr_addr w) (wrap p (wr_len w + size))
  else set_sections w (wr_inst w) (wr_data w ++ l) (wr_addr w) (wrap p (wr_len w + size)).

(** encodetable.cc 258-265 *)
Definition p_append_addr (p : platform) (w : writer) (l : list Z) (size : Z) : writer :=
  if wr_il w then set_sections w (wr_inst w ++ l) (wr_data w) (wr_addr w) (wrap p (wr_len w + size))
  else set_sections w (wr_inst w) (wr_data w) (wr_addr w ++ l) (wrap p (wr_len w + size)).

(** encodetable.cc 237-241 [Add] *)
Definition p_writer_add (p : platform) (w : writer) (data : list Z) : option writer :=
  match encode_instruction w VCD_ADD (zlen data) 0 with
  | None => None
  | Some w => Some (p_append_data p w data (zlen data))
  end.

(** encodetable.cc 268-272 [Run] *)
Definition p_writer_run (p : platform) (w : writer) (size byte : Z) : option writer :=
  match encode_instruction w VCD_RUN size 0 with
  | None => None
  | Some w => Some (p_append_data p w [byte] size)
  end.

(** encodetable.cc 243-266 [Copy] *)
Definition p_writer_copy (p : platform) (w : writer) (offset size : Z) : option writer :=
  match wr_map w with
  | None => Some w                                                 (* VCD_DFATAL *)
  | Some _ =>
      match encode_address (wr_cache w) offset (to_int32 (wr_dict_size w + wr_len w)) with
      | None => None
      | Some (mode, e, c) =>
          let w1 := set_state w c (wr_dict_size w) (wr_len w) (wr_map w) (wr_last w) in
          match encode_instruction w1 VCD_COPY size mode with
          | None => None
          | Some w2 => Some (p_append_addr p w2 (addr_bytes c mode e) size)
          end
      end
  end.

(** codetablewriter_interface.h 43-75: a call of [Add], [Copy] or [Run], named
    by an [instruction] of the specification. *)
Definition p_writer_call (p : platform) (w : writer) (i : instruction) : option writer :=
  match i with
  | Add d => p_writer_add p w d
  | Copy a n => p_writer_copy p w a n
  | Run n b => p_writer_run p w n b
  end.

(** codetablewriter_interface.h 55-62: a sequence of such calls *)
Fixpoint p_writer_calls (p : platform) (w : writer) (l : list instruction) : option writer :=
  match l with
  | [] => Some w
  | i :: tl => match p_writer_call p w i with Some w' => p_writer_calls p w' tl | None => None end
  end.

(** encodetable.cc 290-305 [CalculateLengthOfTheDeltaEncoding] *)
Definition p_delta_length (p : platform) (w : writer) : Z :=
  wrap p (wrap p (size_length (wr_len w) + 1 + size_length (zlen (wr_data w)) + size_length (zlen (wr_inst w))
    + size_length (zlen (wr_addr w)) + zlen (wr_data w) + zlen (wr_inst w) + zlen (wr_addr w))
  + (if wr_has_cks w then varint_length (wr_cks w) else 0)).

(** encodetable.cc 307-365, the bytes that [Output] appends for a window that is
    not empty. *)
Definition p_window_bytes (p : platform) (w : writer) : list Z :=
  [if wr_has_cks w then 5 else 1]
  ++ size_bytes (wr_dict_size w) ++ size_bytes 0
  ++ size_bytes (p_delta_length p w)
  ++ size_bytes (wr_len w) ++ [0]
  ++ size_bytes (zlen (wr_data w)) ++ size_bytes (zlen (wr_inst w)) ++ size_bytes (zlen (wr_addr w))
  ++ (if wr_has_cks w then encode_bytes I64 (wr_cks w) else [])
  ++ wr_data w ++ wr_inst w ++ wr_addr w.

(** encodetable.cc 307-385 [Output]: new state and bytes appended.  The return
    value of Init is only logged.  ReserveAdditionalBytes is not modelled. *)
Definition p_writer_output (p : platform) (w : writer) : option (writer * list Z) :=
  let '(w', out) := match wr_inst w with
                    | [] => (w, [])
                    | _ => (set_sections w [] [] [] (wr_len w), p_window_bytes p w)
                    end in
  match writer_init w' (wr_dict_size w') with
  | None => None
  | Some (w'', _) => Some (w'', out)
  end.

(** jsonwriter.cc 85-94 [Copy] *)
Definition p_json_copy (p : platform) (j : json_writer) (offset size : Z) : json_writer :=
  json_append j (decimal (to_int32 offset) ++ [44] ++ decimal (wrap p size)).
(** jsonwriter.cc 74-105 *)
Definition p_json_call (p : platform) (j : json_writer) (i : instruction) : json_writer :=
  match i with
  | Add d => json_add j d
  | Copy a n => p_json_copy p j a n
  | Run n b => json_run j n b
  end.

(** ** The encoder *)

(** codetablewriter_interface.h 55-62: [Add], [Copy] and [Run] calls *)
Definition p_coder_calls (p : platform) (c : coder) (l : list instruction) : option coder :=
  match c with
  | Binary w => match p_writer_calls p w l with Some w' => Some (Binary w') | None => None end
  | Json j => Some (Json (fold_left (p_json_call p) l j))
  end.

(** encodetable.cc 307-386, jsonwriter.cc 36-40 [Output] *)
Definition p_coder_output (p : platform) (c : coder) : option (coder * list Z) :=
  match c with
  | Binary w => match p_writer_output p w with Some (w', out) => Some (Binary w', out) | None => None end
  | Json j => let '(j', out) := json_output j in Some (Json j', out)
  end.

(** vcencoder.cc 57-67, 166-174: a HashedDictionary, Init, and an encoder for it;
    [None] when Init fails. *)
Definition p_streaming_encoder (p : platform) (dict : list Z) (f : flags) (look : bool) : option encoder :=
  match p_engine_init p (new_engine dict) with
  | Some (en, true) => Some (new_encoder en f look)
  | _ => None
  end.

(** vcencoder.cc 136-153 [EncodeChunk], with vcdiffengine.cc 132-228 [Encode] *)
Definition b_encode_chunk (m : build) (e : encoder) (data : list Z) : option (encoder * bool * list Z) :=
  if negb (ec_allowed e) then Some (e, false, [])
  else if negb (coder_verify (ec_coder e) data) then Some (e, false, [])
  else
    let c := if fl_checksum (ec_flags e) then coder_checksum (ec_coder e) (compute_adler32 data) else ec_coder e in
    match b_engine_encode m (ec_engine e) (ec_look e) data with
    | None => None
    | Some None => Some (set_coder e c true, true, [])
    | Some (Some calls) =>
        match p_coder_calls (b_platform m) c calls with
        | None => None
        | Some c1 =>
            match p_coder_output (b_platform m) c1 with
            | None => None
            | Some (c2, out) => Some (set_coder e c2 true, true, out)
            end
        end
    end.

(** The pattern of calls documented in vcencoder.h 117-149, given up at the first
    call that fails: success, and all bytes appended. *)
Fixpoint b_encode_chunks (m : build) (e : encoder) (chunks : list (list Z)) (out : list Z) : option (encoder * bool * list Z) :=
  match chunks with
  | [] => Some (e, true, out)
  | c :: tl =>
      match b_encode_chunk m e c with
      | None => None
      | Some (e', false, o) => Some (e', false, out ++ o)
      | Some (e', true, o) => b_encode_chunks m e' tl (out ++ o)
      end
  end.

(** the use documented in google/vcencoder.h 117-149 *)
Definition b_encode_stream (m : build) (e : encoder) (chunks : list (list Z)) : option (encoder * bool * list Z) :=
  match start_encoding e with
  | None => None
  | Some (e1, false, o1) => Some (e1, false, o1)
  | Some (e1, true, o1) =>
      match b_encode_chunks m e1 chunks o1 with
      | None => None
      | Some (e2, false, o2) => Some (e2, false, o2)
      | Some (e2, true, o2) =>
          let '(e3, r, o3) := finish_encoding e2 in Some (e3, r, o2 ++ o3)
      end
  end.

(** vcencoder.cc 205-225 [EncodeToInterface]: new state, return value, contents of
    the output string afterwards (what it held before is cleared) *)
Definition b_encode (m : build) (v : vcdiff_encoder) (target : list Z) : option (vcdiff_encoder * bool * list Z) :=
  match (match ve_encoder v with
         | Some e => Some (ve_engine v, Some e)
         | None =>
             match p_engine_init (b_platform m) (ve_engine v) with                        (* HashedDictionary::Init, 65-67 *)
             | None => None
             | Some (en, false) => Some (en, None)
             | Some (en, true) => Some (en, Some (new_encoder en (ve_flags v) (ve_look v)))
             end
         end) with
  | None => None
  | Some (en, None) =>
      Some ({| ve_engine := en; ve_encoder := None; ve_flags := ve_flags v; ve_look := ve_look v |}, false, [])
  | Some (en, Some e) =>
      match b_encode_stream m e [target] with
      | None => None
      | Some (e', r, out) =>
          Some ({| ve_engine := en; ve_encoder := Some e'; ve_flags := ve_flags v; ve_look := ve_look v |}, r, out)
      end
  end.

(** vcencoder.h 167-203: one call *)
Definition b_do_ecall (m : build) (e : encoder) (c : ecall) : option (encoder * bool * list Z) :=
  match c with
  | EStart => start_encoding e
  | EChunk data => b_encode_chunk m e data
  | EFinish => Some (finish_encoding e)
  end.

(** vcencoder.h 167-203: any sequence of calls *)
Fixpoint b_do_ecalls (m : build) (e : encoder) (l : list ecall) : option (encoder * list (bool * list Z)) :=
  match l with
  | [] => Some (e, [])
  | c :: tl =>
      match b_do_ecall m e c with
      | None => None
      | Some (e', r, o) =>
          match b_do_ecalls m e' tl with
          | None => None
          | Some (e'', rs) => Some (e'', (r, o) :: rs)
          end
      end
  end.

(** A VCDiffStreamingEncoder for a HashedDictionary, and any sequence of calls on
    it: what they return and append.  [None]: undefined behaviour, or Init of the
    dictionary fails.  vcencoder.h 60-203 *)
Definition b_encoder_session (m : build) (dict : list Z) (f : flags) (look : bool) (l : list ecall) : option (list (bool * list Z)) :=
  match p_streaming_encoder (b_platform m) dict f look with
  | None => None
  | Some e => match b_do_ecalls m e l with None => None | Some (_, rs) => Some rs end
  end.

(** A VCDiffEncoder used for several targets, vcencoder.h 219-255: the results up
    to the first undefined behaviour *)
Fixpoint b_encodes (m : build) (v : vcdiff_encoder) (targets : list (list Z)) : list (option (bool * list Z)) :=
  match targets with
  | [] => []
  | t :: tl =>
      match b_encode m v t with
      | None => [None]
      | Some (v', r, out) => Some (r, out) :: b_encodes m v' tl
      end
  end.
