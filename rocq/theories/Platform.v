(** The decoder on platforms with different widths of [size_t] and [unsigned long].

    [Decoder] and [HeaderParser] model a platform whose size_t has 64 bits.
    Here are those functions again that compute with size_t, with the platform
    as a parameter, and every function that calls them.  The functions without
    size_t arithmetic (varints, address cache, code tables, checksum) are shared
    with the other model. *)

From Verif Require Import Base Varint AddrCache CodeTable InstructionMap DecodeTable
  HeaderParser Adler Decoder.

(** The data models in use: ILP32, LLP64 (64-bit Windows) and LP64.
    [int] has 32 bits in all of them.  The code relies on them at
    blockhash.cc 26 (unsigned long) and wherever it says size_t. *)
Inductive platform := ILP32 | LLP64 | LP64.

(** std::numeric_limits<size_t>::max(), headerparser.cc 25 *)
Definition smax (p : platform) : Z :=
  match p with ILP32 => 4294967295 | LLP64 | LP64 => 18446744073709551615 end.

(** unsigned arithmetic in size_t (e.g. vcdecoder.cc 964, 974, 1134) *)
Definition wrap (p : platform) (x : Z) : Z := x mod (smax p + 1).

(** ** Window headers *)

(** headerparser.cc 24-26 [SumWouldOverflow2] *)
Definition sum_would_overflow2 (p : platform) (a b : Z) : bool := wrap p (smax p - b) <? a.

(** headerparser.cc 28-32 [SumWouldOverflow4] *)
Definition sum_would_overflow4 (p : platform) (a b c d : Z) : bool :=
  sum_would_overflow2 p a b ||
  sum_would_overflow2 p (wrap p (a + b)) c ||
  sum_would_overflow2 p (wrap p (wrap p (a + b) + c)) d.

(** headerparser.cc 178-217 [ParseSourceSegmentLengthAndPosition] *)
Definition p_parse_source_segment (p : platform) (from_size : Z) (l : list Z) : res (Z * Z * list Z) :=
  do '(len, l) <- parse_size l;
  if from_size <? len then Err
  else
    do '(pos, l) <- parse_size l;
    if (from_size <=? pos) && (0 <? len) then Err
    else if from_size <? wrap p (pos + len) then Err
    else Ok (len, pos, l).

(** headerparser.cc 219-258 [ParseWinIndicatorAndSourceSegment] *)
Definition p_parse_win_indicator (p : platform) (dict_size target_size : Z) (allow_vcd_target : bool)
    (l : list Z) : res (Z * seg_kind * Z * Z * list Z) :=
  do '(ind, l) <- parse_byte l;
  match Z.testbit ind 0, Z.testbit ind 1 with
  | true, false =>
      do '(len, pos, l) <- p_parse_source_segment p dict_size l;
      Ok (ind, SegDict, len, pos, l)
  | false, true =>
      if negb allow_vcd_target then Err
      else
        do '(len, pos, l) <- p_parse_source_segment p target_size l;
        Ok (ind, SegTarget, len, pos, l)
  | true, true => Err
  | false, false => Ok (ind, SegNone, 0, 0, l)
  end.

(** headerparser.cc 300-345 [ParseSectionLengths], with the check of lines 323-332 *)
Definition p_parse_section_lengths (p : platform) (has_checksum : bool) (delta_len : Z) (start l : list Z)
  : res (Z * Z * Z * Z * list Z) :=
  do '(n_data, l) <- parse_size l;
  do '(n_inst, l) <- parse_size l;
  do '(n_addr, l) <- parse_size l;
  do '(cks, l) <- (if has_checksum then parse_checksum l else Ok (0, l));
  let header := zlen start - zlen l in                  (* a difference of pointers *)
  if sum_would_overflow4 p header n_data n_inst n_addr then Err
  else if delta_len =? wrap p (wrap p (wrap p (header + n_data) + n_inst) + n_addr)
  then Ok (n_data, n_inst, n_addr, cks, l)
  else Err.

(** ** The body of a window *)

(** vcdecoder.cc 1217-1230, the while loop of [DecodeCopy] *)
Fixpoint p_copy_loop (p : platform) (fuel : nat) (cap start : Z) (target : list Z) (td address size : Z)
  : xres (list Z) :=
  match fuel with
  | O => XFuel
  | S fuel' =>
      if wrap p (td - address) <? size then
        let n := wrap p (td - address) in
        match slice target (start + address) n with
        | None => XUB
        | Some bs =>
            match append_target cap target bs with
            | None => XUB
            | Some target' =>
                p_copy_loop p fuel' cap start target' (wrap p (td + n)) (wrap p (address + n)) (wrap p (size - n))
            end
        end
      else
        match slice target (start + address) size with
        | None => XUB
        | Some bs =>
            match append_target cap target bs with
            | None => XUB
            | Some target' => XOk target'
            end
        end
  end.

(** vcdecoder.cc 1202-1230, the part of [DecodeCopy] after the address is known *)
Definition p_copy_bytes (p : platform) (dict : list Z) (w : window) (start : Z) (target : list Z)
    (address size : Z) : xres (list Z) :=
  let cap := wrap p (start + w_len w) in                (* vcdecoder.cc 1102-1103 *)
  let td := wrap p (zlen target - start) in
  if wrap p (address + size) <=? w_seglen w then
    match read_source dict w target address size with
    | None => XUB
    | Some bs => match append_target cap target bs with None => XUB | Some t => XOk t end
    end
  else if address <? w_seglen w then
    let n := wrap p (w_seglen w - address) in
    match read_source dict w target address n with
    | None => XUB
    | Some bs =>
        match append_target cap target bs with
        | None => XUB
        | Some t =>
            p_copy_loop p (S (Z.to_nat size)) cap start t (wrap p (td + n))
                        (wrap p (wrap p (address + n) - w_seglen w)) (wrap p (size - n))
        end
    end
  else
    p_copy_loop p (S (Z.to_nat size)) cap start target td (wrap p (address - w_seglen w)) size.

(** vcdecoder.cc 1155-1163 [DecodeAdd] *)
Definition p_decode_add (p : platform) (w : window) (start : Z) (st : body) (size : Z) : xres body :=
  if zlen (data_of st) <? size then XEod st
  else match append_target (wrap p (start + w_len w)) (b_target st) (ztake size (data_of st)) with
       | None => XUB
       | Some t => XOk (with_data st (zdrop size (data_of st)) t)
       end.

(** vcdecoder.cc 1165-1173 [DecodeRun] *)
Definition p_decode_run (p : platform) (w : window) (start : Z) (st : body) (size : Z) : xres body :=
  match data_of st with
  | [] => XEod st
  | b :: tl =>
      match append_target (wrap p (start + w_len w)) (b_target st) (zrepeat b size) with
      | None => XUB
      | Some t => XOk (with_data st tl t)
      end
  end.

(** vcdecoder.cc 1175-1231 [DecodeCopy] *)
Definition p_decode_copy (p : platform) (dict : list Z) (w : window) (start : Z) (st : body)
    (size mode : Z) : xres body :=
  let here := to_int32 (wrap p (w_seglen w + wrap p (zlen (b_target st) - start))) in
  match decode_address (b_cache st) here mode (addr_of st) with
  | Eod => XEod st
  | Err => XErr
  | UB => XUB
  | Ok (address, rest, c) =>
      match p_copy_bytes p dict w start (b_target st) address size with
      | XOk t => XOk (with_addr st rest c t)
      | XUB => XUB
      | XFuel => XFuel
      | _ => XErr
      end
  end.

(** vcdecoder.cc 1270-1284 *)
Definition p_decode_instruction (p : platform) (dict : list Z) (w : window) (start : Z) (st : body)
    (ty size mode : Z) : xres body :=
  if ty =? VCD_ADD then p_decode_add p w start st size
  else if ty =? VCD_RUN then p_decode_run p w start st size
  else if ty =? VCD_COPY then p_decode_copy p dict w start st size mode
  else XErr.

(** vcdecoder.cc 1241-1295, the while loop of [DecodeBody].  The size is an
    int32_t converted to size_t (1255). *)
Fixpoint p_body_loop (p : platform) (fuel : nat) (dict : list Z) (t : table) (w : window) (start : Z)
    (st : body) : xres body :=
  if wrap p (zlen (b_target st) - start) <? w_len w then
    match fuel with
    | O => XFuel
    | S fuel' =>
        match get_next_instruction t (b_pending st) (b_inst st) with
        | NI_eod pd rest => XEod (with_inst st pd rest)
        | NI_err => XErr
        | NI ty decoded_size mode pd rest =>
            let size := wrap p decoded_size in
            if (w_len w <? size) || (w_len w <? wrap p (size + wrap p (zlen (b_target st) - start))) then XErr
            else
              match p_decode_instruction p dict w start (with_inst st pd rest) ty size mode with
              | XOk st' => p_body_loop p fuel' dict t w start st'
              | XEod _ => XEod st
              | XErr => XErr
              | XUB => XUB
              | XFuel => XFuel
              end
        end
    end
  else XOk st.

(** vcdecoder.cc 1233-1337 [DecodeBody] *)
Definition p_decode_body (p : platform) (dict : list Z) (t : table) (w : window) (start : Z) (st : body)
  : xres body :=
  match p_body_loop p (body_fuel st) dict t w start st with
  | XOk st' =>
      if negb (wrap p (zlen (b_target st') - start) =? w_len w) then XErr
      else if w_has_cks w &&
              negb (compute_adler32 (zdrop start (b_target st')) =? w_cks w) then XErr
      else if nonempty (b_inst st') then XErr
      else if negb (b_il st') && (nonempty (b_data st') || nonempty (b_addr st')) then XErr
      else XOk st'
  | r => r
  end.

(** ** The decoder *)

(** vcdecoder.cc 336 [kUnlimitedBytes] *)
Definition p_unlimited (p : platform) : Z := smax p - 2.

(** assignment to planned_target_file_size_, vcdecoder.cc 399-401, 644 *)
Definition set_planned (c : core) (n : Z) : core :=
  set_limits c (d_max_file c) (d_max_window c) (d_allow c) n.

(** vcdecoder.cc 626-632, the constructor *)
Definition p_new_core (p : platform) : core := set_planned new_core (p_unlimited p).
(** vcdecoder.cc 626-632, the constructor *)
Definition p_new_decoder (p : platform) : dec := Dec (p_new_core p) None.

(** vcdecoder.cc 637-649 [Reset] *)
Definition p_reset (p : platform) (c : core) : core := set_planned (reset c) (p_unlimited p).

(** vcdecoder.cc 651-664 [StartDecoding], on the core *)
Definition p_start_core (p : platform) (c : core) (dict : list Z) : core :=
  set_planned (start_core c dict) (p_unlimited p).
(** vcdecoder.cc 651-664 [StartDecoding] *)
Definition p_start_decoding (p : platform) (d : dec) (dict : list Z) : dec :=
  let '(Dec c n) := d in
  if d_started c then d else Dec (p_start_core p c dict) None.

(** vcdecoder.cc 395-397 *)
Definition p_has_planned (p : platform) (c : core) : bool := negb (d_planned c =? p_unlimited p).

(** vcdecoder.cc 408-425 [ReachedPlannedTargetFileSize] *)
Definition p_reached_planned (p : platform) (c : core) : bool :=
  p_has_planned p c && (d_planned c <=? d_total c).

(** vcdecoder.cc 946-984 [TargetWindowWouldExceedSizeLimits] *)
Definition p_would_exceed (p : platform) (c : core) (window_size : Z) : bool :=
  (d_max_window c <? window_size)
  || (p_has_planned p c && (wrap p (d_planned c - d_total c) <? window_size))
  || (wrap p (d_max_file c - d_total c) <? window_size).

(** vcdecoder.cc 1073-1122 [ReadHeader] with 1008-1052 [SetUpWindowSections] *)
Definition p_read_header (p : platform) (c : core) (data : list Z) : res (window * body * list Z * list Z) :=
  do '(ind, kind, seglen, pos, l) <-
     p_parse_win_indicator p (zlen (d_dict c)) (zlen (d_target c)) (d_allow c) data;
  let has_cks := allow_extensions c && Z.testbit ind 2 in
  do '(delta_len, start) <- parse_size l;
  do '(target_len, l) <- parse_size start;
  if p_would_exceed p c target_len then Err
  else
    do 'l <- parse_delta_indicator l;
    do '(n_data, n_inst, n_addr, cks, l) <- p_parse_section_lengths p has_cks delta_len start l;
    let il := allow_extensions c && (n_data =? 0) && (n_addr =? 0) in
    if negb il && (zlen l <? wrap p (wrap p (n_data + n_inst) + n_addr)) then Eod
    else
      match d_sizes c with
      | None => UB
      | Some (ns, ss) =>
          match cache_init ns ss with
          | None => Err
          | Some ca =>
              let w := {| w_kind := kind; w_pos := pos; w_seglen := seglen;
                          w_len := target_len; w_has_cks := has_cks; w_cks := cks;
                          w_expected := if il then n_inst else 0;
                          w_pending := None; w_cache := ca |} in
              let st :=
                if il then
                  {| b_il := true; b_inst := ztake n_inst l; b_data := []; b_addr := [];
                     b_pending := None; b_cache := ca; b_target := d_target c |}
                else
                  {| b_il := false;
                     b_inst := ztake n_inst (zdrop n_data l);
                     b_data := ztake n_data l;
                     b_addr := ztake n_addr (zdrop (n_data + n_inst) l);
                     b_pending := None; b_cache := ca; b_target := d_target c |} in
              Ok (w, st, zdrop (n_data + n_inst + n_addr) l, l)
          end
      end.

(** vcdecoder.cc 1373-1389 *)
Definition p_finish_window (p : platform) (c : core) (total : Z) (w : window) (st : body)
    (avail after : list Z) : dres :=
  match p_decode_body p (d_dict c) (d_table c) w (d_start c) st with
  | XOk st' =>
      let parsed := zlen (b_inst st) - zlen (b_inst st') in
      let rest := if b_il st then zdrop parsed avail else after in
      XOk (set_win c None (zlen (b_target st')) (b_target st') total, rest)
  | XEod st' =>
      let parsed := zlen (b_inst st) - zlen (b_inst st') in
      let expected := w_expected w - parsed in
      if b_il st && (0 <? expected) then
        let w' := {| w_kind := w_kind w; w_pos := w_pos w; w_seglen := w_seglen w;
                     w_len := w_len w; w_has_cks := w_has_cks w; w_cks := w_cks w;
                     w_expected := expected; w_pending := b_pending st';
                     w_cache := b_cache st' |} in
        XEod (set_win c (Some w') (d_start c) (b_target st') total, zdrop parsed avail)
      else XErr
  | XErr => XErr
  | XUB => XUB
  | XFuel => XFuel
  end.

(** vcdecoder.cc 1339-1390 [DecodeWindow]; 402-406 for the total *)
Definition p_decode_window (p : platform) (c : core) (data : list Z) : dres :=
  match d_win c with
  | None =>
      match p_read_header p c data with
      | Eod => XEod (c, data)
      | Err => XErr
      | UB => XUB
      | Ok (w, st, after, l) =>
          p_finish_window p c (wrap p (d_total c + w_len w)) w st l after
      end
  | Some w =>
      let st := {| b_il := true; b_inst := ztake (w_expected w) data; b_data := []; b_addr := [];
                   b_pending := w_pending w; b_cache := w_cache w; b_target := d_target c |} in
      p_finish_window p c (d_total c) w st data []
  end.

(** vcdecoder.cc 900-915, the loop over windows *)
Fixpoint p_window_loop (p : platform) (fuel : nat) (c : core) (data out : list Z)
  : xres (core * list Z) * list Z :=
  match data with
  | [] => (XOk (c, []), out)
  | _ =>
      match fuel with
      | O => (XFuel, out)
      | S fuel' =>
          match p_decode_window p c data with
          | XOk (c', rest) =>
              if p_reached_planned p c' then (XOk (c', rest), out)
              else if d_allow c' then p_window_loop p fuel' c' rest out
              else let '(c'', o) := flush_target c' in p_window_loop p fuel' c'' rest (out ++ o)
          | r => (r, out)
          end
      end
  end.

(** vcdecoder.cc 798-804, the decoder made for the code table *)
Definition p_table_decoder (p : platform) : dec :=
  Dec (set_planned (p_start_core p (p_new_core p) (table_bytes default_table)) 1536) None.

(** vcdecoder.cc 690-758 [ReadDeltaFileHeader] (with 760-806) *)
Definition p_read_file_header (p : platform) (d : dec) (data : list Z) : res (dec * list Z) :=
  let '(Dec c nested) := d in
  match d_sizes c with
  | Some _ => Ok (d, data)
  | None =>
      do '_ <- check_magic data;
      let version := nth 3 data 0 in
      let ind := nth 4 data 0 in
      if Z.testbit ind 0 then Err
      else if Z.testbit ind 1 then
        do '(ns, ss, rest) <- parse_cache_sizes (zdrop 5 data);
        Ok (Dec (set_file c version (Some (ns, ss)) [] (d_table c)) (Some (p_table_decoder p)), rest)
      else
        Ok (Dec (set_file c version (Some (kDefaultNearCacheSize, kDefaultSameCacheSize))
                          (d_string c) (d_table c)) nested, zdrop 5 data)
  end.

(** vcdecoder.cc 445-469 [IsDecodingComplete] *)
Definition p_is_decoding_complete (p : platform) (d : dec) : bool :=
  let '(Dec c nested) := d in
  match d_sizes c, nested, d_win c with
  | None, _, _ => negb (nonempty (d_unparsed c))
  | _, Some _, _ => false
  | _, _, Some _ => false
  | _, _, _ => if p_reached_planned p c then true else negb (nonempty (d_unparsed c))
  end.

(** vcdecoder.cc 929-944 [FinishDecoding] *)
Definition p_finish_decoding (p : platform) (d : dec) : dec * bool :=
  let '(Dec c nested) := d in
  (Dec (p_reset p c) None, d_started c && p_is_decoding_complete p d).

(** vcdecoder.cc 917-920 *)
Definition p_chunk_failed (p : platform) (c : core) (out : list Z) : cres :=
  CRet (Dec (p_reset p c) None) false out.

(** vcdecoder.cc 899-924 *)
Definition p_chunk_windows (p : platform) (c : core) (data : list Z) : cres :=
  match p_window_loop p (S (length data)) c data [] with
  | (XOk (c', rest), out) => chunk_done c' None rest out
  | (XEod (c', rest), out) => chunk_done c' None rest out
  | (XErr, out) => p_chunk_failed p c out
  | (XUB, _) => CUB
  | (XFuel, _) => CFuel
  end.

(** vcdecoder.cc 880-925 [DecodeChunk] with 808-848 [ReadCustomCodeTable] *)
Fixpoint p_decode_chunk_fuel (p : platform) (fuel : nat) (d : dec) (data : list Z) : cres :=
  match fuel with
  | O => CFuel
  | S fuel' =>
      let '(Dec c0 _) := d in
      if negb (d_started c0) then p_chunk_failed p c0 []
      else
        let chunk := d_unparsed c0 ++ data in
        match p_read_file_header p d chunk with
        | UB => CUB
        | Err => p_chunk_failed p c0 []
        | Eod => let '(Dec c n) := d in chunk_done c n chunk []
        | Ok (Dec c None, rest) => p_chunk_windows p c rest
        | Ok (Dec c (Some nd), rest) =>
            match p_decode_chunk_fuel p fuel' nd rest with
            | CUB => CUB
            | CFuel => CFuel
            | CRet _ false _ => p_chunk_failed p c []
            | CRet nd' true o =>
                let s := d_string c ++ o in
                if zlen s <? 1536 then
                  chunk_done (set_file c (d_version c) (d_sizes c) s (d_table c)) (Some nd') [] []
                else
                  let '(Dec nc _, fin) := p_finish_decoding p nd' in
                  if negb fin then p_chunk_failed p c []
                  else if negb (zlen s =? 1536) then p_chunk_failed p c []
                  else
                    let rest' := finish_except (zlen (d_unparsed nc)) rest in
                    match d_sizes c with
                    | None => CUB
                    | Some (ns, ss) =>
                        match use_code_table (d_table c) (table_of_bytes s) (last_mode ns ss) with
                        | None => CUB
                        | Some (t, _) =>
                            p_chunk_windows p (set_file c (d_version c) (d_sizes c) [] t) rest'
                        end
                    end
            end
        end
  end.

(** vcdecoder.cc 880-925 [DecodeChunk] *)
Definition p_decode_chunk (p : platform) (d : dec) (data : list Z) : cres :=
  p_decode_chunk_fuel p (chunk_fuel d data) d data.

(** The public calls of VCDiffStreamingDecoder, google/vcdecoder.h 33-145.  The
    setters take a size_t. *)
Inductive pcall :=
| PStart (dict : list Z) | PChunk (data : list Z) | PFinish
| PMaxFile (n : Z) | PMaxWindow (n : Z) | PAllow (b : bool).

(** What a call returns (true for a void function) and appends to the output;
    [None]: undefined behaviour.  google/vcdecoder.h 33-145 *)
Definition p_do (p : platform) (d : dec) (x : pcall) : option (dec * bool * list Z) :=
  match x with
  | PStart dict => Some (p_start_decoding p d dict, true, [])
  | PChunk data => match p_decode_chunk p d data with CRet d' ok o => Some (d', ok, o) | _ => None end
  | PFinish => let '(d', ok) := p_finish_decoding p d in Some (d', ok, [])
  | PMaxFile n => let '(d', ok) := set_maximum_target_file_size d n in Some (d', ok, [])
  | PMaxWindow n => let '(d', ok) := set_maximum_target_window_size d n in Some (d', ok, [])
  | PAllow b => Some (set_allow_vcd_target d b, true, [])
  end.

(** A session: the results of the calls in order, up to the first with
    undefined behaviour ([None]).  google/vcdecoder.h 33-145 *)
Fixpoint p_session (p : platform) (d : dec) (l : list pcall) : list (option (bool * list Z)) :=
  match l with
  | [] => []
  | x :: tl =>
      match p_do p d x with
      | None => [None]
      | Some (d', ok, o) => Some (ok, o) :: p_session p d' tl
      end
  end.
