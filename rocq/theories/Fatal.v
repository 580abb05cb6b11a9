(** The fatal errors of the decoder.

    VCD_DFATAL (logging.h 37-46) prints a message; in a build without NDEBUG the
    VCD_ENDL at the end of the message then calls exit(1) (logging.h 26-31).  The
    functions of [Decoder] model what a build with NDEBUG does.  Every function here
    follows the function of that model of the same name, calls the same functions on
    the same states, and returns the place of the first VCD_DFATAL it reaches.

    Not in the list of places, because the state of the model cannot express the
    situation: headerparser.cc 53 (a position before the start), 262, 279, 316
    (functions of the header parser called twice or in the wrong order), vcdecoder.cc
    814 (custom_code_table_ is NULL while its decoder exists), 1236 (the cursor of the
    chunk is not the cursor of the instructions), 1342 (DecodeWindow before Init), 1364
    (a window in the standard format is resumed). *)

From Verif Require Import Base Varint AddrCache CodeTable InstructionMap DecodeTable HeaderParser Adler Decoder Platform.

(** The places where VCD_DFATAL (logging.h 37-46) is used: file and line are given for
    each. *)
Inductive site :=
| AllowAfterStart     (* vcdecoder.cc 483 SetAllowVcdTarget *)
| StartTwice          (* vcdecoder.cc 654 StartDecoding *)
| ChunkBeforeStart    (* vcdecoder.cc 885 DecodeChunk *)
| AdvanceBeyondEnd    (* headerparser.cc 42 Advance *)
| PositionBeyondEnd   (* headerparser.cc 59 SetPosition *)
| ExceptTooMuch       (* headerparser.cc 69 FinishExcept *)
| PlannedExceeded     (* vcdecoder.cc 418 ReachedPlannedTargetFileSize *)
| NearSizeInvalid     (* vcdecoder.cc 773 InitCustomCodeTable *)
| SameSizeInvalid     (* vcdecoder.cc 778 InitCustomCodeTable *)
| TableSizeWrong      (* vcdecoder.cc 833 ReadCustomCodeTable *)
| AddressUnexpected   (* vcdecoder.cc 1195 DecodeCopy *)
| TypeUnexpected      (* vcdecoder.cc 1281 DecodeBody *)
| CacheInitFailed     (* vcdecoder.cc 1355 DecodeWindow *)
| HereNegative        (* addrcache.cc 270 DecodeAddress *)
| ModeInvalid         (* addrcache.cc 304 DecodeAddress *)
| UnGetBeyond         (* decodetable.h 111 UnGetInstruction *)
| UnGetTwoPending.    (* decodetable.h 117 UnGetInstruction *)

(** exit(1) (logging.h 26-31) ends the program at the first place reached *)
Definition first (a b : option site) : option site := match a with Some s => Some s | None => b end.

(** headerparser.cc 40-48 [Advance]; a negative number is a size_t that wrapped *)
Definition f_advance (n : Z) (l : list Z) : option site :=
  if (n <? 0) || (zlen l <? n) then Some AdvanceBeyondEnd else None.

(** headerparser.cc 50-65 [SetPosition], the position given as its distance from the cursor *)
Definition f_set_position (n : Z) (l : list Z) : option site :=
  if zlen l <? n then Some PositionBeyondEnd else None.

(** headerparser.cc 67-76 [FinishExcept] *)
Definition f_finish_except (n : Z) (l : list Z) : option site :=
  if zlen l <? n then Some ExceptTooMuch else None.

(** decodetable.h 108-122 [UnGetInstruction]: [p0], [inst0] are
    last_pending_second_instruction_ and the stream from last_instruction_start_, [p],
    [inst] the present ones *)
Definition f_unget (p0 : option Z) (inst0 : list Z) (p : option Z) (inst : list Z) : option site :=
  if zlen inst0 <? zlen inst then Some UnGetBeyond
  else match p, p0 with Some _, Some _ => Some UnGetTwoPending | _, _ => None end.

(** decodetable.cc 91-106: the size of an instruction is not there yet *)
Definition f_next_instruction (t : table) (pending : option Z) (inst : list Z) : option site :=
  match inst_loop t pending inst with
  | inr _ => None
  | inl (_, size, _, p, rest) =>
      if size =? 0 then
        match parse I32 rest with
        | Eod => f_unget pending inst p rest
        | _ => None
        end
      else None
  end.

(** addrcache.cc 265-317 [DecodeAddress] *)
Definition f_decode_address (c : cache) (here mode : Z) (stream : list Z) : option site :=
  if here <? 0 then Some HereNegative
  else
    match stream with
    | [] => None
    | _ =>
        if is_same_mode c mode then None
        else
          match parse I32 stream with
          | Ok _ => if (mode =? 0) || (mode =? 1) || is_near_mode c mode then None else Some ModeInvalid
          | _ => None
          end
    end.

(** vcdecoder.cc 1175-1200, the part of [DecodeCopy] up to the check of the address *)
Definition f_decode_copy (w : window) (start : Z) (st : body) (mode : Z) : option site :=
  let here := to_int32 (w_seglen w + (zlen (b_target st) - start)) in
  first (f_decode_address (b_cache st) here mode (addr_of st))
    (match decode_address (b_cache st) here mode (addr_of st) with
     | Ok (address, _, _) => if (address <? 0) || (here <? address) then Some AddressUnexpected else None
     | _ => None
     end).

(** vcdecoder.cc 1270-1284 *)
Definition f_decode_instruction (w : window) (start : Z) (st : body) (ty mode : Z) : option site :=
  if ty =? VCD_ADD then None
  else if ty =? VCD_RUN then None
  else if ty =? VCD_COPY then f_decode_copy w start st mode
  else Some TypeUnexpected.

(** vcdecoder.cc 1241-1295, the loop of [DecodeBody] (see [body_loop]) *)
Fixpoint f_body_loop (fuel : nat) (dict : list Z) (t : table) (w : window) (start : Z) (st : body) : option site :=
  if zlen (b_target st) - start <? w_len w then
    match fuel with
    | O => None
    | S fuel' =>
        first (f_next_instruction t (b_pending st) (b_inst st))
          (match get_next_instruction t (b_pending st) (b_inst st) with
           | NI ty size mode p rest =>
               if (w_len w <? size) || (w_len w <? size + (zlen (b_target st) - start)) then None
               else
                 first (f_decode_instruction w start (with_inst st p rest) ty mode)
                   (match decode_instruction dict w start (with_inst st p rest) ty size mode with
                    | XOk st' => f_body_loop fuel' dict t w start st'
                    | XEod st1 => f_unget (b_pending st) (b_inst st) (b_pending st1) (b_inst st1)
                    | _ => None
                    end)
           | _ => None
           end)
    end
  else None.

(** vcdecoder.cc 1233-1337 [DecodeBody] with what it does to the position of the chunk;
    [avail] is the chunk at the start of the body, [sections] the distance from there to
    the end of addresses_for_copy_ *)
Definition f_decode_body (c : core) (w : window) (st : body) (avail : list Z) (sections : Z) : option site :=
  first (f_body_loop (body_fuel st) (d_dict c) (d_table c) w (d_start c) st)
    (match decode_body (d_dict c) (d_table c) w (d_start c) st with
     | XOk st' =>
         if b_il st then f_advance (zlen (b_inst st) - zlen (b_inst st')) avail    (* 1332-1335 *)
         else f_set_position sections avail                                        (* 1331 *)
     | XEod st' =>
         if b_il st then f_advance (zlen (b_inst st) - zlen (b_inst st')) avail    (* 1248, 1288 *)
         else None
     | _ => None
     end).

(** vcdecoder.cc 1008-1041: the sum of the three section lengths in the header of a window.
    The header is parsed as in [read_header], which does not return the lengths. *)
Definition f_sections (c : core) (data : list Z) : Z :=
  match
    (do '(ind, _, _, _, l) <- parse_win_indicator (zlen (d_dict c)) (zlen (d_target c)) (d_allow c) data;
     do '(delta_len, start) <- parse_size l;
     do '(_, l) <- parse_size start;
     do 'l <- parse_delta_indicator l;
     parse_section_lengths (allow_extensions c && Z.testbit ind 2) delta_len start l)
  with
  | Ok (n_data, n_inst, n_addr, _, _) => n_data + n_inst + n_addr
  | _ => 0
  end.

(** vcdecoder.cc 1339-1390 [DecodeWindow].  When [read_header] fails although the header was
    read, the address cache could not be initialised (1354-1357). *)
Definition f_decode_window (c : core) (data : list Z) : option site :=
  match d_win c with
  | None =>
      match read_header c data with
      | Ok (w, st, _, l) =>
          first (f_advance (zlen data - zlen l) data)
            (f_decode_body c w st l (f_sections c data))
      | _ =>
          match d_sizes c with
          | Some (ns, ss) =>
              match cache_init ns ss with
              | Some _ => None
              | None =>
                  match read_header (set_file c (d_version c) (Some (0, 0)) (d_string c) (d_table c)) data with
                  | Ok _ => Some CacheInitFailed
                  | _ => None
                  end
              end
          | None => None
          end
      end
  | Some w =>
      let st := {| b_il := true; b_inst := ztake (w_expected w) data; b_data := []; b_addr := [];
                   b_pending := w_pending w; b_cache := w_cache w; b_target := d_target c |} in
      f_decode_body c w st data 0
  end.

(** vcdecoder.cc 409-425 [ReachedPlannedTargetFileSize] *)
Definition f_reached_planned (c : core) : option site :=
  if has_planned c && (d_planned c <? d_total c) then Some PlannedExceeded else None.

(** vcdecoder.cc 900-915, the loop over the windows (see [window_loop]) *)
Fixpoint f_window_loop (fuel : nat) (c : core) (data : list Z) : option site :=
  match data with
  | [] => None
  | _ =>
      match fuel with
      | O => None
      | S fuel' =>
          first (f_decode_window c data)
            (match decode_window c data with
             | XOk (c', rest) =>
                 first (f_reached_planned c')
                   (if reached_planned c' then None
                    else if d_allow c' then f_window_loop fuel' c' rest
                    else f_window_loop fuel' (fst (flush_target c')) rest)
             | _ => None
             end)
      end
  end.

(** vcdecoder.cc 690-758 [ReadDeltaFileHeader] with 760-806 [InitCustomCodeTable] *)
Definition f_file_header (c : core) (data : list Z) : option site :=
  match d_sizes c with
  | Some _ => None
  | None =>
      match check_magic data with
      | Ok _ =>
          let ind := nth 4 data 0 in
          if Z.testbit ind 0 then None
          else if Z.testbit ind 1 then
            match parse_size (zdrop 5 data) with
            | Ok (ns, l) =>
                match parse_size l with
                | Ok (ss, l) =>
                    if 255 <? ns then Some NearSizeInvalid
                    else if 255 <? ss then Some SameSizeInvalid
                    else f_advance (5 + (zlen (zdrop 5 data) - zlen l)) data
                | _ => None
                end
            | _ => None
            end
          else f_advance 5 data
      | _ => None
      end
  end.

(** vcdecoder.cc 445-469 [IsDecodingComplete] *)
Definition f_is_decoding_complete (d : dec) : option site :=
  let '(Dec c nested) := d in
  match d_sizes c, nested, d_win c with
  | Some _, None, None => f_reached_planned c
  | _, _, _ => None
  end.

(** vcdecoder.cc 929-944 [FinishDecoding] *)
Definition f_finish_decoding (d : dec) : option site :=
  let '(Dec c _) := d in if d_started c then f_is_decoding_complete d else None.

(** vcdecoder.cc 880-925 [DecodeChunk] with 808-848 [ReadCustomCodeTable] (see
    [decode_chunk_fuel]) *)
Fixpoint f_decode_chunk_fuel (fuel : nat) (d : dec) (data : list Z) : option site :=
  match fuel with
  | O => None
  | S fuel' =>
      let '(Dec c0 _) := d in
      if negb (d_started c0) then Some ChunkBeforeStart
      else
        let chunk := d_unparsed c0 ++ data in
        first (f_file_header c0 chunk)
          (match read_file_header d chunk with
           | Ok (Dec c None, rest) => f_window_loop (S (length rest)) c rest
           | Ok (Dec c (Some nd), rest) =>
               first (f_decode_chunk_fuel fuel' nd rest)
                 (match decode_chunk_fuel fuel' nd rest with
                  | CRet nd' true o =>
                      let s := d_string c ++ o in
                      if zlen s <? 1536 then None
                      else
                        first (f_finish_decoding nd')
                          (let '(Dec nc _, fin) := finish_decoding nd' in
                           if negb fin then None
                           else if negb (zlen s =? 1536) then Some TableSizeWrong
                           else
                             first (f_finish_except (zlen (d_unparsed nc)) rest)
                               (let rest' := finish_except (zlen (d_unparsed nc)) rest in
                                match d_sizes c with
                                | None => None
                                | Some (ns, ss) =>
                                    match use_code_table (d_table c) (table_of_bytes s) (last_mode ns ss) with
                                    | None => None
                                    | Some (t, _) =>
                                        f_window_loop (S (length rest')) (set_file c (d_version c) (d_sizes c) [] t) rest'
                                    end
                                end))
                  | _ => None
                  end)
           | _ => None
           end)
  end.
(** vcdecoder.cc 880-925 [DecodeChunk] *)
Definition f_decode_chunk (d : dec) (data : list Z) : option site :=
  f_decode_chunk_fuel (chunk_fuel d data) d data.

(** One call of the public interface, google/vcdecoder.h 33-145; vcdecoder.cc 481-488,
    651-664, 880-944 *)
Definition f_do (d : dec) (x : pcall) : option site :=
  let '(Dec c _) := d in
  match x with
  | PStart _ => if d_started c then Some StartTwice else None
  | PChunk data => f_decode_chunk d data
  | PFinish => f_finish_decoding d
  | PMaxFile _ | PMaxWindow _ => None
  | PAllow _ => if d_started c then Some AllowAfterStart else None
  end.
