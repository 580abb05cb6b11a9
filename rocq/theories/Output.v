(** What DecodeChunk does with the output string (vcdecoder.cc, google/output_string.h).

    [Decoder] describes the bytes which DecodeChunk appends; this file describes
    the calls by which it does so, including ReserveAdditionalBytes. *)

From Verif Require Import Base Varint HeaderParser CodeTable AddrCache DecodeTable Decoder SpecParts.

(** The target window length which [ReadHeader] has parsed from an incomplete
    window header, if it came so far (vcdecoder.cc 1080-1091, the calls of
    ParseWinIndicatorAndSourceSegment and ParseWindowLengths; headerparser.cc
    260-284).  The length is stored in target_window_length_ even if the rest of
    the header is still missing. *)
Definition announced (c : core) (data : list Z) : option Z :=
  match parse_win_indicator (zlen (d_dict c)) (zlen (d_target c)) (d_allow c) data with
  | Ok (_, l) =>
      match parse_size l with
      | Ok (_, l) => match parse_size l with Ok (n, _) => Some n | _ => None end
      | _ => None
      end
  | _ => None
  end.

(** The member target_window_length_ (vcdecoder.cc 988-996, 1080-1091) between
    calls of DecodeWindow, when [unparsed] is the rest of the chunk.  [Decoder] does
    not store it while a header is incomplete, because it is parsed again
    with the next chunk.  When the planned size is reached the rest of the
    chunk is not parsed (903-906). *)
Definition window_length (c : core) (unparsed : list Z) : Z :=
  match d_win c with
  | Some w => w_len w
  | None =>
      if reached_planned c then 0
      else match announced c unparsed with Some n => n | None => 0 end
  end.

(** vcdecoder.cc 1138-1145 [TargetBytesRemaining] *)
Definition target_bytes_remaining (c : core) (unparsed : list Z) : Z :=
  let n := window_length c unparsed in
  if n =? 0 then 0 else to_size (n - (zlen (d_target c) - d_start c)).

(** vcdecoder.cc 860-878 [AppendNewOutputText]: its calls. *)
Definition append_calls (c : core) (unparsed : list Z) : list out_call :=
  let bytes := zdrop (d_out_pos c) (d_target c) in
  if 0 <? zlen bytes then
    let remaining := target_bytes_remaining c unparsed in
    (if 0 <? remaining then [Reserve (to_size (zlen bytes + remaining))] else []) ++ [Append bytes]
  else [].

(** vcdecoder.cc 899-916 with 850-858 [FlushDecodedTarget]: the append calls in the
    loop over windows.  The recursion is that of [window_loop]. *)
Fixpoint flush_calls (fuel : nat) (c : core) (data : list Z) : list out_call :=
  match data with
  | [] => []
  | _ =>
      match fuel with
      | O => []
      | S fuel' =>
          match decode_window c data with
          | XOk (c', rest) =>
              if reached_planned c' then []
              else if d_allow c' then flush_calls fuel' c' rest
              else let '(c'', o) := flush_target c' in Append o :: flush_calls fuel' c'' rest
          | _ => []
          end
      end
  end.

(** vcdecoder.cc 899-925: the calls made by [chunk_windows]. *)
Definition chunk_windows_calls (c : core) (data : list Z) : list out_call :=
  flush_calls (S (length data)) c data ++
  match window_loop (S (length data)) c data [] with
  | (XOk (c', rest), _) | (XEod (c', rest), _) => append_calls c' rest
  | _ => []
  end.

(** vcdecoder.cc 880-925 [DecodeChunk]: its calls on output_string.  The nested
    decoder for a code table writes to custom_code_table_string_ instead (819-823). *)
Definition decode_chunk_calls (d : dec) (data : list Z) : list out_call :=
  let '(Dec c0 _) := d in
  if negb (d_started c0) then []
  else
    let chunk := d_unparsed c0 ++ data in
    match read_file_header d chunk with
    | UB | Err => []
    | Eod => append_calls c0 chunk
    | Ok (Dec c None, rest) => chunk_windows_calls c rest
    | Ok (Dec c (Some nd), rest) =>
        match decode_chunk_fuel (pred (chunk_fuel d data)) nd rest with
        | CUB | CFuel | CRet _ false _ => []
        | CRet nd' true o =>
            let s := d_string c ++ o in
            if zlen s <? 1536 then append_calls c []
            else
              let '(Dec nc _, fin) := finish_decoding nd' in
              if negb fin then []
              else if negb (zlen s =? 1536) then []
              else
                match d_sizes c with
                | None => []
                | Some (ns, ss) =>
                    match use_code_table (d_table c) (table_of_bytes s) (last_mode ns ss) with
                    | None => []
                    | Some (t, _) =>
                        chunk_windows_calls (set_file c (d_version c) (d_sizes c) [] t)
                                            (finish_except (zlen (d_unparsed nc)) rest)
                    end
                end
        end
    end.

(** The calls on the output string while a delta is delivered in pieces, until a
    DecodeChunk returns false: the use documented in google/vcdecoder.h 33-51. *)
Fixpoint chunks_calls (d : dec) (chunks : list (list Z)) : list out_call :=
  match chunks with
  | [] => []
  | x :: tl =>
      decode_chunk_calls d x ++
      match decode_chunk d x with
      | CRet d' true _ => chunks_calls d' tl
      | _ => []
      end
  end.
(** the use documented in google/vcdecoder.h 33-51 *)
Definition stream_calls (d : dec) (dict : list Z) (chunks : list (list Z)) : list out_call :=
  chunks_calls (start_decoding d dict) chunks.
