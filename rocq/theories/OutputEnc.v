(** The calls which the encoder makes on the output string (google/output_string.h):
    Output, WriteHeader and FinishEncoding of the two writers, and the methods of
    VCDiffStreamingEncoder which call them.  The bytes of these calls are already part of
    EncodeTable.v, JsonWriter.v and Encoder.v; here also their division into calls, and the
    calls of ReserveAdditionalBytes. *)

From Verif Require Import Base SpecEncode Varint Adler EncodeTable JsonWriter Engine Encoder SpecParts.

(** encodetable.cc 313-318: delta_window_size, a size_t *)
Definition delta_window_size (w : writer) : Z :=
  to_size (delta_length w + 1 + size_length (wr_dict_size w) + size_length 0 + size_length (delta_length w)).

(** encodetable.cc 319-358: the calls on the output string for a window that is not empty.
    push_back is an append of one byte; encodetable.cc 283-286 and varint_bigendian.cc 98-105:
    AppendSizeToOutputString makes one call of append. *)
Definition window_calls (w : writer) : list out_call :=
  [Reserve (delta_window_size w);
   Append [if wr_has_cks w then 5 else 1];
   Append (size_bytes (wr_dict_size w));
   Append (size_bytes 0);
   Append (size_bytes (delta_length w));
   Append (size_bytes (wr_len w));
   Append [0];
   Append (size_bytes (zlen (wr_data w)));
   Append (size_bytes (zlen (wr_inst w)));
   Append (size_bytes (zlen (wr_addr w)))]
  ++ (if wr_has_cks w then [Append (encode_bytes I64 (wr_cks w))] else [])
  ++ [Append (wr_data w); Append (wr_inst w); Append (wr_addr w)].

(** encodetable.cc 307-385 [VCDiffCodeTableWriter::Output], jsonwriter.cc 36-40
    [JSONCodeTableWriter::Output] *)
Definition coder_output_calls (c : coder) : list out_call :=
  match c with
  | Binary w => match wr_inst w with [] => [] | _ => window_calls w end
  | Json j => [Append (jw_out j)]
  end.

(** encodetable.cc 122-136, jsonwriter.cc 107-110 [WriteHeader] *)
Definition coder_header_calls (c : coder) (f : flags) : list out_call :=
  match c with Binary _ => [Append (write_header f)] | Json _ => [] end.

(** encodetable.h 112 (empty), jsonwriter.cc 42-46 [FinishEncoding] *)
Definition coder_finish_calls (c : coder) : list out_call :=
  match c with Binary _ => [] | Json j => if jw_called j then [Append [93]] else [] end.

(** vcencoder.cc 119-134 [StartEncoding] *)
Definition start_encoding_calls (e : encoder) : list out_call :=
  match coder_init (ec_coder e) (zlen (en_dict (ec_engine e))) with
  | Some (c, true) => if coder_verify c (en_dict (ec_engine e)) then coder_header_calls c (ec_flags e) else []
  | _ => []
  end.

(** vcencoder.cc 136-153 [EncodeChunk], with vcdiffengine.cc 132-228 [Encode] *)
Definition encode_chunk_calls (e : encoder) (data : list Z) : list out_call :=
  if negb (ec_allowed e) then []
  else if negb (coder_verify (ec_coder e) data) then []
  else
    let c := if fl_checksum (ec_flags e) then coder_checksum (ec_coder e) (compute_adler32 data) else ec_coder e in
    match engine_encode (ec_engine e) (ec_look e) data with
    | Some (Some calls) => match coder_calls c calls with Some c1 => coder_output_calls c1 | None => [] end
    | _ => []
    end.

(** vcencoder.cc 155-164 [FinishEncoding] *)
Definition finish_encoding_calls (e : encoder) : list out_call :=
  if ec_allowed e then coder_finish_calls (ec_coder e) else [].

(** vcencoder.h 167-203: one call of a method *)
Definition ecall_calls (e : encoder) (c : ecall) : list out_call :=
  match c with
  | EStart => start_encoding_calls e
  | EChunk data => encode_chunk_calls e data
  | EFinish => finish_encoding_calls e
  end.

(** vcencoder.h 167-203: any sequence of calls, with what each does to the output *)
Fixpoint ecalls_calls (e : encoder) (l : list ecall) : list (list out_call) :=
  match l with
  | [] => []
  | c :: tl => ecall_calls e c :: match do_ecall e c with Some (e', _, _) => ecalls_calls e' tl | None => [] end
  end.
