(** Model of src/vcencoder.cc and src/google/vcencoder.h.

    [None] is undefined behaviour (an access outside a buffer or array) in the
    functions that are called.  VCD_DFATAL and VCD_ERROR only log.  The bytes
    that a call appends to its output string are part of its result. *)

From Verif Require Import Base SpecEncode Adler CodeTable InstructionMap EncodeTable JsonWriter RollingHash BlockHash Engine.

(** codetablewriter_interface.h 41-80: the two implementations of
    CodeTableWriterInterface in the library. *)
Inductive coder :=
| Binary (w : writer)
| Json (j : json_writer).

(** vcencoder.cc 43-55 [create_writer] *)
Definition create_writer (f : flags) : coder :=
  if fl_json f then Json new_json_writer else Binary (new_writer (fl_interleaved f)).

(** The virtual functions: encodetable.cc 102-120, jsonwriter.cc 30-34 [Init] *)
Definition coder_init (c : coder) (dict_size : Z) : option (coder * bool) :=
  match c with
  | Binary w => match writer_init w dict_size with Some (w', r) => Some (Binary w', r) | None => None end
  | Json j => Some (Json (json_init j), true)
  end.
(** encodetable.cc 388-396 (always true), jsonwriter.cc 112-130
    [VerifyDictionary], [VerifyChunk] *)
Definition coder_verify (c : coder) (data : list Z) : bool :=
  match c with Binary _ => true | Json _ => is_ascii data end.
(** encodetable.cc 122-136, jsonwriter.cc 107-110 [WriteHeader] *)
Definition coder_header (c : coder) (f : flags) : list Z :=
  match c with Binary _ => write_header f | Json _ => [] end.
(** encodetable.h 86-89, jsonwriter.h 61 [AddChecksum] *)
Definition coder_checksum (c : coder) (cks : Z) : coder :=
  match c with Binary w => Binary (add_checksum w cks) | Json j => Json j end.
(** [Add], [Copy], [Run] *)
(** codetablewriter_interface.h 55-62: [Add], [Copy] and [Run] calls *)
Definition coder_calls (c : coder) (l : list instruction) : option coder :=
  match c with
  | Binary w => match writer_calls w l with Some w' => Some (Binary w') | None => None end
  | Json j => Some (Json (fold_left json_call l j))
  end.
(** encodetable.cc 307-386, jsonwriter.cc 36-40 [Output] *)
Definition coder_output (c : coder) : option (coder * list Z) :=
  match c with
  | Binary w => match writer_output w with Some (w', out) => Some (Binary w', out) | None => None end
  | Json j => let '(j', out) := json_output j in Some (Json j', out)
  end.
(** encodetable.h 112 (nothing), jsonwriter.cc 42-46 [FinishEncoding] *)
Definition coder_finish (c : coder) : list Z :=
  match c with Binary _ => [] | Json j => json_finish j end.

(** vcencoder.cc 69-106: [VCDiffStreamingEncoderImpl]; engine_ is a pointer to
    an engine that does not change any more. *)
Record encoder := {
  ec_engine : engine;
  ec_coder : coder;
  ec_flags : flags;        (* format_extensions_ *)
  ec_look : bool;          (* look_for_target_matches_ *)
  ec_allowed : bool        (* encode_chunk_allowed_ *)
}.
(** vcencoder.cc 85-103: assignment to the members *)
Definition set_coder (e : encoder) (c : coder) (allowed : bool) : encoder :=
  {| ec_engine := ec_engine e; ec_coder := c; ec_flags := ec_flags e; ec_look := ec_look e; ec_allowed := allowed |}.

(** vcencoder.cc 108-117, 176-184: with a given writer *)
Definition new_custom_encoder (en : engine) (f : flags) (look : bool) (c : coder) : encoder :=
  {| ec_engine := en; ec_coder := c; ec_flags := f; ec_look := look; ec_allowed := false |}.
(** vcencoder.cc 166-174 *)
Definition new_encoder (en : engine) (f : flags) (look : bool) : encoder :=
  new_custom_encoder en f look (create_writer f).

(** vcencoder.cc 57-67, 166-174: a HashedDictionary, Init, and an encoder for it;
    [None] when Init fails. *)
Definition streaming_encoder (dict : list Z) (f : flags) (look : bool) : option encoder :=
  match engine_init (new_engine dict) with
  | Some (en, true) => Some (new_encoder en f look)
  | _ => None
  end.

(** vcencoder.cc 119-134 [StartEncoding]: new state, return value, bytes
    appended to the output *)
Definition start_encoding (e : encoder) : option (encoder * bool * list Z) :=
  match coder_init (ec_coder e) (zlen (en_dict (ec_engine e))) with
  | None => None
  | Some (c, false) => Some (set_coder e c (ec_allowed e), false, [])
  | Some (c, true) =>
      if negb (coder_verify c (en_dict (ec_engine e))) then Some (set_coder e c (ec_allowed e), false, [])
      else Some (set_coder e c true, true, coder_header c (ec_flags e))
  end.

(** vcencoder.cc 136-153 [EncodeChunk], with vcdiffengine.cc 132-228 [Encode] *)
Definition encode_chunk (e : encoder) (data : list Z) : option (encoder * bool * list Z) :=
  if negb (ec_allowed e) then Some (e, false, [])
  else if negb (coder_verify (ec_coder e) data) then Some (e, false, [])
  else
    let c := if fl_checksum (ec_flags e) then coder_checksum (ec_coder e) (compute_adler32 data) else ec_coder e in
    match engine_encode (ec_engine e) (ec_look e) data with
    | None => None
    | Some None => Some (set_coder e c true, true, [])
    | Some (Some calls) =>
        match coder_calls c calls with
        | None => None
        | Some c1 =>
            match coder_output c1 with
            | None => None
            | Some (c2, out) => Some (set_coder e c2 true, true, out)
            end
        end
    end.

(** vcencoder.cc 155-164 [FinishEncoding] *)
Definition finish_encoding (e : encoder) : encoder * bool * list Z :=
  if negb (ec_allowed e) then (e, false, [])
  else (set_coder e (ec_coder e) false, true, coder_finish (ec_coder e)).

(** The pattern of calls documented in vcencoder.h 117-149, given up at the first
    call that fails: success, and all bytes appended. *)
Fixpoint encode_chunks (e : encoder) (chunks : list (list Z)) (out : list Z) : option (encoder * bool * list Z) :=
  match chunks with
  | [] => Some (e, true, out)
  | c :: tl =>
      match encode_chunk e c with
      | None => None
      | Some (e', false, o) => Some (e', false, out ++ o)
      | Some (e', true, o) => encode_chunks e' tl (out ++ o)
      end
  end.
(** the use documented in google/vcencoder.h 117-149 *)
Definition encode_stream (e : encoder) (chunks : list (list Z)) : option (encoder * bool * list Z) :=
  match start_encoding e with
  | None => None
  | Some (e1, false, o1) => Some (e1, false, o1)
  | Some (e1, true, o1) =>
      match encode_chunks e1 chunks o1 with
      | None => None
      | Some (e2, false, o2) => Some (e2, false, o2)
      | Some (e2, true, o2) =>
          let '(e3, r, o3) := finish_encoding e2 in Some (e3, r, o2 ++ o3)
      end
  end.

(** vcencoder.h 257-260: [VCDiffEncoder].  dictionary_ is the engine. *)
Record vcdiff_encoder := {
  ve_engine : engine;
  ve_encoder : option encoder;
  ve_flags : flags;
  ve_look : bool
}.
(** vcencoder.h 219-223 *)
Definition new_vcdiff_encoder (dict : list Z) : vcdiff_encoder :=
  {| ve_engine := new_engine dict; ve_encoder := None; ve_flags := VCD_STANDARD_FORMAT; ve_look := true |}.
(** vcencoder.h 232, 238-240 *)
Definition set_format_flags (v : vcdiff_encoder) (f : flags) : vcdiff_encoder :=
  {| ve_engine := ve_engine v; ve_encoder := ve_encoder v; ve_flags := f; ve_look := ve_look v |}.
(** vcencoder.h 238-240 *)
Definition set_target_matching (v : vcdiff_encoder) (look : bool) : vcdiff_encoder :=
  {| ve_engine := ve_engine v; ve_encoder := ve_encoder v; ve_flags := ve_flags v; ve_look := look |}.

(** vcencoder.cc 205-225 [EncodeToInterface]: new state, return value, contents of
    the output string afterwards (what it held before is cleared) *)
Definition encode (v : vcdiff_encoder) (target : list Z) : option (vcdiff_encoder * bool * list Z) :=
  match (match ve_encoder v with
         | Some e => Some (ve_engine v, Some e)
         | None =>
             match engine_init (ve_engine v) with                        (* HashedDictionary::Init, 65-67 *)
             | None => None
             | Some (en, false) => Some (en, None)
             | Some (en, true) => Some (en, Some (new_encoder en (ve_flags v) (ve_look v)))
             end
         end) with
  | None => None
  | Some (en, None) =>
      Some ({| ve_engine := en; ve_encoder := None; ve_flags := ve_flags v; ve_look := ve_look v |}, false, [])
  | Some (en, Some e) =>
      match encode_stream e [target] with
      | None => None
      | Some (e', r, out) =>
          Some ({| ve_engine := en; ve_encoder := Some e'; ve_flags := ve_flags v; ve_look := ve_look v |}, r, out)
      end
  end.

(** Any sequence of calls on a VCDiffStreamingEncoder, with the results. *)
(** vcencoder.h 167-203: the public methods *)
Inductive ecall := EStart | EChunk (data : list Z) | EFinish.
(** vcencoder.h 167-203: one call *)
Definition do_ecall (e : encoder) (c : ecall) : option (encoder * bool * list Z) :=
  match c with
  | EStart => start_encoding e
  | EChunk data => encode_chunk e data
  | EFinish => Some (finish_encoding e)
  end.
(** vcencoder.h 167-203: any sequence of calls *)
Fixpoint do_ecalls (e : encoder) (l : list ecall) : option (encoder * list (bool * list Z)) :=
  match l with
  | [] => Some (e, [])
  | c :: tl =>
      match do_ecall e c with
      | None => None
      | Some (e', r, o) =>
          match do_ecalls e' tl with
          | None => None
          | Some (e'', rs) => Some (e'', (r, o) :: rs)
          end
      end
  end.
