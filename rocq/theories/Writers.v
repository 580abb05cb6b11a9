(** The streaming encoder with any implementation of CodeTableWriterInterface.

    [Encoder] is for the two writers of the library.  Here the writer is a parameter: a
    type for its state, and one function for each virtual function of the interface. *)

From Verif Require Import Base SpecEncode EncodeTable JsonWriter Adler Engine Encoder.

(** codetablewriter_interface.h 43-92: the virtual functions.  Each of them may change
    the state (also the const ones, as with mutable members); Init and the two Verify
    functions return a bool; WriteHeader, Output and FinishEncoding append bytes to the
    output string (they could do more with it, which is not modelled).  None: the
    behaviour of the writer is undefined. *)
Record writer_class (S : Type) := {
  k_init : S -> Z -> option (S * bool);                      (* Init(dictionary_size) *)
  k_verify_dictionary : S -> list Z -> option (S * bool);
  k_header : S -> flags -> option (S * list Z);              (* WriteHeader *)
  k_verify_chunk : S -> list Z -> option (S * bool);
  k_checksum : S -> Z -> option S;                           (* AddChecksum *)
  k_call : S -> instruction -> option S;                     (* Add, Copy, Run *)
  k_output : S -> option (S * list Z);
  k_finish : S -> option (S * list Z)                        (* FinishEncoding *)
}.
Arguments k_init {S}. Arguments k_verify_dictionary {S}. Arguments k_header {S}. Arguments k_verify_chunk {S}.
Arguments k_checksum {S}. Arguments k_call {S}. Arguments k_output {S}. Arguments k_finish {S}.

(** codetablewriter_interface.h 43-92: one call of a virtual function *)
Inductive wcall :=
| WInit (dictionary_size : Z)
| WVerifyDictionary (dictionary : list Z)
| WHeader (f : flags)
| WVerifyChunk (data : list Z)
| WChecksum (cks : Z)
| WInstruction (i : instruction)
| WOutput
| WFinish.

(** vcencoder.cc 69-106: [VCDiffStreamingEncoderImpl] with coder_ of any class *)
Record gencoder (S : Type) := {
  ge_engine : engine;
  ge_state : S;            (* what coder_ points to *)
  ge_flags : flags;        (* format_extensions_ *)
  ge_look : bool;          (* look_for_target_matches_ *)
  ge_allowed : bool        (* encode_chunk_allowed_ *)
}.
Arguments ge_engine {S}. Arguments ge_state {S}. Arguments ge_flags {S}. Arguments ge_look {S}. Arguments ge_allowed {S}.
(** vcencoder.cc 85-103: assignment to the members *)
Definition ge_set {S} (e : gencoder S) (s : S) (allowed : bool) : gencoder S :=
  {| ge_engine := ge_engine e; ge_state := s; ge_flags := ge_flags e; ge_look := ge_look e; ge_allowed := allowed |}.
(** vcencoder.cc 108-117, 176-184 *)
Definition ge_new {S} (en : engine) (f : flags) (look : bool) (s : S) : gencoder S :=
  {| ge_engine := en; ge_state := s; ge_flags := f; ge_look := look; ge_allowed := false |}.

(** Results: new state, return value, bytes appended to the output, and the calls
    of virtual functions of the writer, in order. *)
(** vcencoder.cc 119-164 *)
Definition gresult (S : Type) : Type := option (gencoder S * bool * list Z * list wcall).

(** vcencoder.cc 119-134 [StartEncoding] *)
Definition g_start {S} (k : writer_class S) (e : gencoder S) : gresult S :=
  let dict := en_dict (ge_engine e) in
  let c1 := WInit (zlen dict) in
  match k_init k (ge_state e) (zlen dict) with
  | None => None
  | Some (s1, false) => Some (ge_set e s1 (ge_allowed e), false, [], [c1])
  | Some (s1, true) =>
      let c2 := WVerifyDictionary dict in
      match k_verify_dictionary k s1 dict with
      | None => None
      | Some (s2, false) => Some (ge_set e s2 (ge_allowed e), false, [], [c1; c2])
      | Some (s2, true) =>
          match k_header k s2 (ge_flags e) with
          | None => None
          | Some (s3, out) => Some (ge_set e s3 true, true, out, [c1; c2; WHeader (ge_flags e)])
          end
      end
  end.

(** vcdiffengine.cc 132-228: the calls of Add and Copy one after the other *)
Fixpoint g_calls {S} (k : writer_class S) (s : S) (l : list instruction) : option S :=
  match l with
  | [] => Some s
  | i :: tl => match k_call k s i with Some s' => g_calls k s' tl | None => None end
  end.

(** vcencoder.cc 136-153 [EncodeChunk], with vcdiffengine.cc 132-228 [Encode] *)
Definition g_chunk {S} (k : writer_class S) (e : gencoder S) (data : list Z) : gresult S :=
  if negb (ge_allowed e) then Some (e, false, [], [])
  else
    let c1 := WVerifyChunk data in
    match k_verify_chunk k (ge_state e) data with
    | None => None
    | Some (s1, false) => Some (ge_set e s1 (ge_allowed e), false, [], [c1])
    | Some (s1, true) =>
        let cks := compute_adler32 data in
        match (if fl_checksum (ge_flags e) then k_checksum k s1 cks else Some s1) with
        | None => None
        | Some s2 =>
            let c2 := if fl_checksum (ge_flags e) then [WChecksum cks] else [] in
            match engine_encode (ge_engine e) (ge_look e) data with
            | None => None
            | Some None => Some (ge_set e s2 (ge_allowed e), true, [], [c1] ++ c2)
            | Some (Some l) =>
                match g_calls k s2 l with
                | None => None
                | Some s3 =>
                    match k_output k s3 with
                    | None => None
                    | Some (s4, out) =>
                        Some (ge_set e s4 (ge_allowed e), true, out, [c1] ++ c2 ++ map WInstruction l ++ [WOutput])
                    end
                end
            end
        end
    end.

(** vcencoder.cc 155-164 [FinishEncoding] *)
Definition g_finish {S} (k : writer_class S) (e : gencoder S) : gresult S :=
  if negb (ge_allowed e) then Some (e, false, [], [])
  else
    match k_finish k (ge_state e) with
    | None => None
    | Some (s, out) => Some (ge_set e s false, true, out, [WFinish])
    end.

(** vcencoder.h 167-203: one call, and any sequence of calls *)
Definition g_do {S} (k : writer_class S) (e : gencoder S) (c : ecall) : gresult S :=
  match c with
  | EStart => g_start k e
  | EChunk data => g_chunk k e data
  | EFinish => g_finish k e
  end.
(** vcencoder.h 167-203 *)
Fixpoint g_session {S} (k : writer_class S) (e : gencoder S) (l : list ecall) : option (gencoder S * list (bool * list Z * list wcall)) :=
  match l with
  | [] => Some (e, [])
  | c :: tl =>
      match g_do k e c with
      | None => None
      | Some (e', r, o, w) =>
          match g_session k e' tl with
          | None => None
          | Some (e'', rs) => Some (e'', (r, o, w) :: rs)
          end
      end
  end.

(** ** The writers of the library *)

(** encodetable.cc, encodetable.h, jsonwriter.cc, jsonwriter.h: see the functions of
    [Encoder] *)
Definition library_writer : writer_class coder := {|
  k_init := coder_init;
  k_verify_dictionary := fun c d => Some (c, coder_verify c d);
  k_header := fun c f => Some (c, coder_header c f);
  k_verify_chunk := fun c d => Some (c, coder_verify c d);
  k_checksum := fun c cks => Some (coder_checksum c cks);
  k_call := fun c i => coder_calls c [i];
  k_output := coder_output;
  k_finish := fun c => Some (c, coder_finish c)
|}.

(** ** A writer and an encoder made with the second constructor *)

(** vcencoder.cc 57-67, 176-184: a HashedDictionary, Init, and an encoder for it with
    the writer that the caller gives; None when Init fails. *)
Definition encoder_with_writer {S} (dict : list Z) (f : flags) (look : bool) (s : S) : option (gencoder S) :=
  match engine_init (new_engine dict) with
  | Some (en, true) => Some (ge_new en f look s)
  | _ => None
  end.
