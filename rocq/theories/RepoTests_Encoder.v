(** The unit tests of the code table writer and of the encoder, replayed on the model.

    encodetable_test.cc and vcencoder_test.cc in /repo/src.  These are tests of the model, not
    proofs about it.  Left out: tests of debug-only checks, of memory pages, of crope and wchar_t
    strings, of a dictionary buffer overwritten by the caller; of the loops over all chunk sizes a
    few sizes are kept. *)

From Verif Require Import Base SpecEncode CodeTable InstructionMap EncodeTable JsonWriter Engine Encoder Adler Decoder.

(** ** encodetable_test.cc *)

(** encodetable_test.cc 48-88: the exercise code table. *)
Definition exercise_inst (im : Z) : Z := if 3 <? im then 3 else im.
Definition exercise_mode (im : Z) : Z := if 3 <? im then im - 3 else 0.
Definition exercise (f : Z -> Z -> Z -> Z -> Z) : list Z :=
  concat (map (fun i1 => concat (map (fun i2 => [f i1 i2 0 0; f i1 i2 0 255; f i1 i2 255 0; f i1 i2 255 255])
    [0; 1; 2; 3; 4; 5; 6; 7])) [0; 1; 2; 3; 4; 5; 6; 7]).
Definition exercise_table : table := {|
  inst1 := exercise (fun i _ _ _ => exercise_inst i); inst2 := exercise (fun _ i _ _ => exercise_inst i);
  size1 := exercise (fun i _ s _ => if i =? 0 then 0 else s); size2 := exercise (fun _ i _ s => if i =? 0 then 0 else s);
  mode1 := exercise (fun i _ _ _ => exercise_mode i); mode2 := exercise (fun _ i _ _ => exercise_mode i) |}.
Example exercise_table_is_valid : validate exercise_table 4 = Some true.   (* 94 *)
Proof. vm_compute; reflexivity. Qed.

(** encodetable_test.cc 35-43: the three writers. *)
Definition standard_writer := new_writer false.
Definition interleaved_writer := new_writer true.
Definition exercise_writer := new_custom_writer true 4 3 exercise_table 4.

(** Init, AddChecksum, calls, Output (encodetable_test.cc 189-200): the bytes. *)
Definition written (w : writer) (dict_size : Z) (cks : option Z) (calls : list instruction) : option (bool * list Z) :=
  match writer_init w dict_size with
  | Some (w1, ok) =>
      match writer_calls (match cks with Some c => add_checksum w1 c | None => w1 end) calls with
      | Some w2 => match writer_output w2 with Some (_, out) => Some (ok, out) | None => None end
      | None => None
      end
  | None => None
  end.

(* StandardWriterEncodeAdd, 202-218 *)
Example StandardWriterEncodeAdd : written standard_writer 17 None [Add [102; 111; 111]] =
  Some (true, [1; 17; 0; 9; 3; 0; 3; 1; 0; 102; 111; 111; 4]).
Proof. vm_compute; reflexivity. Qed.
(* ExerciseWriterEncodeAdd, 220-236 *)
Example ExerciseWriterEncodeAdd : written exercise_writer 17 None [Add [102; 111; 111]] =
  Some (true, [1; 17; 0; 10; 3; 0; 0; 5; 0; 4; 3; 102; 111; 111]).
Proof. vm_compute; reflexivity. Qed.
(* StandardWriterEncodeRun, 238-255 *)
Example StandardWriterEncodeRun : written standard_writer 17 None [Run 3 97] =
  Some (true, [1; 17; 0; 8; 3; 0; 1; 2; 0; 97; 0; 3]).
Proof. vm_compute; reflexivity. Qed.
(* ExerciseWriterEncodeRun, 257-274 *)
Example ExerciseWriterEncodeRun : written exercise_writer 17 None [Run 3 97] =
  Some (true, [1; 17; 0; 8; 3; 0; 0; 3; 0; 8; 3; 97]).
Proof. vm_compute; reflexivity. Qed.
(* StandardWriterEncodeCopy, 276-295 *)
Example StandardWriterEncodeCopy : written standard_writer 17 None [Copy 2 8; Copy 2 8] =
  Some (true, [1; 17; 0; 9; 16; 0; 0; 2; 2; 24; 120; 2; 2]).
Proof. vm_compute; reflexivity. Qed.
(* InterleavedWriterEncodeCopy, 301-320 *)
Example InterleavedWriterEncodeCopy : written interleaved_writer 17 None [Copy 2 8; Copy 2 8] =
  Some (true, [1; 17; 0; 9; 16; 0; 0; 4; 0; 24; 2; 120; 2]).
Proof. vm_compute; reflexivity. Qed.
(* StandardWriterEncodeCombo, 322-344 *)
Example StandardWriterEncodeCombo : written standard_writer 17 None [Add [114; 97; 121; 111]; Copy 2 5; Copy 0 4; Add [88]] =
  Some (true, [1; 17; 0; 14; 14; 0; 5; 2; 2; 114; 97; 121; 111; 88; 173; 253; 2; 0]).
Proof. vm_compute; reflexivity. Qed.
(* InterleavedWriterEncodeCombo, 346-369 *)
Example InterleavedWriterEncodeCombo : written interleaved_writer 17 None [Add [114; 97; 121; 111]; Copy 2 5; Copy 0 4; Add [88]] =
  Some (true, [1; 17; 0; 14; 14; 0; 0; 9; 0; 173; 114; 97; 121; 111; 2; 253; 0; 88]).
Proof. vm_compute; reflexivity. Qed.
(* InterleavedWriterEncodeComboWithChecksum, 371-401 *)
Example InterleavedWriterEncodeComboWithChecksum : written interleaved_writer 17 (Some 4294967295) [Add [114; 97; 121; 111]; Copy 2 5; Copy 0 4; Add [88]] =
  Some (true, [5; 17; 0; 19; 14; 0; 0; 9; 0; 143; 255; 255; 255; 127; 173; 114; 97; 121; 111; 2; 253; 0; 88]).
Proof. vm_compute; reflexivity. Qed.
(* ReallyBigDictionary, 403-426 *)
Example ReallyBigDictionary : written interleaved_writer 1073741823 None [Copy 2 8; Copy 1073741822 8] =
  Some (true, [1; 131; 255; 255; 255; 127; 0; 9; 16; 0; 0; 4; 0; 24; 2; 40; 9]).
Proof. vm_compute; reflexivity. Qed.
(* WriterEncodeNothing, 168-184 *)
Example WriterEncodeNothing : written standard_writer 0 None [] = Some (true, []) /\
  written interleaved_writer 16 None [] = Some (true, []) /\ written exercise_writer 32 None [] = Some (true, []).
Proof. vm_compute; repeat split. Qed.

(** ** vcencoder_test.cc *)

(** vcencoder_test.cc 146-165: dictionary (with its NUL byte), target, expected JSON. *)
Definition snark_dict : list Z := [34; 74; 117; 115; 116; 32; 116; 104; 101; 32; 112; 108; 97; 99; 101; 32; 102; 111; 114; 32; 97; 32; 83; 110; 97; 114; 107;
33; 34; 32; 116; 104; 101; 32; 66; 101; 108; 108; 109; 97; 110; 32; 99; 114; 105; 101; 100; 44; 10; 65; 115; 32; 104; 101; 32; 108; 97; 110; 100; 101; 100; 32;
104; 105; 115; 32; 99; 114; 101; 119; 32; 119; 105; 116; 104; 32; 99; 97; 114; 101; 59; 10; 83; 117; 112; 112; 111; 114; 116; 105; 110; 103; 32; 101; 97; 99;
104; 32; 109; 97; 110; 32; 111; 110; 32; 116; 104; 101; 32; 116; 111; 112; 32; 111; 102; 32; 116; 104; 101; 32; 116; 105; 100; 101; 10; 66; 121; 32; 97; 32;
102; 105; 110; 103; 101; 114; 32; 101; 110; 116; 119; 105; 110; 101; 100; 32; 105; 110; 32; 104; 105; 115; 32; 104; 97; 105; 114; 46; 10; 0].
Definition snark_target : list Z := [34; 74; 117; 115; 116; 32; 116; 104; 101; 32; 112; 108; 97; 99; 101; 32; 102; 111; 114; 32; 97; 32; 83; 110; 97; 114; 107;
33; 32; 73; 32; 104; 97; 118; 101; 32; 115; 97; 105; 100; 32; 105; 116; 32; 116; 119; 105; 99; 101; 58; 10; 84; 104; 97; 116; 32; 97; 108; 111; 110; 101; 32;
115; 104; 111; 117; 108; 100; 32; 101; 110; 99; 111; 117; 114; 97; 103; 101; 32; 116; 104; 101; 32; 99; 114; 101; 119; 46; 10; 74; 117; 115; 116; 32; 116; 104;
101; 32; 112; 108; 97; 99; 101; 32; 102; 111; 114; 32; 97; 32; 83; 110; 97; 114; 107; 33; 32; 73; 32; 104; 97; 118; 101; 32; 115; 97; 105; 100; 32; 105; 116;
32; 116; 104; 114; 105; 99; 101; 58; 10; 87; 104; 97; 116; 32; 73; 32; 116; 101; 108; 108; 32; 121; 111; 117; 32; 116; 104; 114; 101; 101; 32; 116; 105; 109;
101; 115; 32; 105; 115; 32; 116; 114; 117; 101; 46; 34; 10].
Definition snark_json : list Z := [91; 34; 92; 34; 74; 117; 115; 116; 32; 116; 104; 101; 32; 112; 108; 97; 99; 101; 32; 102; 111; 114; 32; 97; 32; 83; 110; 97;
114; 107; 33; 32; 73; 32; 104; 97; 118; 101; 32; 115; 97; 105; 100; 32; 105; 116; 32; 116; 119; 105; 99; 101; 58; 92; 110; 84; 104; 97; 116; 32; 97; 108; 111;
110; 101; 32; 115; 104; 111; 117; 108; 100; 32; 101; 110; 99; 111; 117; 114; 97; 103; 101; 32; 116; 104; 101; 32; 99; 114; 101; 119; 46; 92; 110; 34; 44; 49;
54; 49; 44; 52; 52; 44; 34; 104; 114; 105; 99; 101; 58; 92; 110; 87; 104; 97; 116; 32; 73; 32; 116; 101; 108; 108; 32; 121; 111; 117; 32; 116; 104; 114; 101;
101; 32; 116; 105; 109; 101; 115; 32; 105; 115; 32; 116; 114; 117; 101; 46; 92; 34; 92; 110; 34; 93].

(** The formats of the encoders under test (vcencoder_test.cc 168-182). *)
Definition fmt (il ck js : bool) : flags := {| fl_interleaved := il; fl_checksum := ck; fl_json := js |}.

(** StartEncoding, EncodeChunk of each chunk, FinishEncoding (vcencoder_test.cc 278-290): success and bytes. *)
Definition streamed (dict : list Z) (f : flags) (look : bool) (chunks : list (list Z)) : option (bool * list Z) :=
  match streaming_encoder dict f look with
  | Some e => match encode_stream e chunks with Some (_, ok, out) => Some (ok, out) | None => None end
  | None => None
  end.
(** VCDiffEncoder (vcencoder_test.cc 238-276): Encode. *)
Definition simply (dict : list Z) (f : flags) (look : bool) (target : list Z) : option (bool * list Z) :=
  match encode (set_target_matching (set_format_flags (new_vcdiff_encoder dict) f) look) target with
  | Some (_, ok, out) => Some (ok, out)
  | None => None
  end.
(** Decode with VCDiffDecoder (vcencoder_test.cc 244-248), or a VCDiffStreamingDecoder fed [n] bytes at a time (400-414). *)
Definition decoded (dict delta : list Z) : option (bool * list Z) :=
  match decode_to_interface new_decoder dict delta with Some (_, ok, out) => Some (ok, out) | None => None end.
(** The target in chunks of [n] bytes (vcencoder_test.cc 371-384). *)
Fixpoint split_every (fuel n : nat) (l : list Z) : list (list Z) :=
  match fuel, l with
  | S f, _ :: _ => firstn n l :: split_every f n (skipn n l)
  | _, _ => []
  end.
Definition chunks_of (n : nat) (l : list Z) : list (list Z) := split_every (length l) n l.
(** Encoding succeeds within the bound of vcencoder_test.cc 389-393 (kFileHeaderSize 5, kWindowHeaderSize 21), and
    decoding gives the target back. *)
Definition round_trip (dict target : list Z) (n_windows : Z) (e : option (bool * list Z)) : bool :=
  match e with
  | Some (true, delta) =>
      (zlen delta <=? 5 + zlen target + 21 * n_windows) &&
      match decoded dict delta with
      | Some (true, out) => if list_eq_dec Z.eq_dec out target then true else false
      | _ => false
      end
  | _ => false
  end.

(* EncodeBeforeStartEncoding, FinishBeforeStartEncoding, 184-190 *)
Example calls_before_start :
  match streaming_encoder snark_dict (fmt true true false) true with
  | Some e => match encode_chunk e snark_target with Some (_, ok, out) => negb ok && match out with [] => true | _ => false end | None => false end
              && negb (snd (fst (finish_encoding e)))
  | None => false
  end = true.
Proof. vm_compute; reflexivity. Qed.
(* EncodeDecodeNothing, EncodeNothingJSON, 192-219 *)
Example nothing_standard : streamed [] (fmt false false false) false [] = Some (true, [214; 195; 196; 0; 0]) /\
  decoded [] [214; 195; 196; 0; 0] = Some (true, []).
Proof. vm_compute; repeat split. Qed.
Example nothing_json : streamed [] (fmt false false true) false [] = Some (true, []).
Proof. vm_compute; reflexivity. Qed.
(* EncodeDecodeNullDictionaryPtr, 221-240; EncodeDecodeSimple, Interleaved, InterleavedChecksum, SingleChunk, 242-295 *)
Example encode_decode :
  forallb (fun b => b) [
    round_trip [] snark_target 1 (streamed [] (fmt false false false) false [snark_target]);
    round_trip snark_dict snark_target 1 (simply snark_dict (fmt false false false) true snark_target);
    round_trip snark_dict snark_target 1 (simply snark_dict (fmt true false false) true snark_target);
    round_trip snark_dict snark_target 1 (simply snark_dict (fmt true true false) true snark_target);
    round_trip snark_dict snark_target 1 (streamed snark_dict (fmt true true false) true [snark_target])] = true.
Proof. vm_compute; reflexivity. Qed.
(* EncodeSimpleJSON, EncodeSimpleExternalJSON, 297-309 *)
Example EncodeSimpleJSON : streamed snark_dict (fmt false false true) true [snark_target] = Some (true, snark_json).
Proof. vm_compute; reflexivity. Qed.
(* NonasciiDictionary, NonasciiDictionaryWithJSON, NonasciiTarget, NonasciiTargetWithJSON, 333-358 *)
Example nonascii :
  (match simply [102; 111; 111; 128; 0] (fmt false false false) true snark_target with Some (ok, _) => ok | None => false end) = true /\
  (match simply [102; 111; 111; 128; 0] (fmt false false true) true snark_target with Some (ok, _) => ok | None => true end) = false /\
  (match simply snark_dict (fmt false false false) true [102; 111; 111; 128; 0] with Some (ok, _) => ok | None => false end) = true /\
  (match simply snark_dict (fmt false false true) true [102; 111; 111; 128; 0] with Some (ok, _) => ok | None => true end) = false.
Proof. vm_compute; repeat split. Qed.
(* EncodeDecodeFixedChunkSizes, 424-436: the sizes that failed in the past *)
Example EncodeDecodeFixedChunkSizes :
  forallb (fun n => round_trip snark_dict snark_target (zlen snark_target / Z.of_nat n + 1)
                      (streamed snark_dict (fmt true true false) true (chunks_of n snark_target))) [6; 45; 60]%nat = true.
Proof. vm_compute; reflexivity. Qed.
(* EncodeFixedChunkSizesJSON, 438-464 *)
Example EncodeFixedChunkSizesJSON_6 : streamed snark_dict (fmt false false true) true (chunks_of 6 snark_target) =
  Some (true, [91; 34; 92; 34; 74; 117; 115; 116; 32; 34; 44; 34; 116; 104; 101; 32; 112; 108; 34; 44; 34; 97; 99; 101; 32; 102; 111; 34; 44; 34; 114; 32; 97;
32; 83; 110; 34; 44; 34; 97; 114; 107; 33; 32; 73; 34; 44; 34; 32; 104; 97; 118; 101; 32; 34; 44; 34; 115; 97; 105; 100; 32; 105; 34; 44; 34; 116; 32; 116;
119; 105; 99; 34; 44; 34; 101; 58; 92; 110; 84; 104; 97; 34; 44; 34; 116; 32; 97; 108; 111; 110; 34; 44; 34; 101; 32; 115; 104; 111; 117; 34; 44; 34; 108; 100;
32; 101; 110; 99; 34; 44; 34; 111; 117; 114; 97; 103; 101; 34; 44; 34; 32; 116; 104; 101; 32; 99; 34; 44; 34; 114; 101; 119; 46; 92; 110; 74; 34; 44; 34; 117;
115; 116; 32; 116; 104; 34; 44; 34; 101; 32; 112; 108; 97; 99; 34; 44; 34; 101; 32; 102; 111; 114; 32; 34; 44; 34; 97; 32; 83; 110; 97; 114; 34; 44; 34; 107;
33; 32; 73; 32; 104; 34; 44; 34; 97; 118; 101; 32; 115; 97; 34; 44; 34; 105; 100; 32; 105; 116; 32; 34; 44; 34; 116; 104; 114; 105; 99; 101; 34; 44; 34; 58;
92; 110; 87; 104; 97; 116; 34; 44; 34; 32; 73; 32; 116; 101; 108; 34; 44; 34; 108; 32; 121; 111; 117; 32; 34; 44; 34; 116; 104; 114; 101; 101; 32; 34; 44; 34;
116; 105; 109; 101; 115; 32; 34; 44; 34; 105; 115; 32; 116; 114; 117; 34; 44; 34; 101; 46; 92; 34; 92; 110; 34; 93]).
Proof. vm_compute; reflexivity. Qed.
Example EncodeFixedChunkSizesJSON_45 : streamed snark_dict (fmt false false true) true (chunks_of 45 snark_target) =
  Some (true, [91; 34; 92; 34; 74; 117; 115; 116; 32; 116; 104; 101; 32; 112; 108; 97; 99; 101; 32; 102; 111; 114; 32; 97; 32; 83; 110; 97; 114; 107; 33; 32;
73; 32; 104; 97; 118; 101; 32; 115; 97; 105; 100; 32; 105; 116; 32; 116; 34; 44; 34; 119; 105; 99; 101; 58; 92; 110; 84; 104; 97; 116; 32; 97; 108; 111; 110;
101; 32; 115; 104; 111; 117; 108; 100; 32; 101; 110; 99; 111; 117; 114; 97; 103; 101; 32; 116; 104; 101; 32; 99; 114; 101; 119; 46; 92; 110; 74; 34; 44; 34;
117; 115; 116; 32; 116; 104; 101; 32; 112; 108; 97; 99; 101; 32; 102; 111; 114; 32; 97; 32; 83; 110; 97; 114; 107; 33; 32; 73; 32; 104; 97; 118; 101; 32; 115;
97; 105; 100; 32; 105; 116; 32; 116; 104; 114; 34; 44; 34; 105; 99; 101; 58; 92; 110; 87; 104; 97; 116; 32; 73; 32; 116; 101; 108; 108; 32; 121; 111; 117; 32;
116; 104; 114; 101; 101; 32; 116; 105; 109; 101; 115; 32; 105; 115; 32; 116; 114; 117; 101; 46; 92; 34; 92; 110; 34; 93]).
Proof. vm_compute; reflexivity. Qed.
Example EncodeFixedChunkSizesJSON_60 : streamed snark_dict (fmt false false true) true (chunks_of 60 snark_target) =
  Some (true, [91; 34; 92; 34; 74; 117; 115; 116; 32; 116; 104; 101; 32; 112; 108; 97; 99; 101; 32; 102; 111; 114; 32; 97; 32; 83; 110; 97; 114; 107; 33; 32;
73; 32; 104; 97; 118; 101; 32; 115; 97; 105; 100; 32; 105; 116; 32; 116; 119; 105; 99; 101; 58; 92; 110; 84; 104; 97; 116; 32; 97; 108; 111; 110; 34; 44; 34;
101; 32; 115; 104; 111; 117; 108; 100; 32; 101; 110; 99; 111; 117; 114; 97; 103; 101; 32; 116; 104; 101; 32; 99; 114; 101; 119; 46; 92; 110; 74; 117; 115; 116;
32; 116; 104; 101; 32; 112; 108; 97; 99; 101; 32; 102; 111; 114; 32; 97; 32; 83; 110; 97; 114; 107; 33; 32; 73; 32; 104; 34; 44; 34; 97; 118; 101; 32; 115; 97;
105; 100; 32; 105; 116; 32; 116; 104; 114; 105; 99; 101; 58; 92; 110; 87; 104; 97; 116; 32; 73; 32; 116; 101; 108; 108; 32; 121; 111; 117; 32; 116; 104; 114;
101; 101; 32; 116; 105; 109; 101; 115; 32; 105; 115; 32; 116; 114; 117; 101; 46; 92; 34; 92; 110; 34; 93]).
Proof. vm_compute; reflexivity. Qed.
(* DictionaryHasEmbeddedNULLs, DictionaryHasEmbeddedNewlines, 551-621 *)
Example embedded_bytes :
  (let d := [0; 255; 254; 253; 0; 253; 254; 255; 0; 3] in let t := [253; 0; 253; 254; 3; 0; 1; 0] in
   round_trip d t 1 (streamed d (fmt true true false) true [t]) = true) /\
  (let d := [12; 255; 254; 12; 0; 10; 254; 255; 0; 10] in let t := [12; 0; 10; 254; 3; 0; 10; 0] in
   round_trip d t 1 (streamed d (fmt true true false) true [t]) = true).
Proof. vm_compute; repeat split. Qed.

(** The HTML tests (vcencoder_test.cc 722-1061), with the branch for kBlockSize 16. *)
Definition html1_dict : list Z := [60; 104; 116; 109; 108; 62; 60; 102; 111; 110; 116; 32; 99; 111; 108; 111; 114; 61; 114; 101; 100; 62; 84; 104; 105; 115;
32; 112; 97; 114; 116; 32; 102; 114; 111; 109; 32; 116; 104; 101; 32; 100; 105; 99; 116; 60; 47; 102; 111; 110; 116; 62; 60; 98; 114; 62; 0].
Definition html1_target : list Z := [60; 104; 116; 109; 108; 62; 60; 102; 111; 110; 116; 32; 99; 111; 108; 111; 114; 61; 114; 101; 100; 62; 84; 104; 105; 115;
32; 112; 97; 114; 116; 32; 102; 114; 111; 109; 32; 116; 104; 101; 32; 100; 105; 99; 116; 60; 47; 102; 111; 110; 116; 62; 60; 98; 114; 62; 10; 65; 110; 100; 32;
116; 104; 105; 115; 32; 112; 97; 114; 116; 32; 105; 115; 32; 110; 111; 116; 46; 46; 46; 60; 47; 104; 116; 109; 108; 62].
Definition html2_dict : list Z := [49; 48; 10; 84; 104; 105; 115; 32; 105; 115; 32; 97; 32; 116; 101; 115; 116; 0].
Definition html2_target : list Z := [84; 104; 105; 115; 32; 105; 115; 32; 97; 32; 116; 101; 115; 116; 33; 33; 33; 10].
(* CheckOutputOfSimpleEncoder, 775-843 *)
Example CheckOutputOfSimpleEncoder : simply html1_dict (fmt false false false) true html1_target =
  Some (true, [214; 195; 196; 0; 0; 1; 57; 0; 41; 87; 0; 31; 4; 1; 10; 65; 110; 100; 32; 116; 104; 105; 115; 32; 112; 97; 114; 116; 32; 105; 115; 32; 110; 111;
116; 46; 46; 46; 60; 47; 104; 116; 109; 108; 62; 115; 56; 1; 31; 0]).
Proof. vm_compute; reflexivity. Qed.
(* SimpleEncoderPerformsTargetMatching, 845-883 *)
Example SimpleEncoderPerformsTargetMatching : simply html1_dict (fmt false false false) true (repeat 65 256) =
  Some (true, [214; 195; 196; 0; 0; 1; 57; 0; 12; 130; 0; 0; 1; 4; 1; 65; 2; 35; 129; 127; 1]).
Proof. vm_compute; reflexivity. Qed.
(* SimpleEncoderWithoutTargetMatching, 885-923 *)
Example SimpleEncoderWithoutTargetMatching : simply html1_dict (fmt false false false) false (repeat 65 256) =
  Some (true, [214; 195; 196; 0; 0; 1; 57; 0; 130; 10; 130; 0; 0; 130; 0; 3; 0] ++ repeat 65 256 ++ [1; 130; 0]).
Proof. vm_compute; reflexivity. Qed.
(* VerifyOutputOfSimpleEncoder, 982-1024 *)
Example VerifyOutputOfSimpleEncoder : simply html2_dict (fmt false false false) true html2_target =
  Some (true, [214; 195; 196; 0; 0; 1; 18; 0; 25; 18; 0; 18; 2; 0; 84; 104; 105; 115; 32; 105; 115; 32; 97; 32; 116; 101; 115; 116; 33; 33; 33; 10; 1; 18]).
Proof. vm_compute; reflexivity. Qed.
(* VerifyOutputWithChecksum, 1026-1061 *)
Example VerifyOutputWithChecksum : streamed html2_dict (fmt true true false) true [html2_target] =
  Some (true, [214; 195; 196; 83; 0; 5; 18; 0; 30; 18; 0; 0; 20; 0; 131; 203; 176; 138; 98; 1; 18; 84; 104; 105; 115; 32; 105; 115; 32; 97; 32; 116; 101; 115;
116; 33; 33; 33; 10]).
Proof. vm_compute; reflexivity. Qed.
