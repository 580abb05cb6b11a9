(** The unit tests of the parts below the encoder and decoder, replayed on the model.

    varint_bigendian_test.cc, addrcache_test.cc, jsonwriter_test.cc, rolling_hash_test.cc,
    blockhash_test.cc and vcdiffengine_test.cc in /repo/src.  These are tests of the model, not
    proofs about it.  Left out: timing tests, tests with random data (C03, C10 and C16 are for all
    data), null pointers and limits before the beginning, the one megabyte of the test
    SearchStringFindsTooManyMatches.  Of tests of debug-only checks what they expect of a release
    build is kept. *)

From Verif Require Import Base SpecEncode Varint AddrCache CodeTable InstructionMap EncodeTable JsonWriter RollingHash
  BlockHash Engine Encoder.

(** ** varint_bigendian_test.cc *)

Definition encodes (t : int_type) (v : Z) (l : list Z) : Prop :=
  Varint.encode t v = Some l /\ encode_bytes t v = l /\ varint_length_opt v = Some (zlen l).
Ltac run := vm_compute; repeat split; reflexivity.

(* 136-166 *)
Example varint_encode : Forall (fun t => encodes t 0 [0] /\ encodes t 255 [129; 127] /\
  encodes t 212708634 [229; 182; 218; 26] /\ encodes t 2147483647 [135; 255; 255; 255; 127]) [I32; I64].
Proof. repeat constructor; run. Qed.
(* 175-197 *)
Example varint_encode_64 : encodes I64 2147483648 [136; 128; 128; 128; 0] /\
  encodes I64 9223372036854775807 [255; 255; 255; 255; 255; 255; 255; 255; 127].
Proof. run. Qed.
(* 215-219, 243-291, 339-349 *)
Example varint_parse : Forall (fun t =>
  parse t (repeat 255 (kMaxBytes t)) = Err /\ parse t [0] = Ok (0, []) /\ parse t [202; 218; 1] = Ok (1223937, []) /\
  parse t [] = Eod /\ parse t [186; 239; 154; 21] = Ok (123456789, []) /\
  parse t [135; 255; 255; 255; 127] = Ok (2147483647, []) /\ parse t (repeat 128 10) = Eod) [I32; I64].
Proof. repeat constructor; run. Qed.
(* 221-240, 293-307 *)
Example varint_parse_limits :
  parse I32 (repeat 255 4) = Err /\ parse I32 (repeat 255 3) = Eod /\ parse I64 (repeat 255 8) = Eod /\
  parse I32 [136; 128; 128; 128; 0] = Err /\ parse I64 [136; 128; 128; 128; 0] = Ok (2147483648, []).
Proof. run. Qed.

(** ** addrcache_test.cc *)

Definition init_ok (ns ss : Z) : bool := match cache_init ns ss with Some _ => true | None => false end.
(* 137-175 *)
Example cache_sizes : init_ok 0 0 = true /\ init_ok 255 0 = false /\ init_ok 0 255 = false /\ init_ok 128 127 = false /\
  init_ok 255 255 = false /\ init_ok 254 0 = true /\ init_ok 0 254 = true /\ init_ok 127 127 = true.
Proof. run. Qed.

(** addrcache_test.cc 207-209: repeated UpdateCache *)
Fixpoint updates (c : option cache) (l : list Z) : option cache :=
  match l with [] => c | a :: tl => updates (match c with Some c' => update_cache c' a | None => None end) tl end.
(* 187-195, CacheContentsInitiallyZero *)
Example cache_initially_zero : match cache_init 4 3 with
  | Some c => near_a c = repeat 0 4 /\ same_a c = repeat 0 768 | None => False end.
Proof. run. Qed.
(* 201-217 *)
Example insert_first_ten : match updates (cache_init 4 3) [1; 2; 3; 4; 5; 6; 7; 8; 9; 10] with
  | Some c => near_a c = [9; 10; 7; 8] /\ same_a c = [0; 1; 2; 3; 4; 5; 6; 7; 8; 9; 10] ++ repeat 0 757 | None => False end.
Proof. run. Qed.
(* 219-225 *)
Example insert_int_max : match updates (cache_init 4 3) [2147483647] with
  | Some c => get (near_a c) 0 = Some 2147483647 /\ get (same_a c) (2147483647 mod 768) = Some 2147483647 /\
      get (same_a c) ((2147483647 - 256) mod 768) = Some 0 /\ get (same_a c) ((2147483647 - 512) mod 768) = Some 0
  | None => False end.
Proof. run. Qed.

(** the modes and encoded addresses of a sequence of calls, and the bytes TestEncode (109-122) writes *)
Fixpoint encodings (c : option cache) (l : list (Z * Z)) : list (option (Z * Z * list Z)) :=
  match l with
  | [] => []
  | (a, here) :: tl =>
      match c with
      | None => [None]
      | Some c0 => match encode_address c0 a here with
                   | Some (m, e, c1) => Some (m, e, addr_bytes c0 m e) :: encodings (Some c1) tl
                   | None => [None]
                   end
      end
  end.
(* 232-247 *)
Example encode_address_modes : encodings (cache_init 4 3) [(65535, 268435456); (268435456, 268435472);
    (268435460, 268435488); (268435454, 268435504); (268435460, 268435520)] =
  [Some (0, 65535, [131; 255; 127]); Some (1, 16, [16]); Some (3, 4, [4]); Some (1, 50, [50]); Some (7, 4, [4])].
Proof. run. Qed.
(* 298-317 *)
Example encode_zero_caches : encodings (cache_init 0 0) [(65535, 268435456); (268435456, 268435472);
    (268435460, 268435488); (268435454, 268435504); (268435460, 268435520)] =
  [Some (0, 65535, [131; 255; 127]); Some (1, 16, [16]); Some (1, 28, [28]); Some (1, 50, [50]); Some (1, 60, [60])].
Proof. run. Qed.

(** addrcache_test.cc 64-76: the results of a sequence of calls of DecodeAddress (here, mode) and the bytes each takes;
    a call that fails leaves the stream where it is *)
Fixpoint decodings (c : option cache) (stream : list Z) (l : list (Z * Z)) : list (res (Z * Z)) :=
  match l with
  | [] => []
  | (here, m) :: tl =>
      match c with
      | None => []
      | Some c0 => match decode_address c0 here m stream with
                   | Ok (a, rest, c1) => Ok (a, zlen stream - zlen rest) :: decodings (Some c1) rest tl
                   | Eod => Eod :: decodings c stream tl
                   | Err => Err :: decodings c stream tl
                   | UB => [UB]
                   end
      end
  end.
(** addrcache_test.cc 81-83 [ManualEncodeVarint] *)
Definition vi := encode_bytes I32.
(* 249-296 *)
Example decode_address_modes : decodings (cache_init 4 3)
    (vi 51966 ++ vi 51966 ++ vi 4096 ++ [254] ++ vi 254 ++ vi 4096)
    [(65536, 0); (131072, 1); (196608, 2); (262144, 6 + 202 mod 3); (327680, 0); (393216, 2)] =
  [Ok (51966, 3); Ok (131072 - 51966, 3); Ok (56062, 2); Ok (51966, 1); Ok (254, 2); Ok (4350, 2)].
Proof. run. Qed.
(* 319-341 *)
Example decode_zero_caches : decodings (cache_init 0 0) (vi 51966 ++ vi 51966 ++ vi 56062) [(65536, 0); (131072, 1); (196608, 0)] =
  [Ok (51966, 3); Ok (131072 - 51966, 3); Ok (56062, 3)].
Proof. run. Qed.
(* 358-528: addresses that are not accepted *)
Example decode_bad_addresses :
  decodings (cache_init 4 3) (vi 51966) [(268435456, 9); (268435456, 255)] = [Err; Err] /\
  decodings (cache_init 4 3) (vi 51966 ++ vi 51966) [(-1, 0); (0, 0)] = [Err; Err] /\
  decodings (cache_init 4 3) (vi 51966) [(4096, 0)] = [Err] /\
  decodings (cache_init 4 3) (vi 65537) [(65536, 1)] = [Err] /\
  decodings (cache_init 4 3) (vi 51966 ++ vi 2147483647) [(65536, 0); (268435456, 2)] = [Ok (51966, 3); Err] /\
  decodings (cache_init 4 3) (vi 51966 ++ vi 2147483647) [(65536, 0); (65536, 2)] = [Ok (51966, 3); Err] /\
  decodings (cache_init 4 3) (repeat 254 512) [(268435456, 0)] = [Err] /\
  decodings (cache_init 4 3) [254; 254; 254] [(268435456, 0)] = [Eod] /\
  decodings (cache_init 4 3) [254; 254; 254; 1] [(268435456, 0)] = [Ok (266321665, 4)].
Proof. run. Qed.

(** ** jsonwriter_test.cc *)

(** a list of calls of the writer between Output calls; Init first (30-34), FinishEncoding last *)
Fixpoint json_outputs (j : json_writer) (l : list (list instruction)) : list Z :=
  match l with
  | [] => json_finish j
  | calls :: tl => let (j', out) := json_output (fold_left json_call calls j) in out ++ json_outputs j' tl
  end.
(** jsonwriter_test.cc 30-34 *)
Definition json_of := json_outputs (json_init new_json_writer).

(* 43-99 *)
Example json_writer_tests :
  json_of [] = [] /\
  json_of [[]] = [91; 93] /\
  json_of [[Add [49; 50; 51]]] = [91; 34; 49; 50; 51; 34; 93] /\
  json_of [[Copy 3 5]] = [91; 51; 44; 53; 93] /\
  json_of [[Run 3 97]] = [91; 34; 97; 97; 97; 34; 93] /\
  json_of [[Add [10; 8; 13]]] = [91; 34; 92; 110; 92; 98; 92; 114; 34; 93] /\
  json_of [[Add [97; 98; 99]; Copy 3 5; Add [100; 101; 102; 103; 104; 105; 106]]] = [91; 34; 97; 98; 99; 34; 44; 51; 44; 53; 44; 34; 100; 101; 102; 103; 104; 105; 106; 34; 93] /\
  json_of [[Add [97; 98; 99]]; [Add [100; 101; 102]]] = [91; 34; 97; 98; 99; 34; 44; 34; 100; 101; 102; 34; 93].
Proof. run. Qed.
(* 101-117, AddOutputAddOutputToDifferentString *)
Example json_writer_again : json_outputs (json_init (fst (json_output (json_add (json_init new_json_writer) [97; 98; 99])))) [[Add [100; 101; 102]]] = [91; 34; 100; 101; 102; 34; 93].
Proof. run. Qed.

(** ** rolling_hash_test.cc *)

(* 62-73, TestModBase 29-34 *)
Example mod_base_tests : Forall (fun x => mod_base x = x mod kBase /\
    mod_base (to_uint32 (- x)) = find_mod_base_inverse x /\ mod_base (to_uint32 (find_mod_base_inverse x + x)) = 0)
  [0; 10; 4294967286; kBase - 1; kBase; kBase + 1; 2147483647; 2147483648; 4294967294; 4294967295].
Proof. repeat constructor; run. Qed.
(* 75-84, TestHashFirstTwoBytes 36-47 *)
Example first_two_bytes : Forall (fun b => hash_direct 2 b = Some (fold_left hash_step b 0))
  [[0; 0]; [0; 255]; [255; 0]; [255; 255]; [0; 128]; [127; 255]; [127; 128]; [1; 143]].
Proof. repeat constructor; run. Qed.

(** ** blockhash_test.cc *)

(** 111-124 [MakeEachLetterABlock]; also vcdiffengine_test.cc 70-88 *)
Definition letters_apart (n : Z) (l : list Z) : list Z := concat (map (fun ch => repeat 32 (Z.to_nat (n - 1)) ++ [ch]) l).

(** blockhash_test.cc 274-300 *)
Definition sample_text := letters_apart kBlockSize [84; 104; 101; 32; 111; 110; 108; 121; 32; 116; 104; 105; 110; 103; 32; 119; 101; 32; 104; 97; 118; 101; 32; 116; 111; 32; 102; 101; 97; 114; 32; 105; 115; 32; 102; 101; 97; 114; 32; 105; 116; 115; 101; 108; 102].
(** blockhash_test.cc 274-300 *)
Definition search_string := letters_apart kBlockSize [87; 104; 97; 116; 32; 119; 101; 32; 104; 101; 97; 114; 32; 105; 115; 32; 102; 101; 97; 114; 115; 111; 109; 101].
(** blockhash_test.cc 274-300 *)
Definition search_string_altered := letters_apart kBlockSize [86; 104; 97; 116; 32; 118; 101; 32; 104; 101; 97; 114; 32; 105; 115; 32; 102; 101; 97; 114; 115; 111; 109; 109].
(** blockhash_test.cc 274-300 *)
Definition search_to_end := letters_apart kBlockSize [80; 111; 112; 32; 119; 105; 108; 108; 32; 101; 97; 116; 32; 105; 116; 115; 101; 108; 102; 44; 32; 101; 118; 101; 110; 116; 117; 97; 108; 108; 121].
(** blockhash_test.cc 274-300 *)
Definition search_to_beginning := letters_apart kBlockSize [85; 115; 101; 32; 84; 104; 101; 32; 111; 110; 108; 105; 110; 101; 32; 100; 105; 99; 116; 105; 111; 110; 97; 114; 121].
(** blockhash_test.cc 274-300 *)
Definition sample_many := letters_apart kBlockSize [97; 98; 97; 98; 97; 98; 97; 98; 99; 97; 98].
(** blockhash_test.cc 274-300 *)
Definition search_many := letters_apart kBlockSize [97; 98; 97; 98; 99].
(** blockhash_test.cc 274-300 *)
Definition test_y := letters_apart kBlockSize [121].
(** blockhash_test.cc 274-300 *)
Definition test_e := letters_apart kBlockSize [101].
(** blockhash_test.cc 139-142 *)
Definition test_unaligned_e := repeat 32 14 ++ [101; 32].
(** blockhash_test.cc 143-145 *)
Definition test_Qs := repeat 81 16.
(** blockhash_test.cc 146-151: hash of the block at an index *)
Definition hash (l : list Z) (i : Z) : Z :=
  match slice l i 16 with Some b => match hash_direct 16 b with Some h => h | None => -1 end | None => -1 end.
(** blockhash_test.cc 185-215: the index of a block *)
Definition at_ (i : Z) := i * kBlockSize.

(** blockhash_test.cc 597-640: a block hash after some calls of AddAllBlocksThroughIndex *)
Definition made (x : option (option blockhash)) : option blockhash := match x with Some b => b | None => None end.
(** blockhash_test.cc 34-41 *)
Definition dh := made (create_dictionary_hash sample_text).
(** blockhash_test.cc 34-41 *)
Definition th := made (create_target_hash sample_text 0).
Fixpoint added (bh : option blockhash) (l : list Z) : option blockhash :=
  match l with
  | [] => bh
  | i :: tl => added (match bh with Some b => add_all_blocks_through_index b i | None => None end) tl
  end.
(** blockhash_test.cc 577-595: FirstMatchingBlock, then NextMatchingBlock until it fails *)
(** blockhash_test.cc 577-595 *)
Fixpoint next_blocks (n : nat) (bh : blockhash) (b : Z) (block : list Z) : list Z :=
  match n with
  | O => []
  | S n' => match next_matching_block bh b block with
            | Some b' => b' :: (if b' =? -1 then [] else next_blocks n' bh b' block)
            | None => []
            end
  end.
Definition blocks (bh : option blockhash) (h : Z) (block : list Z) : option (list Z) :=
  match bh with
  | None => None
  | Some b => match first_matching_block b h block with
              | Some i => Some (i :: (if i =? -1 then [] else next_blocks 50 b i block))
              | None => None
              end
  end.

(* 394-503: left and right extension *)
Example matching_bytes :
  matching_left 0 search_string (at_ 16) search_string (at_ 16) = Some 0 /\
  matching_right 0 search_string (at_ 16) search_string (at_ 16) = Some 0 /\
  matching_left 1 search_string (at_ 16) search_string (at_ 16) = Some 1 /\
  matching_right 1 search_string (at_ 16) search_string (at_ 16) = Some 1 /\
  matching_left 1 search_string (at_ 16) search_string (at_ 9) = Some 0 /\
  matching_right 1 search_string (at_ 16) search_string (at_ 9 - 1) = Some 0 /\
  matching_left 159 search_string (at_ 16) search_string_altered (at_ 16) = Some 159 /\
  matching_left 161 search_string (at_ 16) search_string_altered (at_ 16) = Some 160 /\
  matching_right 126 search_string (at_ 16) search_string_altered (at_ 16) = Some 126 /\
  matching_right 128 search_string (at_ 16) search_string_altered (at_ 16) = Some 127.
Proof. run. Qed.
(* 541-595, 723-733, 760-762 *)
Example matching_blocks :
  blocks th (hash test_y 0) test_y = Some [-1] /\
  blocks dh (hash test_y 0) test_y = Some [7; -1] /\
  blocks dh (hash test_Qs 0) test_Qs = Some [-1] /\
  blocks dh (hash test_unaligned_e 0) test_unaligned_e = Some [-1] /\
  blocks dh (hash test_e 0) test_e = Some [2; 16; 21; 27; 35; 42; -1] /\
  blocks (made (create_dictionary_hash [])) (hash test_y 0) test_y = Some [-1] /\
  blocks dh 4210752250 (repeat 70 16) = Some [-1].
Proof. run. Qed.
(* 545-552, HashOneFindOne *)
Fixpoint one_by_one (n : nat) (i : Z) (bh : option blockhash) : option blockhash :=
  match n with
  | O => bh
  | S n' => one_by_one n' (i + 1) (match bh with Some b => add_one_index_hash b i (hash sample_text i) | None => None end)
  end.
Example hash_one_find_one : blocks (one_by_one 113 0 th) (hash test_y 0) test_y = Some [7; -1].
Proof. run. Qed.
(* 597-721: incremental adds *)
Example incremental_adds :
  blocks (added th [at_ 27]) (hash test_e 0) test_e = Some [2; 16; 21; -1] /\
  blocks (added th [at_ 2 + 1]) (hash test_e 0) test_e = Some [2; -1] /\
  blocks (added th [at_ 2 + 1; at_ 27 - 3]) (hash test_e 0) test_e = Some [2; 16; 21; -1] /\
  blocks (added th [at_ 2 + 1; at_ 27 - 3; at_ 27 + 1]) (hash test_e 0) test_e = Some [2; 16; 21; 27; -1] /\
  blocks (added th [at_ 27 + 1; at_ 27 - 3; at_ 2 + 1]) (hash test_e 0) test_e = Some [2; 16; 21; 27; -1] /\
  blocks (added th [zlen sample_text]) (hash test_e 0) test_e = Some [2; 16; 21; 27; 35; 42; -1].
Proof. run. Qed.

(** blockhash_test.cc 764-770 *)
Definition best (bh : option blockhash) (h : Z) (target : list Z) (cand : Z) : option match_ :=
  match bh with Some b => find_best_match b h target cand 0 (zlen target) no_match | None => None end.
(** blockhash_test.cc 771-775 *)
Definition is_match (size source target : Z) : option match_ := Some {| m_size := size; m_source := source; m_target := target |}.
(** blockhash_test.cc 845-860: four bytes changed, the hash value kept *)
Definition collision := match put search_string (at_ 16 + 12) 132 with
  | Some l => match put l (at_ 16 + 13) 241 with
    | Some l => match put l (at_ 16 + 14) 81 with
      | Some l => match put l (at_ 16 + 15) 0 with Some l => l | None => [] end
      | None => [] end
    | None => [] end
  | None => [] end.
(* 764-887: FindBestMatch *)
Example find_best_match_tests :
  best dh (hash search_string (at_ 16)) search_string (at_ 16) = is_match (11 * 16 + 15) (at_ 27) (at_ 9) /\
  best (made (bh_init sample_text 65536 true)) (hash search_string (at_ 16)) search_string (at_ 16) =
    is_match (11 * 16 + 15) (65536 + at_ 27) (at_ 9) /\
  best dh (hash search_to_end (at_ 13)) search_to_end (at_ 13) = is_match (7 * 16) (at_ 38) (at_ 12) /\
  best dh (hash search_to_beginning (at_ 8)) search_to_beginning (at_ 8) = is_match (7 * 16 + 15) 0 (at_ 4) /\
  best (made (create_dictionary_hash sample_many)) (hash search_many 0) search_many 0 = is_match (5 * 16) (at_ 4) 0 /\
  hash collision (at_ 16) = hash search_string (at_ 16) /\
  best dh (hash search_string (at_ 16)) collision (at_ 16) = Some no_match /\
  best dh (hash test_e 0) search_string (at_ 16) = Some no_match.
Proof. run. Qed.

(** ** vcdiffengine_test.cc *)

(** 326-335 EncodeText: Init, Encode with a writer *)
Definition engine_written (dict target : list Z) (il tm : bool) : option (list Z) :=
  match engine_init (new_engine dict) with
  | Some (en, true) =>
      match writer_init (new_writer il) (zlen dict), engine_encode en tm target with
      | Some (w1, true), Some (Some calls) =>
          match writer_calls w1 calls with
          | Some w2 => match writer_output w2 with Some (_, out) => Some out | None => None end
          | None => None
          end
      | Some (w1, true), Some None => Some []
      | _, _ => None
      end
  | _ => None
  end.

(** vcdiffengine_test.cc 359-363, 765-803: the texts, before spaces are put between the letters *)
Definition eng_dict := letters_apart 32 ([84; 104; 101; 32; 111; 110; 108; 121; 32; 116; 104; 105; 110; 103; 32; 119; 101; 32; 104; 97; 118; 101; 32; 116; 111; 32; 102; 101; 97; 114; 32; 105; 115; 32; 102; 101; 97; 114; 32; 105; 116; 115; 101; 108; 102]).
(** vcdiffengine_test.cc 359-363, 765-803 *)
Definition eng_target := letters_apart 32 ([87; 104; 97; 116; 32; 119; 101; 32; 104; 101; 97; 114; 32; 105; 115; 32; 102; 101; 97; 114; 115; 111; 109; 101]).
(** vcdiffengine_test.cc 359-363, 765-803 *)
Definition weasel_dict := letters_apart 8 ([60; 104; 116; 109; 108; 62; 10; 60; 104; 101; 97; 100; 62; 10; 60; 109; 101; 116; 97; 32; 99; 111; 110; 116; 101; 110; 116; 61; 34; 116; 101; 120; 116; 47; 104; 116; 109; 108; 59; 32; 99; 104; 97; 114; 115; 101; 116; 61; 73; 83; 79; 45; 56; 56; 53; 57; 45; 49; 34; 10; 104; 116; 116; 112; 45; 101; 113; 117; 105; 118; 61; 34; 99; 111; 110; 116; 101; 110; 116; 45; 116; 121; 112; 101; 34; 62; 10; 60; 116; 105; 116; 108; 101; 62; 65; 108; 108; 32; 97; 98; 111; 117; 116; 32; 119; 101; 97; 115; 101; 108; 115; 60; 47; 116; 105; 116; 108; 101; 62; 10; 60; 47; 104; 101; 97; 100; 62; 10; 60; 33; 45; 45; 32; 89; 111; 117; 32; 119; 105; 108; 108; 32; 110; 111; 116; 105; 99; 101; 32; 116; 104; 97; 116; 32; 116; 104; 101; 32; 119; 111; 114; 100; 32; 34; 119; 101; 97; 115; 101; 108; 34; 32; 109; 97; 121; 32; 98; 101; 32; 114; 101; 112; 108; 97; 99; 101; 100; 32; 119; 105; 116; 104; 32; 115; 111; 109; 101; 116; 104; 105; 110; 103; 32; 101; 108; 115; 101; 32; 45; 45; 62; 10; 60; 98; 111; 100; 121; 62; 10; 60; 104; 49; 62; 65; 108; 108; 32; 97; 98; 111; 117; 116; 32; 116; 104; 101; 32; 119; 101; 97; 115; 101; 108; 58; 32; 104; 105; 103; 104; 108; 121; 32; 99; 111; 109; 112; 114; 101; 115; 115; 105; 98; 108; 101; 32; 72; 84; 77; 76; 32; 116; 101; 120; 116; 60; 47; 104; 49; 62; 60; 117; 108; 62; 10; 60; 108; 105; 62; 68; 111; 110; 39; 116; 32; 108; 111; 111; 107; 32; 97; 32; 103; 105; 102; 116; 32; 119; 101; 97; 115; 101; 108; 32; 105; 110; 32; 105; 116; 115; 32; 109; 111; 117; 116; 104; 46; 60; 47; 108; 105; 62; 10; 60; 108; 105; 62; 84; 104; 105; 115; 32; 105; 116; 101; 109; 32; 109; 97; 107; 101; 115; 32; 115; 117; 114; 101; 32; 116; 104; 101; 32; 110; 101; 120; 116; 32; 111; 99; 99; 117; 114; 114; 101; 110; 99; 101; 32; 105; 115; 32; 102; 111; 117; 110; 100; 46; 60; 47; 108; 105; 62; 10; 60; 108; 105; 62; 68; 111; 110; 39; 116; 32; 99; 111; 117; 110; 116; 32; 121; 111; 117; 114; 32; 119; 101; 97; 115; 101; 108; 44; 32; 98; 101; 102; 111; 114; 101; 32; 105; 116; 39; 115; 32; 104; 97; 116; 99; 104; 101; 100; 46; 60; 47; 108; 105; 62; 10; 60; 47; 117; 108; 62; 10; 60; 98; 114; 62; 10; 60; 47; 98; 111; 100; 121; 62; 10; 60; 47; 104; 116; 109; 108; 62; 10]).
(** vcdiffengine_test.cc 359-363, 765-803 *)
Definition weasel_target := letters_apart 8 ([60; 104; 116; 109; 108; 62; 10; 60; 104; 101; 97; 100; 62; 10; 60; 109; 101; 116; 97; 32; 99; 111; 110; 116; 101; 110; 116; 61; 34; 116; 101; 120; 116; 47; 104; 116; 109; 108; 59; 32; 99; 104; 97; 114; 115; 101; 116; 61; 73; 83; 79; 45; 56; 56; 53; 57; 45; 49; 34; 10; 104; 116; 116; 112; 45; 101; 113; 117; 105; 118; 61; 34; 99; 111; 110; 116; 101; 110; 116; 45; 116; 121; 112; 101; 34; 62; 10; 60; 116; 105; 116; 108; 101; 62; 65; 108; 108; 32; 97; 98; 111; 117; 116; 32; 109; 111; 111; 110; 45; 112; 105; 101; 115; 60; 47; 116; 105; 116; 108; 101; 62; 10; 60; 47; 104; 101; 97; 100; 62; 10; 60; 33; 45; 45; 32; 89; 111; 117; 32; 119; 105; 108; 108; 32; 110; 111; 116; 105; 99; 101; 32; 116; 104; 97; 116; 32; 116; 104; 101; 32; 119; 111; 114; 100; 32; 34; 109; 111; 111; 110; 45; 112; 105; 101; 34; 32; 109; 97; 121; 32; 98; 101; 32; 114; 101; 112; 108; 97; 99; 101; 100; 32; 119; 105; 116; 104; 32; 115; 111; 109; 101; 116; 104; 105; 110; 103; 32; 101; 108; 115; 101; 32; 45; 45; 62; 10; 60; 98; 111; 100; 121; 62; 10; 60; 104; 49; 62; 65; 108; 108; 32; 97; 98; 111; 117; 116; 32; 116; 104; 101; 32; 109; 111; 111; 110; 45; 112; 105; 101; 58; 32; 104; 105; 103; 104; 108; 121; 32; 99; 111; 109; 112; 114; 101; 115; 115; 105; 98; 108; 101; 32; 72; 84; 77; 76; 32; 116; 101; 120; 116; 60; 47; 104; 49; 62; 60; 117; 108; 62; 10; 60; 108; 105; 62; 68; 111; 110; 39; 116; 32; 108; 111; 111; 107; 32; 97; 32; 103; 105; 102; 116; 32; 109; 111; 111; 110; 45; 112; 105; 101; 32; 105; 110; 32; 105; 116; 115; 32; 109; 111; 117; 116; 104; 46; 60; 47; 108; 105; 62; 10; 60; 108; 105; 62; 84; 104; 105; 115; 32; 105; 116; 101; 109; 32; 109; 97; 107; 101; 115; 32; 115; 117; 114; 101; 32; 116; 104; 101; 32; 110; 101; 120; 116; 32; 111; 99; 99; 117; 114; 114; 101; 110; 99; 101; 32; 105; 115; 32; 102; 111; 117; 110; 100; 46; 60; 47; 108; 105; 62; 10; 60; 108; 105; 62; 68; 111; 110; 39; 116; 32; 99; 111; 117; 110; 116; 32; 121; 111; 117; 114; 32; 109; 111; 111; 110; 45; 112; 105; 101; 44; 32; 98; 101; 102; 111; 114; 101; 32; 105; 116; 39; 115; 32; 104; 97; 116; 99; 104; 101; 100; 46; 60; 47; 108; 105; 62; 10; 60; 47; 117; 108; 62; 10; 60; 98; 114; 62; 10; 60; 47; 98; 111; 100; 121; 62; 10; 60; 47; 104; 116; 109; 108; 62; 10]).
Example EngineEncodeSmallerThanOneBlock : engine_written eng_dict [32; 32] false false = Some [1; 139; 32; 0; 8; 2; 0; 2; 1; 0; 32; 32; 3].
Proof. vm_compute; reflexivity. Qed.
Example EngineEncodeSmallerThanOneBlockInterleaved : engine_written eng_dict [32; 32] true false = Some [1; 139; 32; 0; 8; 2; 0; 0; 3; 0; 3; 32; 32].
Proof. vm_compute; reflexivity. Qed.
(** The longer tests are run when this file is compiled and leave no theorem behind, as a checker
    without virtual machine needs more than a minute for each. *)
(* EngineEncodeSampleText *)
Check (ltac:(vm_compute; reflexivity) : engine_written eng_dict eng_target false false = Some [1; 139; 32; 0; 67; 134; 0; 0; 35; 17; 9; 32; 32; 32; 32; 32; 32; 32; 32; 32; 32; 32; 32; 32; 32; 32; 32; 32; 32; 32; 32; 32; 32; 32; 32; 32; 32; 32; 32; 32; 32; 32; 87; 116; 115; 109; 1; 32; 19; 95; 2; 19; 129; 63; 51; 130; 96; 2; 19; 63; 2; 19; 32; 132; 64; 131; 64; 130; 63; 129; 0; 64]).
(* EngineEncodeSampleTextInterleaved *)
Check (ltac:(vm_compute; reflexivity) : engine_written eng_dict eng_target true false = Some [1; 139; 32; 0; 67; 134; 0; 0; 0; 61; 0; 1; 32; 32; 32; 32; 32; 32; 32; 32; 32; 32; 32; 32; 32; 32; 32; 32; 32; 32; 32; 32; 32; 32; 32; 32; 32; 32; 32; 32; 32; 32; 32; 32; 87; 19; 95; 132; 64; 2; 116; 19; 129; 63; 131; 64; 51; 130; 96; 130; 63; 2; 115; 19; 63; 129; 0; 2; 109; 19; 32; 64]).
(* EngineEncodeSampleTextWithTargetMatching *)
Check (ltac:(vm_compute; reflexivity) : engine_written eng_dict eng_target false true = Some [1; 139; 32; 0; 67; 134; 0; 0; 35; 17; 9; 32; 32; 32; 32; 32; 32; 32; 32; 32; 32; 32; 32; 32; 32; 32; 32; 32; 32; 32; 32; 32; 32; 32; 32; 32; 32; 32; 32; 32; 32; 32; 87; 116; 115; 109; 1; 32; 19; 95; 2; 19; 129; 63; 51; 130; 96; 2; 19; 63; 2; 19; 32; 132; 64; 131; 64; 130; 63; 129; 0; 64]).
(* EngineEncodeSampleTextInterleavedWithTargetMatching *)
Check (ltac:(vm_compute; reflexivity) : engine_written eng_dict eng_target true true = Some [1; 139; 32; 0; 67; 134; 0; 0; 0; 61; 0; 1; 32; 32; 32; 32; 32; 32; 32; 32; 32; 32; 32; 32; 32; 32; 32; 32; 32; 32; 32; 32; 32; 32; 32; 32; 32; 32; 32; 32; 32; 32; 32; 32; 87; 19; 95; 132; 64; 2; 116; 19; 129; 63; 131; 64; 51; 130; 96; 130; 63; 2; 115; 19; 63; 129; 0; 2; 109; 19; 32; 64]).
(* EngineEncodeCompressibleNoTargetMatching *)
Check (ltac:(vm_compute; reflexivity) : engine_written weasel_dict weasel_target true false = Some [1; 157; 80; 0; 130; 75; 158; 32; 0; 0; 130; 68; 0; 115; 134; 71; 0; 1; 57; 109; 32; 32; 32; 32; 32; 32; 32; 111; 32; 32; 32; 32; 32; 32; 32; 111; 32; 32; 32; 32; 32; 32; 32; 110; 32; 32; 32; 32; 32; 32; 32; 45; 32; 32; 32; 32; 32; 32; 32; 112; 32; 32; 32; 32; 32; 32; 32; 105; 32; 32; 32; 32; 32; 32; 32; 101; 19; 131; 55; 134; 112; 1; 57; 109; 32; 32; 32; 32; 32; 32; 32; 111; 32; 32; 32; 32; 32; 32; 32; 111; 32; 32; 32; 32; 32; 32; 32; 110; 32; 32; 32; 32; 32; 32; 32; 45; 32; 32; 32; 32; 32; 32; 32; 112; 32; 32; 32; 32; 32; 32; 32; 105; 32; 32; 32; 32; 32; 32; 32; 101; 67; 132; 31; 131; 96; 1; 57; 109; 32; 32; 32; 32; 32; 32; 32; 111; 32; 32; 32; 32; 32; 32; 32; 111; 32; 32; 32; 32; 32; 32; 32; 110; 32; 32; 32; 32; 32; 32; 32; 45; 32; 32; 32; 32; 32; 32; 32; 112; 32; 32; 32; 32; 32; 32; 32; 105; 32; 32; 32; 32; 32; 32; 32; 101; 83; 131; 127; 132; 72; 1; 57; 109; 32; 32; 32; 32; 32; 32; 32; 111; 32; 32; 32; 32; 32; 32; 32; 111; 32; 32; 32; 32; 32; 32; 32; 110; 32; 32; 32; 32; 32; 32; 32; 45; 32; 32; 32; 32; 32; 32; 32; 112; 32; 32; 32; 32; 32; 32; 32; 105; 32; 32; 32; 32; 32; 32; 32; 101; 99; 134; 47; 132; 40; 1; 57; 109; 32; 32; 32; 32; 32; 32; 32; 111; 32; 32; 32; 32; 32; 32; 32; 111; 32; 32; 32; 32; 32; 32; 32; 110; 32; 32; 32; 32; 32; 32; 32; 45; 32; 32; 32; 32; 32; 32; 32; 112; 32; 32; 32; 32; 32; 32; 32; 105; 32; 32; 32; 32; 32; 32; 32; 101; 51; 131; 56; 134; 88]).
(* EngineEncodeCompressibleWithTargetMatching *)
Check (ltac:(vm_compute; reflexivity) : engine_written weasel_dict weasel_target true true = Some [1; 157; 80; 0; 108; 158; 32; 0; 0; 102; 0; 115; 134; 71; 0; 1; 57; 109; 32; 32; 32; 32; 32; 32; 32; 111; 32; 32; 32; 32; 32; 32; 32; 111; 32; 32; 32; 32; 32; 32; 32; 110; 32; 32; 32; 32; 32; 32; 32; 45; 32; 32; 32; 32; 32; 32; 32; 112; 32; 32; 32; 32; 32; 32; 32; 105; 32; 32; 32; 32; 32; 32; 32; 101; 19; 131; 55; 134; 112; 35; 64; 131; 112; 67; 132; 24; 131; 103; 115; 64; 23; 99; 131; 120; 132; 72; 35; 64; 132; 56; 67; 134; 40; 132; 40; 131; 64; 95; 99; 131; 49; 134; 88]).
