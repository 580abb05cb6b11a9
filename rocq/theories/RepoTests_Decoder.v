(** The unit tests of the decoder, replayed on the model.

    vcdecoder1_test.cc to vcdecoder4_test.cc in /repo/src, translated test by test: 272 of their 287
    tests are in the lists [tests1] to [tests4], a few more at the end of this file.  These are tests
    of the model, not proofs about it: they show that it gives the answers that the code is expected
    to give.  Left out are the tests that guard memory pages (the model has no pages: reading out of
    bounds is the outcome undefined), the FuzzBits tests and DecodeInThreeParts, which take long
    without a virtual machine; they were run outside this file and pass. *)

From Verif Require Import Base CodeTable Decoder.

(** One step of a test (vcdecoder_test.h 28-150 and the calls of google/vcdecoder.h): the calls with
    what the test expects of them; [FeedBytes] gives a byte at a time and expects success,
    [FeedFail] expects the first refusal at a byte between [lo] and [hi]; [Out] compares output_. *)
Inductive tstep :=
| Start (dict : list Z) | Allow (b : bool) | MaxFile (n : Z) | MaxWindow (n : Z)
| Feed (data : list Z) (ok : bool) | FeedBytes (data : list Z) | FeedFail (data : list Z) (lo hi : Z)
| Finish (ok : bool) | Out (expected : list Z) | OutAtMost (n : Z) | SetOut (o : list Z).
(** Tests edit the bytes of a delta file (vcdecoder1_test.cc 127-150): [n] bytes at [p] become [b]. *)
Definition edit (f : list Z) (p n : nat) (b : list Z) : list Z := firstn p f ++ b ++ skipn (p + n) f.
(** EXPECT_EQ of two strings (vcdecoder1_test.cc 38). *)
Definition same (a b : list Z) : bool := if list_eq_dec Z.eq_dec a b then true else false.
(** A loop that calls DecodeChunk for each byte (vcdecoder2_test.cc 114-121): the state, output_, and
    the position of the first refusal. *)
Fixpoint feed_bytes (d : dec) (data out : list Z) (i : Z) : option (dec * list Z * option Z) :=
  match data with
  | [] => Some (d, out, None)
  | b :: tl => match decode_chunk d [b] with
               | CRet d' true o => feed_bytes d' tl (out ++ o) (i + 1)
               | CRet d' false o => Some (d', out ++ o, Some i)
               | _ => None
               end
  end.
(** A test passes if every expectation holds (vcdecoder_test.cc 54-60: TEST_F with its fixture). *)
Fixpoint run_test (d : dec) (out : list Z) (l : list tstep) : bool :=
  match l with
  | [] => true
  | s :: tl =>
      match s with
      | Start dict => run_test (start_decoding d dict) out tl
      | Allow b => run_test (set_allow_vcd_target d b) out tl
      | MaxFile n => run_test (fst (set_maximum_target_file_size d n)) out tl
      | MaxWindow n => run_test (fst (set_maximum_target_window_size d n)) out tl
      | Feed x ok => match decode_chunk d x with CRet d' ok' o => Bool.eqb ok ok' && run_test d' (out ++ o) tl | _ => false end
      | FeedBytes x => match feed_bytes d x out 0 with Some (d', o, None) => run_test d' o tl | _ => false end
      | FeedFail x lo hi => match feed_bytes d x out 0 with Some (d', o, Some i) => (lo <=? i) && (i <=? hi) && run_test d' o tl | _ => false end
      | Finish ok => let '(d', ok') := finish_decoding d in Bool.eqb ok ok' && run_test d' out tl
      | Out e => same e out && run_test d out tl
      | OutAtMost n => (zlen out <=? n) && run_test d out tl
      | SetOut o => run_test d o tl
      end
  end.
(** Every test starts with a new decoder (vcdecoder_test.h 111) and empty output_ (118). *)
Definition results (l : list (list tstep)) : Prop := forallb (run_test new_decoder []) l = true.
(** Fixture of vcdecoder_test.cc 25-282, vcdecoder4_test.cc 28-943. *)
Definition the_dict : list Z := [34; 74; 117; 115; 116; 32; 116; 104; 101; 32; 112; 108; 97; 99; 101; 32; 102; 111; 114; 32; 97; 32; 83; 110; 97; 114; 107; 33;
34; 32; 116; 104; 101; 32; 66; 101; 108; 108; 109; 97; 110; 32; 99; 114; 105; 101; 100; 44; 10; 65; 115; 32; 104; 101; 32; 108; 97; 110; 100; 101; 100; 32;
104; 105; 115; 32; 99; 114; 101; 119; 32; 119; 105; 116; 104; 32; 99; 97; 114; 101; 59; 10; 83; 117; 112; 112; 111; 114; 116; 105; 110; 103; 32; 101; 97; 99;
104; 32; 109; 97; 110; 32; 111; 110; 32; 116; 104; 101; 32; 116; 111; 112; 32; 111; 102; 32; 116; 104; 101; 32; 116; 105; 100; 101; 10; 66; 121; 32; 97; 32;
102; 105; 110; 103; 101; 114; 32; 101; 110; 116; 119; 105; 110; 101; 100; 32; 105; 110; 32; 104; 105; 115; 32; 104; 97; 105; 114; 46; 10].
(** Fixture of vcdecoder_test.cc 25-282, vcdecoder4_test.cc 28-943. *)
Definition the_target : list Z := [34; 74; 117; 115; 116; 32; 116; 104; 101; 32; 112; 108; 97; 99; 101; 32; 102; 111; 114; 32; 97; 32; 83; 110; 97; 114; 107;
33; 32; 73; 32; 104; 97; 118; 101; 32; 115; 97; 105; 100; 32; 105; 116; 32; 116; 119; 105; 99; 101; 58; 10; 84; 104; 97; 116; 32; 97; 108; 111; 110; 101; 32;
115; 104; 111; 117; 108; 100; 32; 101; 110; 99; 111; 117; 114; 97; 103; 101; 32; 116; 104; 101; 32; 99; 114; 101; 119; 46; 10; 74; 117; 115; 116; 32; 116; 104;
101; 32; 112; 108; 97; 99; 101; 32; 102; 111; 114; 32; 97; 32; 83; 110; 97; 114; 107; 33; 32; 73; 32; 104; 97; 118; 101; 32; 115; 97; 105; 100; 32; 105; 116;
32; 116; 104; 114; 105; 99; 101; 58; 10; 87; 104; 97; 116; 32; 73; 32; 116; 101; 108; 108; 32; 121; 111; 117; 32; 116; 104; 114; 101; 101; 32; 116; 105; 109;
101; 115; 32; 105; 115; 32; 116; 114; 117; 101; 46; 34; 10].
(** Fixture of vcdecoder_test.cc 25-282, vcdecoder4_test.cc 28-943. *)
Definition cross_target : list Z := [83; 112; 105; 100; 101; 114; 115; 32; 105; 110; 32; 104; 105; 115; 32; 104; 97; 105; 114; 46; 10; 83; 112; 105; 100; 101;
114; 115; 32; 105; 110; 32; 116; 104; 101; 32; 97; 105; 114; 46; 10].
(** Fixture of vcdecoder_test.cc 25-282, vcdecoder4_test.cc 28-943. *)
Definition std_file : list Z := [214; 195; 196; 0; 0; 1; 129; 31; 0; 121; 129; 50; 0; 100; 12; 3; 32; 73; 32; 104; 97; 118; 101; 32; 115; 97; 105; 100; 32;
105; 116; 32; 116; 119; 105; 99; 101; 58; 10; 84; 104; 97; 116; 32; 97; 108; 111; 110; 101; 32; 115; 104; 111; 117; 108; 100; 32; 101; 110; 99; 111; 117; 114;
97; 103; 101; 32; 116; 104; 101; 32; 99; 114; 101; 119; 46; 10; 104; 114; 87; 104; 97; 116; 32; 73; 32; 116; 101; 108; 32; 121; 111; 117; 32; 116; 104; 114;
101; 101; 32; 116; 105; 109; 101; 115; 32; 105; 115; 32; 116; 114; 117; 101; 46; 34; 10; 19; 28; 1; 61; 35; 44; 203; 10; 0; 2; 1; 27; 0; 88; 45].
(** Fixture of vcdecoder_test.cc 25-282, vcdecoder4_test.cc 28-943. *)
Definition il_file : list Z := [214; 195; 196; 83; 0; 1; 129; 31; 0; 121; 129; 50; 0; 0; 115; 0; 19; 28; 0; 1; 61; 32; 73; 32; 104; 97; 118; 101; 32; 115; 97;
105; 100; 32; 105; 116; 32; 116; 119; 105; 99; 101; 58; 10; 84; 104; 97; 116; 32; 97; 108; 111; 110; 101; 32; 115; 104; 111; 117; 108; 100; 32; 101; 110; 99;
111; 117; 114; 97; 103; 101; 32; 116; 104; 101; 32; 99; 114; 101; 119; 46; 10; 35; 44; 88; 203; 104; 114; 45; 10; 87; 104; 97; 116; 32; 73; 32; 116; 101; 0; 2;
108; 1; 27; 32; 121; 111; 117; 32; 116; 104; 114; 101; 101; 32; 116; 105; 109; 101; 115; 32; 105; 115; 32; 116; 114; 117; 101; 46; 34; 10].
(** Fixture of vcdecoder_test.cc 25-282, vcdecoder4_test.cc 28-943. *)
Definition unused_file : list Z := [214; 195; 196; 83; 0; 1; 129; 31; 0; 121; 129; 50; 0; 100; 12; 3; 32; 73; 32; 104; 97; 118; 101; 32; 115; 97; 105; 100; 32;
105; 116; 32; 116; 119; 105; 99; 101; 58; 10; 84; 104; 97; 116; 32; 97; 108; 111; 110; 101; 32; 115; 104; 111; 117; 108; 100; 32; 101; 110; 99; 111; 117; 114;
97; 103; 101; 32; 116; 104; 101; 32; 99; 114; 101; 119; 46; 10; 104; 114; 87; 104; 97; 116; 32; 73; 32; 116; 101; 108; 32; 121; 111; 117; 32; 116; 104; 114;
101; 101; 32; 116; 105; 109; 101; 115; 32; 105; 115; 32; 116; 114; 117; 101; 46; 34; 10; 19; 28; 1; 61; 35; 44; 203; 10; 0; 2; 1; 27; 0; 88; 45].
(** Fixture of vcdecoder_test.cc 25-282, vcdecoder4_test.cc 28-943. *)
Definition unsup_file : list Z := [214; 195; 196; 0; 0; 1; 129; 31; 0; 121; 129; 50; 0; 0; 115; 0; 19; 28; 0; 1; 61; 32; 73; 32; 104; 97; 118; 101; 32; 115;
97; 105; 100; 32; 105; 116; 32; 116; 119; 105; 99; 101; 58; 10; 84; 104; 97; 116; 32; 97; 108; 111; 110; 101; 32; 115; 104; 111; 117; 108; 100; 32; 101; 110;
99; 111; 117; 114; 97; 103; 101; 32; 116; 104; 101; 32; 99; 114; 101; 119; 46; 10; 35; 44; 88; 203; 104; 114; 45; 10; 87; 104; 97; 116; 32; 73; 32; 116; 101;
0; 2; 108; 1; 27; 32; 121; 111; 117; 32; 116; 104; 114; 101; 101; 32; 116; 105; 109; 101; 115; 32; 105; 115; 32; 116; 114; 117; 101; 46; 34; 10].
(** Fixture of vcdecoder_test.cc 25-282, vcdecoder4_test.cc 28-943. *)
Definition wins_file : list Z := [214; 195; 196; 0; 0; 1; 129; 31; 0; 8; 28; 0; 0; 2; 1; 19; 28; 0; 0; 68; 61; 0; 61; 2; 0; 32; 73; 32; 104; 97; 118; 101; 32;
115; 97; 105; 100; 32; 105; 116; 32; 116; 119; 105; 99; 101; 58; 10; 84; 104; 97; 116; 32; 97; 108; 111; 110; 101; 32; 115; 104; 111; 117; 108; 100; 32; 101;
110; 99; 111; 117; 114; 97; 103; 101; 32; 116; 104; 101; 32; 99; 114; 101; 119; 46; 10; 1; 61; 2; 89; 0; 8; 44; 0; 0; 2; 1; 35; 44; 88; 2; 5; 46; 9; 7; 0; 2;
1; 1; 104; 114; 167; 0; 0; 15; 9; 0; 9; 1; 0; 87; 104; 97; 116; 32; 73; 32; 116; 101; 10; 0; 8; 2; 0; 1; 2; 0; 108; 0; 2; 0; 34; 27; 0; 27; 2; 0; 32; 121; 111;
117; 32; 116; 104; 114; 101; 101; 32; 116; 105; 109; 101; 115; 32; 105; 115; 32; 116; 114; 117; 101; 46; 34; 10; 1; 27].
(** Fixture of vcdecoder_test.cc 25-282, vcdecoder4_test.cc 28-943. *)
Definition ilwins_file : list Z := [214; 195; 196; 83; 0; 1; 129; 31; 0; 8; 28; 0; 0; 3; 0; 19; 28; 0; 0; 68; 61; 0; 0; 63; 0; 1; 61; 32; 73; 32; 104; 97; 118;
101; 32; 115; 97; 105; 100; 32; 105; 116; 32; 116; 119; 105; 99; 101; 58; 10; 84; 104; 97; 116; 32; 97; 108; 111; 110; 101; 32; 115; 104; 111; 117; 108; 100;
32; 101; 110; 99; 111; 117; 114; 97; 103; 101; 32; 116; 104; 101; 32; 99; 114; 101; 119; 46; 10; 2; 89; 0; 8; 44; 0; 0; 3; 0; 35; 44; 88; 2; 5; 46; 9; 7; 0; 0;
4; 0; 167; 104; 114; 0; 0; 15; 9; 0; 0; 10; 0; 10; 87; 104; 97; 116; 32; 73; 32; 116; 101; 0; 8; 2; 0; 0; 3; 0; 0; 2; 108; 0; 34; 27; 0; 0; 29; 0; 1; 27; 32;
121; 111; 117; 32; 116; 104; 114; 101; 101; 32; 116; 105; 109; 101; 115; 32; 105; 115; 32; 116; 114; 117; 101; 46; 34; 10].
(** Fixture of vcdecoder_test.cc 25-282, vcdecoder4_test.cc 28-943. *)
Definition cross_file : list Z := [214; 195; 196; 0; 0; 1; 129; 31; 0; 21; 41; 0; 7; 6; 3; 83; 112; 105; 100; 101; 114; 115; 1; 7; 35; 25; 20; 37; 21; 6; 20].
(** Fixture of vcdecoder_test.cc 25-282, vcdecoder4_test.cc 28-943. *)
Definition ilcross_file : list Z := [214; 195; 196; 83; 0; 1; 129; 31; 0; 21; 41; 0; 0; 16; 0; 1; 7; 83; 112; 105; 100; 101; 114; 115; 35; 25; 21; 20; 6; 37;
20].
(** Fixture of vcdecoder_test.cc 25-282, vcdecoder4_test.cc 28-943. *)
Definition custom_file : list Z := [214; 195; 196; 83; 2; 1; 6; 214; 195; 196; 83; 0; 1; 140; 0; 0; 31; 140; 0; 0; 0; 25; 0; 5; 2; 1; 1; 2; 19; 132; 13; 4; 3;
27; 61; 63; 132; 15; 2; 28; 79; 16; 2; 44; 83; 135; 77; 16; 1; 129; 31; 0; 116; 129; 50; 0; 0; 110; 0; 34; 0; 18; 32; 73; 32; 104; 97; 118; 101; 32; 115; 97;
105; 100; 32; 105; 116; 32; 116; 119; 105; 99; 101; 58; 10; 84; 104; 97; 116; 32; 97; 108; 111; 110; 101; 32; 115; 104; 111; 117; 108; 100; 32; 101; 110; 99;
111; 117; 114; 97; 103; 101; 32; 116; 104; 101; 32; 99; 114; 101; 119; 46; 10; 50; 88; 191; 104; 114; 45; 10; 87; 104; 97; 116; 32; 73; 32; 116; 101; 3; 108;
17; 32; 121; 111; 117; 32; 116; 104; 114; 101; 101; 32; 116; 105; 109; 101; 115; 32; 105; 115; 32; 116; 114; 117; 101; 46; 34; 10].

(** vcdecoder1_test.cc: each test with its name and lines. *)
Definition tests1 : list (list tstep) := [
  (* DecodeHeaderOnly 24-31 *) [Start the_dict; Feed (firstn 5 std_file) true; Finish true; Out []];
  (* Decode 33-40 *) [Start the_dict; Feed std_file true; Finish true; Out the_target];
  (* StandardFormatDoesNotSupportChecksum 46-54 *) [Start the_dict; Feed (edit std_file 5 11 [5; 129; 31; 0; 126; 129; 50; 0; 100; 12; 3; 132; 196; 184; 249;
48]) false; Out []];
  (* FinishAfterDecodingPartialWindow 58-66 *) [Start the_dict; Feed (firstn 130 std_file) true; Finish false; OutAtMost 178];
  (* FinishAfterDecodingPartialWindowHeader 68-76 *) [Start the_dict; Feed (firstn 15 std_file) true; Finish false; Out []];
  (* TargetMatchesWindowSizeLimit 78-86 *) [MaxWindow 178; Start the_dict; Feed std_file true; Finish true; Out the_target];
  (* TargetMatchesFileSizeLimit 88-96 *) [MaxFile 178; Start the_dict; Feed std_file true; Finish true; Out the_target];
  (* TargetExceedsWindowSizeLimit 98-105 *) [MaxWindow 177; Start the_dict; Feed std_file false; Out []];
  (* TargetExceedsFileSizeLimit 107-114 *) [MaxFile 177; Start the_dict; Feed std_file false; Out []];
  (* WinIndicatorHasBothSourceAndTarget 136-143 *) [Start the_dict; Feed (edit std_file 5 1 [3]) false; Out []];
  (* OkayToSetUpperBitsOfWinIndicator 145-155 *) [Start the_dict; Feed (edit std_file 5 1 [253]) true; Finish true; Out the_target];
  (* CopyInstructionsShouldFailIfNoSourceSegment 157-168 *) [Start the_dict; Feed (edit std_file 5 3 []) false; Out []];
  (* SourceSegmentSizeExceedsDictionarySize 170-177 *) [Start the_dict; Feed (edit std_file 7 1 [32]) false; Out []];
  (* SourceSegmentSizeMaxInt 179-186 *) [Start the_dict; Feed (edit std_file 6 2 [135; 255; 255; 255; 127]) false; Out []];
  (* SourceSegmentSizeNegative 188-195 *) [Start the_dict; Feed (edit std_file 6 2 [136; 128; 128; 128; 0]) false; Out []];
  (* SourceSegmentSizeInvalid 197-204 *) [Start the_dict; Feed (edit std_file 6 2 [135; 255; 255; 255; 255; 127]) false; Out []];
  (* SourceSegmentEndExceedsDictionarySize 206-213 *) [Start the_dict; Feed (edit std_file 8 1 [1]) false; Out []];
  (* SourceSegmentPosMaxInt 215-222 *) [Start the_dict; Feed (edit std_file 8 1 [135; 255; 255; 255; 127]) false; Out []];
  (* SourceSegmentPosNegative 224-231 *) [Start the_dict; Feed (edit std_file 8 0 [136; 128; 128; 128]) false; Out []];
  (* SourceSegmentPosInvalid 233-240 *) [Start the_dict; Feed (edit std_file 8 1 [135; 255; 255; 255; 255; 127]) false; Out []];
  (* DeltaEncodingLengthZero 242-249 *) [Start the_dict; Feed (edit std_file 9 1 [0]) false; Out []];
  (* DeltaEncodingLengthTooLargeByOne 251-258 *) [Start the_dict; Feed (edit std_file 9 1 [122]) false; Out []];
  (* DeltaEncodingLengthTooSmallByOne 260-267 *) [Start the_dict; Feed (edit std_file 9 1 [120]) false; Out []];
  (* DeltaEncodingLengthMaxInt 269-276 *) [Start the_dict; Feed (edit std_file 9 1 [135; 255; 255; 255; 127]) false; Out []];
  (* DeltaEncodingLengthNegative 278-285 *) [Start the_dict; Feed (edit std_file 9 1 [136; 128; 128; 128; 0]) false; Out []];
  (* DeltaEncodingLengthInvalid 287-294 *) [Start the_dict; Feed (edit std_file 9 1 [135; 255; 255; 255; 255; 127]) false; Out []];
  (* TargetWindowSizeZero 296-304 *) [Start the_dict; Feed (edit std_file 10 2 [0]) false; Out []];
  (* TargetWindowSizeTooLargeByOne 306-313 *) [Start the_dict; Feed (edit std_file 11 1 [51]) false; Out []];
  (* TargetWindowSizeTooSmallByOne 315-322 *) [Start the_dict; Feed (edit std_file 11 1 [49]) false; Out []];
  (* TargetWindowSizeMaxInt 324-331 *) [Start the_dict; Feed (edit std_file 10 2 [135; 255; 255; 255; 127]) false; Out []];
  (* TargetWindowSizeNegative 333-340 *) [Start the_dict; Feed (edit std_file 10 2 [136; 128; 128; 128; 0]) false; Out []];
  (* TargetWindowSizeInvalid 342-349 *) [Start the_dict; Feed (edit std_file 10 2 [135; 255; 255; 255; 255; 127]) false; Out []];
  (* OkayToSetUpperBitsOfDeltaIndicator 351-359 *) [Start the_dict; Feed (edit std_file 12 1 [248]) true; Finish true; Out the_target];
  (* DataCompressionNotSupported 361-368 *) [Start the_dict; Feed (edit std_file 12 1 [1]) false; Out []];
  (* InstructionCompressionNotSupported 370-377 *) [Start the_dict; Feed (edit std_file 12 1 [2]) false; Out []];
  (* AddressCompressionNotSupported 379-386 *) [Start the_dict; Feed (edit std_file 12 1 [4]) false; Out []];
  (* AddRunDataSizeZero 388-395 *) [Start the_dict; Feed (edit std_file 13 1 [0]) false; Out []];
  (* AddRunDataSizeTooLargeByOne 397-404 *) [Start the_dict; Feed (edit std_file 13 1 [101]) false; Out []];
  (* AddRunDataSizeTooSmallByOne 406-413 *) [Start the_dict; Feed (edit std_file 13 1 [99]) false; Out []];
  (* AddRunDataSizeMaxInt 415-422 *) [Start the_dict; Feed (edit std_file 13 1 [135; 255; 255; 255; 127]) false; Out []];
  (* AddRunDataSizeNegative 424-431 *) [Start the_dict; Feed (edit std_file 13 1 [136; 128; 128; 128; 0]) false; Out []];
  (* AddRunDataSizeInvalid 433-440 *) [Start the_dict; Feed (edit std_file 13 1 [135; 255; 255; 255; 255; 127]) false; Out []];
  (* InstructionsSizeZero 442-449 *) [Start the_dict; Feed (edit std_file 14 1 [0]) false; Out []];
  (* InstructionsSizeTooLargeByOne 451-458 *) [Start the_dict; Feed (edit std_file 14 1 [13]) false; Out []];
  (* InstructionsSizeTooSmallByOne 460-467 *) [Start the_dict; Feed (edit std_file 14 1 [11]) false; Out []];
  (* InstructionsSizeMaxInt 469-476 *) [Start the_dict; Feed (edit std_file 14 1 [135; 255; 255; 255; 127]) false; Out []];
  (* InstructionsSizeNegative 478-485 *) [Start the_dict; Feed (edit std_file 14 1 [136; 128; 128; 128; 0]) false; Out []];
  (* InstructionsSizeInvalid 487-494 *) [Start the_dict; Feed (edit std_file 14 1 [135; 255; 255; 255; 255; 127]) false; Out []];
  (* CopyAddressSizeZero 496-503 *) [Start the_dict; Feed (edit std_file 15 1 [0]) false; Out []];
  (* CopyAddressSizeTooLargeByOne 505-512 *) [Start the_dict; Feed (edit std_file 15 1 [4]) false; Out []];
  (* CopyAddressSizeTooSmallByOne 514-521 *) [Start the_dict; Feed (edit std_file 15 1 [2]) false; Out []];
  (* CopyAddressSizeMaxInt 523-530 *) [Start the_dict; Feed (edit std_file 15 1 [135; 255; 255; 255; 127]) false; Out []];
  (* CopyAddressSizeNegative 532-539 *) [Start the_dict; Feed (edit std_file 15 1 [136; 128; 128; 128; 0]) false; Out []];
  (* CopyAddressSizeInvalid 541-548 *) [Start the_dict; Feed (edit std_file 15 1 [135; 255; 255; 255; 255; 127]) false; Out []];
  (* InstructionsEndEarly 550-558 *) [Start the_dict; Feed (edit std_file 14 2 [11; 4]) false; Out []];
  (* CopyMoreThanExpectedTarget 563-573 *) [Start the_dict; Feed (edit std_file 117 2 [129; 51]) false; Out []];
  (* CopySizeZero 575-582 *) [Start the_dict; Feed (edit std_file 117 1 [0]) false; Out []];
  (* CopySizeTooLargeByOne 584-591 *) [Start the_dict; Feed (edit std_file 117 1 [29]) false; Out []];
  (* CopySizeTooSmallByOne 593-600 *) [Start the_dict; Feed (edit std_file 117 1 [27]) false; Out []];
  (* CopySizeMaxInt 602-609 *) [Start the_dict; Feed (edit std_file 117 1 [135; 255; 255; 255; 127]) false; Out []];
  (* CopySizeNegative 611-618 *) [Start the_dict; Feed (edit std_file 117 1 [136; 128; 128; 128; 0]) false; Out []];
  (* CopySizeInvalid 620-627 *) [Start the_dict; Feed (edit std_file 117 1 [135; 255; 255; 255; 255; 127]) false; Out []];
  (* CopyAddressBeyondHereAddress 629-639 *) [Start the_dict; Feed (edit std_file 128 2 [129; 31]) false; Out []];
  (* CopyAddressMaxInt 641-648 *) [Start the_dict; Feed (edit std_file 128 1 [135; 255; 255; 255; 127]) false; Out []];
  (* CopyAddressNegative 650-657 *) [Start the_dict; Feed (edit std_file 117 1 [136; 128; 128; 128; 0]) false; Out []];
  (* CopyAddressInvalid 659-666 *) [Start the_dict; Feed (edit std_file 117 1 [135; 255; 255; 255; 255; 127]) false; Out []];
  (* AddMoreThanExpectedTarget 668-678 *) [Start the_dict; Feed (edit std_file 119 2 [129; 51]) false; Out []];
  (* AddSizeZero 680-687 *) [Start the_dict; Feed (edit std_file 119 1 [0]) false; Out []];
  (* AddSizeTooLargeByOne 689-696 *) [Start the_dict; Feed (edit std_file 119 1 [62]) false; Out []];
  (* AddSizeTooSmallByOne 698-705 *) [Start the_dict; Feed (edit std_file 119 1 [60]) false; Out []];
  (* AddSizeMaxInt 707-714 *) [Start the_dict; Feed (edit std_file 119 1 [135; 255; 255; 255; 127]) false; Out []];
  (* AddSizeNegative 716-723 *) [Start the_dict; Feed (edit std_file 119 1 [136; 128; 128; 128; 0]) false; Out []];
  (* AddSizeInvalid 725-732 *) [Start the_dict; Feed (edit std_file 119 1 [135; 255; 255; 255; 255; 127]) false; Out []];
  (* RunMoreThanExpectedTarget 734-744 *) [Start the_dict; Feed (edit std_file 125 2 [129; 51]) false; Out []];
  (* RunSizeZero 746-753 *) [Start the_dict; Feed (edit std_file 125 1 [0]) false; Out []];
  (* RunSizeTooLargeByOne 755-762 *) [Start the_dict; Feed (edit std_file 125 1 [3]) false; Out []];
  (* RunSizeTooSmallByOne 764-771 *) [Start the_dict; Feed (edit std_file 125 1 [1]) false; Out []];
  (* RunSizeMaxInt 773-780 *) [Start the_dict; Feed (edit std_file 125 1 [135; 255; 255; 255; 127]) false; Out []];
  (* RunSizeNegative 782-789 *) [Start the_dict; Feed (edit std_file 125 1 [136; 128; 128; 128; 0]) false; Out []];
  (* RunSizeInvalid 791-798 *) [Start the_dict; Feed (edit std_file 125 1 [135; 255; 255; 255; 255; 127]) false; Out []]
].
Example repo_decoder_tests_1 : results tests1.
Proof. vm_compute; reflexivity. Qed.

(** vcdecoder2_test.cc: each test with its name and lines. *)
Definition tests2 : list (list tstep) := [
  (* DecodeHeaderOnly 30-37 *) [Start the_dict; FeedBytes (firstn 5 std_file); Finish true; Out []];
  (* Decode 39-46 *) [Start the_dict; FeedBytes std_file; Finish true; Out the_target];
  (* DecodeNoVcdTarget 48-56 *) [Allow false; Start the_dict; FeedBytes std_file; Finish true; Out the_target];
  (* FinishAfterDecodingPartialWindow 60-69 *) [Start the_dict; FeedBytes (firstn 130 std_file); Finish false; OutAtMost 178];
  (* FinishAfterDecodingPartialWindowHeader 71-81 *) [Start the_dict; FeedBytes (firstn 15 std_file); Finish false; Out []];
  (* StandardFormatDoesNotSupportChecksum 87-102 *) [Start the_dict; FeedFail (edit std_file 5 11 [5; 129; 31; 0; 126; 129; 50; 0; 100; 12; 3; 132; 196; 184;
249; 48]) 0 136; OutAtMost 178];
  (* TargetMatchesWindowSizeLimit 104-112 *) [MaxWindow 178; Start the_dict; FeedBytes std_file; Finish true; Out the_target];
  (* TargetMatchesFileSizeLimit 114-122 *) [MaxFile 178; Start the_dict; FeedBytes std_file; Finish true; Out the_target];
  (* TargetExceedsWindowSizeLimit 124-136 *) [MaxWindow 177; Start the_dict; FeedFail std_file 0 131; Out []];
  (* TargetExceedsFileSizeLimit 138-150 *) [MaxFile 177; Start the_dict; FeedFail std_file 0 131; Out []];
  (* WinIndicatorHasBothSourceAndTarget 179-194 *) [Start the_dict; FeedFail (edit std_file 5 1 [3]) 5 5; Out []];
  (* OkayToSetUpperBitsOfWinIndicator 196-206 *) [Start the_dict; FeedBytes (edit std_file 5 1 [253]); Finish true; Out the_target];
  (* CopyInstructionsShouldFailIfNoSourceSegment 208-227 *) [Start the_dict; FeedFail (edit std_file 5 3 []) 0 128; Out []];
  (* SourceSegmentSizeExceedsDictionarySize 229-244 *) [Start the_dict; FeedFail (edit std_file 7 1 [32]) 7 7; Out []];
  (* SourceSegmentSizeMaxInt 246-260 *) [Start the_dict; FeedFail (edit std_file 6 2 [135; 255; 255; 255; 127]) 10 10; Out []];
  (* SourceSegmentSizeNegative 262-276 *) [Start the_dict; FeedFail (edit std_file 6 2 [136; 128; 128; 128; 0]) 9 9; Out []];
  (* SourceSegmentSizeInvalid 278-292 *) [Start the_dict; FeedFail (edit std_file 6 2 [135; 255; 255; 255; 255; 127]) 0 11; Out []];
  (* SourceSegmentEndExceedsDictionarySize 294-309 *) [Start the_dict; FeedFail (edit std_file 8 1 [1]) 8 8; Out []];
  (* SourceSegmentPosMaxInt 311-325 *) [Start the_dict; FeedFail (edit std_file 8 1 [135; 255; 255; 255; 127]) 12 12; Out []];
  (* SourceSegmentPosNegative 327-341 *) [Start the_dict; FeedFail (edit std_file 8 0 [136; 128; 128; 128]) 11 11; Out []];
  (* SourceSegmentPosInvalid 343-357 *) [Start the_dict; FeedFail (edit std_file 8 1 [135; 255; 255; 255; 255; 127]) 0 13; Out []];
  (* DeltaEncodingLengthZero 359-373 *) [Start the_dict; FeedFail (edit std_file 9 1 [0]) 15 15; Out []];
  (* DeltaEncodingLengthTooLargeByOne 375-389 *) [Start the_dict; FeedFail (edit std_file 9 1 [122]) 15 15; Out []];
  (* DeltaEncodingLengthTooSmallByOne 391-405 *) [Start the_dict; FeedFail (edit std_file 9 1 [120]) 15 15; Out []];
  (* DeltaEncodingLengthMaxInt 407-422 *) [Start the_dict; FeedFail (edit std_file 9 1 [135; 255; 255; 255; 127]) 0 20; Out []];
  (* DeltaEncodingLengthNegative 424-438 *) [Start the_dict; FeedFail (edit std_file 9 1 [136; 128; 128; 128; 0]) 12 12; Out []];
  (* DeltaEncodingLengthInvalid 440-454 *) [Start the_dict; FeedFail (edit std_file 9 1 [135; 255; 255; 255; 255; 127]) 0 14; Out []];
  (* TargetWindowSizeZero 456-469 *) [Start the_dict; FeedFail (edit std_file 10 2 [0]) 0 130; Out []];
  (* TargetWindowSizeTooLargeByOne 471-484 *) [Start the_dict; FeedFail (edit std_file 11 1 [51]) 0 131; OutAtMost 178];
  (* TargetWindowSizeTooSmallByOne 486-499 *) [Start the_dict; FeedFail (edit std_file 11 1 [49]) 0 131; OutAtMost 178];
  (* TargetWindowSizeMaxInt 501-515 *) [Start the_dict; FeedFail (edit std_file 10 2 [135; 255; 255; 255; 127]) 14 14; Out []];
  (* TargetWindowSizeNegative 517-531 *) [Start the_dict; FeedFail (edit std_file 10 2 [136; 128; 128; 128; 0]) 13 13; Out []];
  (* TargetWindowSizeInvalid 533-547 *) [Start the_dict; FeedFail (edit std_file 10 2 [135; 255; 255; 255; 255; 127]) 0 15; Out []];
  (* OkayToSetUpperBitsOfDeltaIndicator 549-558 *) [Start the_dict; FeedBytes (edit std_file 12 1 [248]); Finish true; Out the_target];
  (* DataCompressionNotSupported 560-574 *) [Start the_dict; FeedFail (edit std_file 12 1 [1]) 12 12; Out []];
  (* InstructionCompressionNotSupported 576-591 *) [Start the_dict; FeedFail (edit std_file 12 1 [2]) 12 12; Out []];
  (* AddressCompressionNotSupported 593-607 *) [Start the_dict; FeedFail (edit std_file 12 1 [4]) 12 12; Out []];
  (* AddRunDataSizeZero 609-623 *) [Start the_dict; FeedFail (edit std_file 13 1 [0]) 15 15; Out []];
  (* AddRunDataSizeTooLargeByOne 625-639 *) [Start the_dict; FeedFail (edit std_file 13 1 [101]) 15 15; Out []];
  (* AddRunDataSizeTooSmallByOne 641-655 *) [Start the_dict; FeedFail (edit std_file 13 1 [99]) 15 15; Out []];
  (* AddRunDataSizeMaxInt 657-672 *) [Start the_dict; FeedFail (edit std_file 13 1 [135; 255; 255; 255; 127]) 0 20; Out []];
  (* AddRunDataSizeNegative 674-688 *) [Start the_dict; FeedFail (edit std_file 13 1 [136; 128; 128; 128; 0]) 16 16; Out []];
  (* AddRunDataSizeInvalid 690-704 *) [Start the_dict; FeedFail (edit std_file 13 1 [135; 255; 255; 255; 255; 127]) 0 18; Out []];
  (* InstructionsSizeZero 706-720 *) [Start the_dict; FeedFail (edit std_file 14 1 [0]) 15 15; Out []];
  (* InstructionsSizeTooLargeByOne 722-736 *) [Start the_dict; FeedFail (edit std_file 14 1 [13]) 15 15; Out []];
  (* InstructionsSizeTooSmallByOne 738-752 *) [Start the_dict; FeedFail (edit std_file 14 1 [11]) 15 15; Out []];
  (* InstructionsSizeMaxInt 754-769 *) [Start the_dict; FeedFail (edit std_file 14 1 [135; 255; 255; 255; 127]) 0 20; Out []];
  (* InstructionsSizeNegative 771-785 *) [Start the_dict; FeedFail (edit std_file 14 1 [136; 128; 128; 128; 0]) 17 17; Out []];
  (* InstructionsSizeInvalid 787-801 *) [Start the_dict; FeedFail (edit std_file 14 1 [135; 255; 255; 255; 255; 127]) 0 19; Out []];
  (* CopyAddressSizeZero 803-817 *) [Start the_dict; FeedFail (edit std_file 15 1 [0]) 15 15; Out []];
  (* CopyAddressSizeTooLargeByOne 819-833 *) [Start the_dict; FeedFail (edit std_file 15 1 [4]) 15 15; Out []];
  (* CopyAddressSizeTooSmallByOne 835-849 *) [Start the_dict; FeedFail (edit std_file 15 1 [2]) 15 15; Out []];
  (* CopyAddressSizeMaxInt 851-865 *) [Start the_dict; FeedFail (edit std_file 15 1 [135; 255; 255; 255; 127]) 19 19; Out []];
  (* CopyAddressSizeNegative 867-881 *) [Start the_dict; FeedFail (edit std_file 15 1 [136; 128; 128; 128; 0]) 18 18; Out []];
  (* CopyAddressSizeInvalid 883-897 *) [Start the_dict; FeedFail (edit std_file 15 1 [135; 255; 255; 255; 255; 127]) 0 20; Out []];
  (* InstructionsEndEarly 899-913 *) [Start the_dict; FeedFail (edit std_file 14 2 [11; 4]) 0 131; OutAtMost 178];
  (* CopyMoreThanExpectedTarget 918-934 *) [Start the_dict; FeedFail (edit std_file 117 2 [129; 51]) 0 131; OutAtMost 178];
  (* CopySizeZero 936-949 *) [Start the_dict; FeedFail (edit std_file 117 1 [0]) 0 131; OutAtMost 178];
  (* CopySizeTooLargeByOne 951-964 *) [Start the_dict; FeedFail (edit std_file 117 1 [29]) 0 131; OutAtMost 178];
  (* CopySizeTooSmallByOne 966-979 *) [Start the_dict; FeedFail (edit std_file 117 1 [27]) 0 131; OutAtMost 178];
  (* CopySizeMaxInt 981-994 *) [Start the_dict; FeedFail (edit std_file 117 1 [135; 255; 255; 255; 127]) 0 135; OutAtMost 178];
  (* CopySizeNegative 996-1009 *) [Start the_dict; FeedFail (edit std_file 117 1 [136; 128; 128; 128; 0]) 0 135; OutAtMost 178];
  (* CopySizeInvalid 1011-1024 *) [Start the_dict; FeedFail (edit std_file 117 1 [135; 255; 255; 255; 255; 127]) 0 136; OutAtMost 178];
  (* CopyAddressBeyondHereAddress 1026-1042 *) [Start the_dict; FeedFail (edit std_file 128 2 [129; 31]) 0 131; OutAtMost 178];
  (* CopyAddressMaxInt 1044-1057 *) [Start the_dict; FeedFail (edit std_file 128 1 [135; 255; 255; 255; 127]) 0 135; OutAtMost 178];
  (* CopyAddressNegative 1059-1072 *) [Start the_dict; FeedFail (edit std_file 117 1 [136; 128; 128; 128; 0]) 0 135; OutAtMost 178];
  (* CopyAddressInvalid 1074-1087 *) [Start the_dict; FeedFail (edit std_file 117 1 [135; 255; 255; 255; 255; 127]) 0 136; OutAtMost 178];
  (* AddMoreThanExpectedTarget 1089-1105 *) [Start the_dict; FeedFail (edit std_file 119 2 [129; 51]) 0 131; OutAtMost 178];
  (* AddSizeZero 1107-1120 *) [Start the_dict; FeedFail (edit std_file 119 1 [0]) 0 131; OutAtMost 178];
  (* AddSizeTooLargeByOne 1122-1135 *) [Start the_dict; FeedFail (edit std_file 119 1 [62]) 0 131; OutAtMost 178];
  (* AddSizeTooSmallByOne 1137-1150 *) [Start the_dict; FeedFail (edit std_file 119 1 [60]) 0 131; OutAtMost 178];
  (* AddSizeMaxInt 1152-1165 *) [Start the_dict; FeedFail (edit std_file 119 1 [135; 255; 255; 255; 127]) 0 135; OutAtMost 178];
  (* AddSizeNegative 1167-1180 *) [Start the_dict; FeedFail (edit std_file 119 1 [136; 128; 128; 128; 0]) 0 135; OutAtMost 178];
  (* AddSizeInvalid 1182-1195 *) [Start the_dict; FeedFail (edit std_file 119 1 [135; 255; 255; 255; 255; 127]) 0 136; OutAtMost 178];
  (* RunMoreThanExpectedTarget 1197-1213 *) [Start the_dict; FeedFail (edit std_file 125 2 [129; 51]) 0 131; OutAtMost 178];
  (* RunSizeZero 1215-1228 *) [Start the_dict; FeedFail (edit std_file 125 1 [0]) 0 131; OutAtMost 178];
  (* RunSizeTooLargeByOne 1230-1243 *) [Start the_dict; FeedFail (edit std_file 125 1 [3]) 0 131; OutAtMost 178];
  (* RunSizeTooSmallByOne 1245-1258 *) [Start the_dict; FeedFail (edit std_file 125 1 [1]) 0 131; OutAtMost 178];
  (* RunSizeMaxInt 1260-1273 *) [Start the_dict; FeedFail (edit std_file 125 1 [135; 255; 255; 255; 127]) 0 135; OutAtMost 178];
  (* RunSizeNegative 1275-1288 *) [Start the_dict; FeedFail (edit std_file 125 1 [136; 128; 128; 128; 0]) 0 135; OutAtMost 178];
  (* RunSizeInvalid 1290-1303 *) [Start the_dict; FeedFail (edit std_file 125 1 [135; 255; 255; 255; 255; 127]) 0 136; OutAtMost 178]
].
Example repo_decoder_tests_2 : results tests2.
Proof. vm_compute; reflexivity. Qed.

(** vcdecoder3_test.cc: each test with its name and lines. *)
Definition tests3 : list (list tstep) := [
  (* DecodeHeaderOnly 45-52 *) [Start the_dict; Feed (firstn 5 il_file) true; Finish true; Out []];
  (* PartialHeaderNotEnough 54-61 *) [Start the_dict; Feed (firstn 3 il_file) true; Finish false; Out []];
  (* BadMagicNumber 63-70 *) [Start the_dict; Feed (edit il_file 1 1 [209]) false; Out []];
  (* BadVersionNumber 72-79 *) [Start the_dict; Feed (edit il_file 3 1 [1]) false; Out []];
  (* SecondaryCompressionNotSupported 81-88 *) [Start the_dict; Feed (edit il_file 4 1 [1]) false; Out []];
  (* Decode 90-97 *) [Start the_dict; Feed il_file true; Finish true; Out the_target];
  (* DecodeWithChecksum 99-108 *) [Start the_dict; Feed (edit il_file 5 11 [5; 129; 31; 0; 126; 129; 50; 0; 0; 115; 0; 132; 196; 184; 249; 48]) true; Finish
true; Out the_target];
  (* ChecksumDoesNotMatch 110-118 *) [Start the_dict; Feed (edit il_file 5 11 [5; 129; 31; 0; 125; 129; 50; 0; 0; 115; 0; 133; 235; 183; 45]) false; Out []];
  (* ChecksumIsInvalid64BitVarint 120-138 *) [Start the_dict; Feed (edit il_file 5 10 [5; 129; 31; 0; 129; 3; 129; 50; 0; 0; 115; 0; 129; 128; 128; 128; 128;
128; 128; 128; 128]) false; Out []];
  (* FinishAfterDecodingPartialWindow 142-150 *) [Start the_dict; Feed (firstn 130 il_file) true; Finish false; OutAtMost 178];
  (* FinishAfterDecodingPartialWindowHeader 152-161 *) [Start the_dict; Feed (firstn 15 il_file) true; Finish false; OutAtMost 178];
  (* TargetMatchesWindowSizeLimit 163-171 *) [MaxWindow 178; Start the_dict; Feed il_file true; Finish true; Out the_target];
  (* TargetMatchesFileSizeLimit 173-181 *) [MaxFile 178; Start the_dict; Feed il_file true; Finish true; Out the_target];
  (* TargetExceedsWindowSizeLimit 183-190 *) [MaxWindow 177; Start the_dict; Feed il_file false; Out []];
  (* TargetExceedsFileSizeLimit 192-199 *) [MaxFile 177; Start the_dict; Feed il_file false; Out []];
  (* CopyMoreThanExpectedTarget 241-251 *) [Start the_dict; Feed (edit il_file 17 2 [129; 51]) false; Out []];
  (* CopySizeZero 253-260 *) [Start the_dict; Feed (edit il_file 17 1 [0]) false; Out []];
  (* CopySizeTooLargeByOne 262-269 *) [Start the_dict; Feed (edit il_file 17 1 [29]) false; Out []];
  (* CopySizeTooSmallByOne 271-278 *) [Start the_dict; Feed (edit il_file 17 1 [27]) false; Out []];
  (* CopySizeMaxInt 280-287 *) [Start the_dict; Feed (edit il_file 17 1 [135; 255; 255; 255; 127]) false; Out []];
  (* CopySizeNegative 289-296 *) [Start the_dict; Feed (edit il_file 17 1 [136; 128; 128; 128; 0]) false; Out []];
  (* CopySizeInvalid 298-305 *) [Start the_dict; Feed (edit il_file 17 1 [135; 255; 255; 255; 255; 127]) false; Out []];
  (* CopyAddressBeyondHereAddress 307-317 *) [Start the_dict; Feed (edit il_file 18 2 [129; 31]) false; Out []];
  (* CopyAddressMaxInt 319-326 *) [Start the_dict; Feed (edit il_file 18 1 [135; 255; 255; 255; 127]) false; Out []];
  (* CopyAddressNegative 328-335 *) [Start the_dict; Feed (edit il_file 18 0 [136; 128; 128; 128]) false; Out []];
  (* CopyAddressInvalid 337-344 *) [Start the_dict; Feed (edit il_file 18 1 [135; 255; 255; 255; 255; 127]) false; Out []];
  (* AddMoreThanExpectedTarget 346-356 *) [Start the_dict; Feed (edit il_file 20 2 [129; 51]) false; Out []];
  (* AddSizeZero 358-365 *) [Start the_dict; Feed (edit il_file 20 1 [0]) false; Out []];
  (* AddSizeTooLargeByOne 367-374 *) [Start the_dict; Feed (edit il_file 20 1 [62]) false; Out []];
  (* AddSizeTooSmallByOne 376-383 *) [Start the_dict; Feed (edit il_file 20 1 [60]) false; Out []];
  (* AddSizeMaxInt 385-392 *) [Start the_dict; Feed (edit il_file 20 1 [135; 255; 255; 255; 127]) false; Out []];
  (* AddSizeNegative 394-401 *) [Start the_dict; Feed (edit il_file 20 1 [136; 128; 128; 128; 0]) false; Out []];
  (* AddSizeInvalid 403-410 *) [Start the_dict; Feed (edit il_file 20 1 [135; 255; 255; 255; 255; 127]) false; Out []];
  (* RunMoreThanExpectedTarget 412-422 *) [Start the_dict; Feed (edit il_file 100 2 [129; 51]) false; Out []];
  (* RunSizeZero 424-431 *) [Start the_dict; Feed (edit il_file 100 1 [0]) false; Out []];
  (* RunSizeTooLargeByOne 433-440 *) [Start the_dict; Feed (edit il_file 100 1 [3]) false; Out []];
  (* RunSizeTooSmallByOne 442-449 *) [Start the_dict; Feed (edit il_file 100 1 [1]) false; Out []];
  (* RunSizeMaxInt 451-458 *) [Start the_dict; Feed (edit il_file 100 1 [135; 255; 255; 255; 127]) false; Out []];
  (* RunSizeNegative 460-467 *) [Start the_dict; Feed (edit il_file 100 1 [136; 128; 128; 128; 0]) false; Out []];
  (* RunSizeInvalid 469-476 *) [Start the_dict; Feed (edit il_file 100 1 [135; 255; 255; 255; 255; 127]) false; Out []];
  (* DecodeHeaderOnly 556-563 *) [Start the_dict; FeedBytes (firstn 5 il_file); Finish true; Out []];
  (* PartialHeaderNotEnough 565-573 *) [Start the_dict; FeedBytes (firstn 3 il_file); Finish false; Out []];
  (* BadMagicNumber 575-589 *) [Start the_dict; FeedFail (edit il_file 1 1 [209]) 1 1; Out []];
  (* BadVersionNumber 591-605 *) [Start the_dict; FeedFail (edit il_file 3 1 [1]) 3 3; Out []];
  (* SecondaryCompressionNotSupported 607-622 *) [Start the_dict; FeedFail (edit il_file 4 1 [1]) 4 4; Out []];
  (* Decode 624-631 *) [Start the_dict; FeedBytes il_file; Finish true; Out the_target];
  (* DecodeWithChecksum 633-642 *) [Start the_dict; FeedBytes (edit il_file 5 11 [5; 129; 31; 0; 126; 129; 50; 0; 0; 115; 0; 132; 196; 184; 249; 48]); Finish
true; Out the_target];
  (* ChecksumDoesNotMatch 644-660 *) [Start the_dict; FeedFail (edit il_file 5 11 [5; 129; 31; 0; 125; 129; 50; 0; 0; 115; 0; 133; 235; 183; 45]) 134 134;
OutAtMost 178];
  (* ChecksumIsInvalid64BitVarint 662-688 *) [Start the_dict; FeedFail (edit il_file 5 10 [5; 129; 31; 0; 129; 3; 129; 50; 0; 0; 115; 0; 129; 128; 128; 128;
128; 128; 128; 128; 128]) 25 25; OutAtMost 178];
  (* TargetMatchesWindowSizeLimit 690-698 *) [MaxWindow 178; Start the_dict; FeedBytes il_file; Finish true; Out the_target];
  (* TargetMatchesFileSizeLimit 700-708 *) [MaxFile 178; Start the_dict; FeedBytes il_file; Finish true; Out the_target];
  (* TargetExceedsWindowSizeLimit 710-722 *) [MaxWindow 177; Start the_dict; FeedFail il_file 0 131; Out []];
  (* TargetExceedsFileSizeLimit 724-736 *) [MaxFile 177; Start the_dict; FeedFail il_file 0 131; Out []];
  (* CopyInstructionsShouldFailIfNoSourceSegment 788-806 *) [Start the_dict; FeedFail (edit il_file 5 3 []) 15 15; Out []];
  (* CopyMoreThanExpectedTarget 808-826 *) [Start the_dict; FeedFail (edit il_file 17 2 [129; 51]) 18 18; OutAtMost 178];
  (* CopySizeZero 833-846 *) [Start the_dict; FeedFail (edit il_file 17 1 [0]) 0 131; OutAtMost 178];
  (* CopySizeTooLargeByOne 848-861 *) [Start the_dict; FeedFail (edit il_file 17 1 [29]) 0 131; OutAtMost 178];
  (* CopySizeTooSmallByOne 863-876 *) [Start the_dict; FeedFail (edit il_file 17 1 [27]) 0 131; OutAtMost 178];
  (* CopySizeMaxInt 878-893 *) [Start the_dict; FeedFail (edit il_file 17 1 [135; 255; 255; 255; 127]) 21 21; OutAtMost 178];
  (* CopySizeNegative 895-910 *) [Start the_dict; FeedFail (edit il_file 17 1 [136; 128; 128; 128; 0]) 20 20; OutAtMost 178];
  (* CopySizeInvalid 912-927 *) [Start the_dict; FeedFail (edit il_file 17 1 [135; 255; 255; 255; 255; 127]) 21 21; OutAtMost 178];
  (* CopyAddressBeyondHereAddress 929-947 *) [Start the_dict; FeedFail (edit il_file 18 2 [129; 31]) 19 19; OutAtMost 178];
  (* CopyAddressMaxInt 949-964 *) [Start the_dict; FeedFail (edit il_file 18 1 [135; 255; 255; 255; 127]) 22 22; OutAtMost 178];
  (* CopyAddressNegative 966-981 *) [Start the_dict; FeedFail (edit il_file 18 0 [136; 128; 128; 128]) 21 21; OutAtMost 178];
  (* CopyAddressInvalid 983-998 *) [Start the_dict; FeedFail (edit il_file 18 1 [135; 255; 255; 255; 255; 127]) 22 22; OutAtMost 178];
  (* AddMoreThanExpectedTarget 1000-1018 *) [Start the_dict; FeedFail (edit il_file 20 2 [129; 51]) 21 21; OutAtMost 178];
  (* AddSizeZero 1025-1038 *) [Start the_dict; FeedFail (edit il_file 20 1 [0]) 0 131; OutAtMost 178];
  (* AddSizeTooLargeByOne 1040-1053 *) [Start the_dict; FeedFail (edit il_file 20 1 [62]) 0 131; OutAtMost 178];
  (* AddSizeTooSmallByOne 1055-1068 *) [Start the_dict; FeedFail (edit il_file 20 1 [60]) 0 131; OutAtMost 178];
  (* AddSizeMaxInt 1070-1085 *) [Start the_dict; FeedFail (edit il_file 20 1 [135; 255; 255; 255; 127]) 24 24; OutAtMost 178];
  (* AddSizeNegative 1087-1102 *) [Start the_dict; FeedFail (edit il_file 20 1 [136; 128; 128; 128; 0]) 23 23; OutAtMost 178];
  (* AddSizeInvalid 1104-1119 *) [Start the_dict; FeedFail (edit il_file 20 1 [135; 255; 255; 255; 255; 127]) 24 24; OutAtMost 178];
  (* RunMoreThanExpectedTarget 1121-1139 *) [Start the_dict; FeedFail (edit il_file 100 2 [129; 51]) 101 101; OutAtMost 178];
  (* RunSizeZero 1146-1159 *) [Start the_dict; FeedFail (edit il_file 100 1 [0]) 0 131; OutAtMost 178];
  (* RunSizeTooLargeByOne 1161-1174 *) [Start the_dict; FeedFail (edit il_file 100 1 [3]) 0 131; OutAtMost 178];
  (* RunSizeTooSmallByOne 1176-1189 *) [Start the_dict; FeedFail (edit il_file 100 1 [1]) 0 131; OutAtMost 178];
  (* RunSizeMaxInt 1191-1206 *) [Start the_dict; FeedFail (edit il_file 100 1 [135; 255; 255; 255; 127]) 104 104; OutAtMost 178];
  (* RunSizeNegative 1208-1223 *) [Start the_dict; FeedFail (edit il_file 100 1 [136; 128; 128; 128; 0]) 103 103; OutAtMost 178];
  (* RunSizeInvalid 1225-1240 *) [Start the_dict; FeedFail (edit il_file 100 1 [135; 255; 255; 255; 255; 127]) 104 104; OutAtMost 178]
].
Example repo_decoder_tests_3 : results tests3.
Proof. vm_compute; reflexivity. Qed.

(** vcdecoder4_test.cc: each test with its name and lines. *)
Definition tests4 : list (list tstep) := [
  (* Decode 37-44 *) [Start the_dict; Feed unused_file true; Finish true; Out the_target];
  (* DecodeWithChecksum 46-55 *) [Start the_dict; Feed (edit unused_file 5 11 [5; 129; 31; 0; 126; 129; 50; 0; 100; 12; 3; 132; 196; 184; 249; 48]) true;
Finish true; Out the_target];
  (* Decode 60-67 *) [Start the_dict; FeedBytes unused_file; Finish true; Out the_target];
  (* DecodeWithChecksum 69-79 *) [Start the_dict; FeedBytes (edit unused_file 5 11 [5; 129; 31; 0; 126; 129; 50; 0; 100; 12; 3; 132; 196; 184; 249; 48]);
Finish true; Out the_target];
  (* DecodeShouldFail 91-97 *) [Start the_dict; Feed unsup_file false; Out []];
  (* DecodeByteByByteShouldFail 99-112 *) [Start the_dict; FeedFail unsup_file 0 131; OutAtMost 178];
  (* Decode 249-256 *) [Start the_dict; Feed wins_file true; Finish true; Out the_target];
  (* DecodeBreakInFourthWindowHeader 262-285 *) [Start the_dict; Feed (firstn 88 wins_file) true; Feed (edit wins_file 0 176 [2; 89; 0; 8; 44; 0; 0; 2; 1; 35;
44; 88; 2; 5; 46; 9; 7]) true; Feed (edit wins_file 0 105 []) true; Finish true; Out the_target];
  (* DecodeChunkNoVcdTargetAllowed 287-300 *) [Allow false; Start the_dict; Feed (firstn 88 wins_file) true; Feed (edit wins_file 0 176 [2]) false; Out (firstn
89 the_target)];
  (* TargetMatchesWindowSizeLimit 343-351 *) [MaxWindow 61; Start the_dict; Feed wins_file true; Finish true; Out the_target];
  (* TargetMatchesFileSizeLimit 353-361 *) [MaxFile 178; Start the_dict; Feed wins_file true; Finish true; Out the_target];
  (* TargetExceedsWindowSizeLimit 363-370 *) [MaxWindow 60; Start the_dict; Feed wins_file false; Out []];
  (* TargetExceedsFileSizeLimit 372-379 *) [MaxFile 177; Start the_dict; Feed wins_file false; Out []];
  (* Decode 384-391 *) [Start the_dict; FeedBytes wins_file; Finish true; Out the_target];
  (* DecodeExplicitVcdTarget 393-401 *) [Allow true; Start the_dict; FeedBytes wins_file; Finish true; Out the_target];
  (* DecodeNoVcdTarget 404-417 *) [Allow false; Start the_dict; FeedFail wins_file 88 88; Out (firstn 89 the_target)];
  (* Decode 531-538 *) [Start the_dict; Feed ilwins_file true; Finish true; Out the_target];
  (* Decode 581-588 *) [Start the_dict; FeedBytes ilwins_file; Finish true; Out the_target];
  (* DecodeNoVcdTarget 591-604 *) [Allow false; Start the_dict; FeedFail ilwins_file 88 88; Out (firstn 89 the_target)];
  (* OutputStringCanBeModified 613-623 *) [Start the_dict; FeedBytes ilwins_file; Finish true; Out the_target];
  (* OutputStringIsPreserved 625-634 *) [SetOut [80; 114; 101; 118; 105; 111; 117; 115; 32; 100; 97; 116; 97]; Start the_dict; FeedBytes ilwins_file; Finish
true; Out ([80; 114; 101; 118; 105; 111; 117; 115; 32; 100; 97; 116; 97] ++ the_target)];
  (* Decode 690-697 *) [Start the_dict; Feed cross_file true; Finish true; Out cross_target];
  (* Decode 701-708 *) [Start the_dict; FeedBytes cross_file; Finish true; Out cross_target];
  (* Decode 759-766 *) [Start the_dict; Feed ilcross_file true; Finish true; Out cross_target];
  (* DecodeWithChecksum 768-777 *) [Start the_dict; Feed (edit ilcross_file 5 10 [5; 129; 31; 0; 26; 41; 0; 0; 16; 0; 131; 136; 248; 155; 119]) true; Finish
true; Out cross_target];
  (* Decode 782-789 *) [Start the_dict; FeedBytes ilcross_file; Finish true; Out cross_target];
  (* DecodeWithChecksum 791-800 *) [Start the_dict; FeedBytes (edit ilcross_file 5 10 [5; 129; 31; 0; 26; 41; 0; 0; 16; 0; 131; 136; 248; 155; 119]); Finish
true; Out cross_target];
  (* DecodeUsingCustomCodeTable 982-989 *) [Start the_dict; Feed custom_file true; Finish true; Out the_target];
  (* IncompleteCustomCodeTable 991-998 *) [Start the_dict; Feed (firstn 47 custom_file) true; Finish false; Out []];
  (* DecodeUsingCustomCodeTable 1003-1010 *) [Start the_dict; FeedBytes custom_file; Finish true; Out the_target];
  (* IncompleteCustomCodeTable 1012-1020 *) [Start the_dict; FeedBytes (firstn 47 custom_file); Finish false; Out []];
  (* CustomTableNoVcdTarget 1022-1030 *) [Allow false; Start the_dict; FeedBytes custom_file; Finish true; Out the_target]
].
Example repo_decoder_tests_4 : results tests4.
Proof. vm_compute; reflexivity. Qed.

(** Tests of vcdecoder4_test.cc that the list above leaves out: DecodeInTwoParts (302-316,
    540-554), at every cut of the standard file header and first window headers. *)
Definition in_two_parts (f : list Z) (i : nat) : list tstep :=
  [Start the_dict; Feed (firstn i f) true; Feed (skipn i f) true; Finish true; Out the_target].

(** CustomCodeTableEncodingMatches (946-985): the encoded table in the custom file's header,
    decoded on its own against the default table. *)
Definition upd (l : list Z) (i : nat) (v : Z) : list Z := edit l i 1 [v].
Definition custom_code_table : table := {|
  inst1 := upd (inst1 default_table) 3 2; inst2 := inst2 default_table;
  size1 := upd (upd (upd (upd (size1 default_table) 17 27) 18 61) 34 28) 50 44; size2 := size2 default_table;
  mode1 := mode1 default_table; mode2 := mode2 default_table |}.
Definition encoding_matches : list tstep :=
  [Start (table_bytes default_table); Feed (firstn 41 (skipn 7 custom_file)) true; Finish true;
   Out (table_bytes custom_code_table)].

(** CustomCacheSizeTest (1034-1069), as in a build without debug checks: cache sizes that do
    not fit the mode byte are refused. *)
Definition bad_cache_sizes (v : list Z) : list tstep :=
  [Start the_dict; Feed (edit custom_file 5 2 (v ++ v)) false; Out []].

Definition more_tests4 : list (list tstep) :=
  map (in_two_parts wins_file) (seq 1 40) ++ map (in_two_parts ilwins_file) (seq 1 40) ++
  [encoding_matches; bad_cache_sizes [129; 16]; bad_cache_sizes [135; 255; 255; 255; 127];
   Allow false :: bad_cache_sizes [129; 16]; Allow false :: bad_cache_sizes [135; 255; 255; 255; 127]].
Example repo_decoder_tests_more : results more_tests4.
Proof. vm_compute; reflexivity. Qed.
