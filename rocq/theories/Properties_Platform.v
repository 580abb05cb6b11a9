(** Properties of builds for different platforms: C57. *)

From Verif Require Import Base ListFacts Spec SpecEncode Varint CodeTable EncodeTable RollingHash BlockHash BlockHashFacts Engine EngineFacts
  JsonWriter Encoder EncoderFacts HeaderParser Adler Decoder Usable Stream Session Reuse Files Properties_Decode Properties_Encode
  Platform PlatformEnc PlatformFacts PlatformEncFacts.
From Coq Require Import ZifyBool ZifyNat.

(** ** C57: the width of size_t does not matter *)

(** Any sequence of public calls on a new decoder has the same results (return
    values and bytes appended to the output) on all platforms, as long as the
    limit for the size of the target is not lowered between StartDecoding and
    FinishDecoding.  67108864 is the limit of a new decoder. *)
Theorem C57_decode : forall p q l, Forall arg_ok l -> not_lowered false 67108864 l ->
  p_session p (p_new_decoder p) l = p_session q (p_new_decoder q) l.
Proof. intros p q l A N. rewrite (session_new p l A N), (session_new q l A N). reflexivity. Qed.
Print Assumptions C57_decode.

(** They are those of the decoder that the other theorems are about. *)
Theorem C57_decode_model : forall p l, Forall arg_ok l -> not_lowered false 67108864 l ->
  p_session p (p_new_decoder p) l = session64 new_decoder l.
Proof. exact session_new. Qed.
Print Assumptions C57_decode_model.

(** A delta in two pieces with limits set before and while decoding; then a window
    header whose section lengths are 2^31 - 1, 2^31 - 1 and 3: with 32 bits the sum
    would agree with the length of the delta encoding, 14, but for SumWouldOverflow4. *)
Definition c57_delta : list Z := [214;195;196;0;0; 0; 10; 4; 0; 2; 3; 0; 65;66; 2; 0;3].
Definition c57_calls : list pcall :=
  [PAllow false; PMaxFile 100; PStart [1;2;3]; PChunk (firstn 9 c57_delta); PMaxFile 200; PChunk (skipn 9 c57_delta); PFinish;
   PStart []; PChunk ([214;195;196;0;0; 0; 14; 4; 0] ++ [135;255;255;255;127] ++ [135;255;255;255;127] ++ [3]); PFinish].
Example C57_decode_case : Forall arg_ok c57_calls /\ not_lowered false 67108864 c57_calls /\
  p_session ILP32 (p_new_decoder ILP32) c57_calls =
    [Some (true, []); Some (true, []); Some (true, []); Some (true, []); Some (true, []); Some (true, [65;66;66;66]); Some (true, []);
     Some (true, []); Some (false, []); Some (false, [])] /\
  (13 + 2147483647 + 2147483647 + 3) mod 4294967296 = 14.
Proof.
  split; [|split; [|split]].
  - unfold c57_calls. repeat (apply Forall_cons; [cbn [arg_ok]; first [exact Logic.I | lia | apply bytes_okb_ok; reflexivity]|]). apply Forall_nil.
  - cbn. repeat split; lia.
  - vm_compute. reflexivity.
  - reflexivity.
Qed.

(** Without the condition it would be false: after 2^32 - 2 bytes, the limit zero
    leaves no room for a window of three bytes with 32 bits, and 2^64 - 2^32 + 2
    bytes with 64 (cf. C36_lower_limit_refuted). *)
Example C57_lowered : forall c, d_max_file c = 0 -> d_total c = 4294967294 -> 3 <= d_max_window c ->
  p_would_exceed ILP32 (set_planned c (p_unlimited ILP32)) 3 = true /\ p_would_exceed LP64 (set_planned c (p_unlimited LP64)) 3 = false.
Proof.
  intros c M T W. unfold p_would_exceed, p_has_planned, set_planned. cbn [set_limits d_planned d_max_file d_total d_max_window].
  rewrite M, T, !Z.eqb_refl. cbn [negb andb]. destruct (Z.ltb_spec (d_max_window c) 3); [lia|]. split; reflexivity.
Qed.

(** Any sequence of calls on a VCDiffStreamingEncoder has the same results on all
    platforms, with either byte order and either way of comparing blocks, if
    dictionary and window together have less than 2^31 bytes. *)
Theorem C57_encode : forall m m' dict fl look l, bytes_ok dict -> zlen dict <= int32_max -> Forall (fits dict) l ->
  b_encoder_session m dict fl look l = b_encoder_session m' dict fl look l.
Proof.
  assert (forall m dict fl look l, bytes_ok dict -> zlen dict <= int32_max -> Forall (fits dict) l ->
    b_encoder_session m dict fl look l =
      match streaming_encoder dict fl look with None => None | Some e => match do_ecalls e l with None => None | Some (_, rs) => Some rs end end) as E.
  { intros m dict fl look l B L F. unfold b_encoder_session. rewrite p_streaming_encoder_eq by exact L.
    destruct (streaming_encoder_ok dict fl look B L) as (en & EN & ->).
    rewrite (b_do_ecalls_eq m l _ dict (new_encoder_pe _ _ _ _ EN L) F). reflexivity. }
  intros m m' dict fl look l B L F. rewrite (E m), (E m') by auto. reflexivity.
Qed.
Print Assumptions C57_encode.

(** They are those of the encoder that the other theorems are about. *)
Theorem C57_encode_model : forall m dict fl look l, bytes_ok dict -> zlen dict <= int32_max -> Forall (fits dict) l ->
  p_streaming_encoder (b_platform m) dict fl look = streaming_encoder dict fl look /\
  forall e, streaming_encoder dict fl look = Some e -> b_do_ecalls m e l = do_ecalls e l.
Proof.
  intros m dict fl look l B L F. split; [apply p_streaming_encoder_eq; exact L|]. intros e E.
  destruct (streaming_encoder_ok dict fl look B L) as (en & EN & E'). assert (e = new_encoder en fl look) as -> by congruence.
  exact (b_do_ecalls_eq m l _ dict (new_encoder_pe _ _ _ _ EN L) F).
Qed.
Print Assumptions C57_encode_model.

(** The same for a VCDiffEncoder used for several targets. *)
Theorem C57_encode_simple : forall m m' dict fl look targets, bytes_ok dict ->
  Forall (fun t => bytes_ok t /\ zlen dict + zlen t <= int32_max) targets ->
  b_encodes m (set_target_matching (set_format_flags (new_vcdiff_encoder dict) fl) look) targets =
  b_encodes m' (set_target_matching (set_format_flags (new_vcdiff_encoder dict) fl) look) targets.
Proof.
  intros m m' dict fl look targets B F. rewrite !(b_encodes_eq _ _ _ dict); auto; reflexivity.
Qed.
Print Assumptions C57_encode_simple.

(** A delta made by any build is decoded to the target by any build. *)
Theorem C57_round_trip : forall m q dict target fl look,
  bytes_ok dict -> bytes_ok target -> fl_json fl = false ->
  zlen dict + zlen target <= int32_max -> zlen target <= 67108864 ->
  exists v delta,
    b_encode m (set_target_matching (set_format_flags (new_vcdiff_encoder dict) fl) look) target = Some (v, true, delta) /\
    p_session q (p_new_decoder q) [PStart dict; PChunk delta; PFinish] = [Some (true, []); Some (true, target); Some (true, [])].
Proof.
  intros m q dict target fl look BD BT J L L2. pose proof (zlen_nonneg _ dict). pose proof (zlen_nonneg _ target).
  destruct (b_encode_eq m (set_target_matching (set_format_flags (new_vcdiff_encoder dict) fl) look) dict target eq_refl BD BT L) as [-> _].
  destruct (encode_first dict fl look BD) as (en & EN & EF); [lia|]. rewrite EF.
  destruct (new_encoder_inv en dict fl look true EN) as (im & EI); [lia|exact J|].
  destruct (stream_file _ dict im _ fl true (within 67108864 67108864) [target] EI eq_refl J) as (w' & delta & -> & _ & BO & VF & NC & LD).
  { constructor; [|constructor]. split; [exact BT|]. unfold int32_max in *; lia. }
  { apply chunks_within; [constructor; [exact L2|constructor]|]. cbn [concat]. rewrite app_nil_r. exact L2. }
  eexists _, delta. split; [reflexivity|]. cbn [concat] in VF, LD. rewrite app_nil_r in VF, LD. rewrite zlen_cons, zlen_nil in LD.
  assert (decode_stream new_decoder dict [delta] = Some (true, target)) as DS.
  { apply C05_decoder_complete with (t := strict); auto; cbn [concat]; rewrite ?app_nil_r.
    - constructor.
    - apply no_code_table_bad. exact NC.
    - exact VF.
    - unfold int32_max in *. lia.
    - lia. - lia. - lia. }
  rewrite session_new; [|repeat (constructor; [try exact BD; try exact BO; exact Logic.I|]); constructor|repeat split].
  unfold decode_stream in DS. cbn [decode_chunks] in DS. cbn [session64 do64].
  destruct (decode_chunk (start_decoding new_decoder dict) delta) as [d' ok o| |]; try discriminate.
  destruct ok; [|discriminate]. cbn [app] in DS. injection DS as DS <-.
  destruct (finish_decoding d') as [d'' ok]. cbn [snd] in DS. subst ok. reflexivity.
Qed.
Print Assumptions C57_round_trip.

(** A 32-bit big-endian build that compares words, and a 64-bit build with memcmp. *)
Definition c57_be32 : build := {| b_platform := ILP32; b_words := true; b_little := false |}.
Definition c57_le64 : build := {| b_platform := LP64; b_words := false; b_little := true |}.
Example C57_encode_case : bytes_ok c01_dict /\ zlen c01_dict <= int32_max /\ Forall (fits c01_dict) [EStart; EChunk c01_target; EFinish] /\
  b_encoder_session c57_be32 c01_dict (flags_of true true) true [EStart; EChunk c01_target; EFinish] =
    Some [(true, [214;195;196;83;0]);
          (true, [5;60;0;43;124;0;0;33;0;133;225;188;214;69;4;1;2;3;115;60;0;1;21;84;104;101;32;113;117;105;99;107;32;98;114;111;119;110;32;102;111;120;33;7;115;40;0]);
          (true, [])].
Proof.
  split; [apply bytes_okb_ok; vm_compute; reflexivity|]. split; [vm_compute; discriminate|].
  split; [|vm_compute; reflexivity]. constructor; [exact Logic.I|]. constructor; [|constructor; [exact Logic.I|constructor]].
  split; [apply bytes_okb_ok; vm_compute; reflexivity|vm_compute; discriminate].
Qed.
