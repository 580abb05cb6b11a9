(** C57 for streams: encoded by one build, decoded by another, in any pieces. *)

From Verif Require Import Base ListFacts Spec SpecEncode Varint CodeTable EncodeTable RollingHash BlockHash BlockHashFacts Engine EngineFacts
  JsonWriter Encoder EncoderFacts EncoderCalls HeaderParser Adler Decoder Usable Stream Session Reuse Files Properties_Decode Properties_Encode
  Platform PlatformEnc PlatformFacts PlatformEncFacts Properties_Platform Properties_Long.
From Coq Require Import ZifyBool ZifyNat.

Lemma chunks_results : forall chunks e out e' o, encode_chunks e chunks out = Some (e', true, o) ->
  exists rs, do_ecalls e (map EChunk chunks) = Some (e', rs) /\ Forall (fun r => fst r = true) rs /\ o = out ++ concat (map snd rs).
Proof.
  induction chunks as [|c chunks IH]; intros e out e' o H; cbn [encode_chunks map do_ecalls do_ecall] in *.
  - injection H as <- <-. exists []. cbn [map concat]. rewrite app_nil_r. auto.
  - destruct (encode_chunk e c) as [[[e1 [|]] o1]|]; [|discriminate|discriminate]. destruct (IH _ _ _ _ H) as (rs & -> & A & ->).
    eexists. split; [reflexivity|]. split; [constructor; auto|]. cbn [map concat snd]. rewrite app_assoc. reflexivity.
Qed.
Lemma stream_results : forall chunks e e' o, encode_stream e chunks = Some (e', true, o) ->
  exists rs, do_ecalls e (EStart :: map EChunk chunks ++ [EFinish]) = Some (e', rs) /\ Forall (fun r => fst r = true) rs /\ o = concat (map snd rs).
Proof.
  intros chunks e e' o H. unfold encode_stream in H. cbn [do_ecalls do_ecall].
  destruct (start_encoding e) as [[[e1 [|]] o1]|]; [|discriminate|discriminate].
  destruct (encode_chunks e1 chunks o1) as [[[e2 [|]] o2]|] eqn:E; [|discriminate|discriminate].
  destruct (chunks_results _ _ _ _ _ E) as (rs & E2 & A & ->). rewrite (do_ecalls_app _ _ _ _ _ E2). cbn [do_ecalls do_ecall].
  destruct (finish_encoding e2) as [[e3 r] o3]. injection H as <- -> <-. eexists. split; [reflexivity|].
  split; [constructor; [reflexivity|]; apply Forall_app; auto|].
  cbn [map concat snd]. rewrite map_app, concat_app. cbn [map concat snd]. rewrite app_nil_r, <- app_assoc. reflexivity.
Qed.

Lemma pieces_session : forall pieces d out d' out', decode_chunks d pieces out = Some (d', true, out') ->
  exists os, length os = length pieces /\ out' = out ++ concat os /\
    forall tl, session64 d (map PChunk pieces ++ tl) = map (fun o => Some (true, o)) os ++ session64 d' tl.
Proof.
  induction pieces as [|x pieces IH]; intros d out d' out' H; cbn [decode_chunks] in H.
  - injection H as <- <-. exists []. split; [reflexivity|]. split; [symmetry; apply app_nil_r|reflexivity].
  - destruct (decode_chunk d x) as [d1 [|] o| |] eqn:E; try discriminate. destruct (IH _ _ _ _ H) as (os & L & -> & S).
    exists (o :: os). split; [cbn [length]; congruence|]. split; [cbn [concat]; rewrite app_assoc; reflexivity|].
    intros tl. cbn [map app session64 do64]. rewrite E, S. reflexivity.
Qed.

(** A stream of any length that any build has encoded is restored by any build, in
    whatever pieces it arrives, if the receiver sets the limit for the size of the target high
    enough; every call returns true. *)
Theorem C57_stream : forall m q dict chunks fl look limit,
  bytes_ok dict -> zlen dict <= 2147483647 -> Forall bytes_ok chunks -> Forall (chunk_size_ok dict) chunks -> fl_json fl = false ->
  Forall (fun c => zlen c <= 67108864) chunks -> zlen (concat chunks) <= limit <= 4294967295 ->
  exists rs, b_encoder_session m dict fl look (EStart :: map EChunk chunks ++ [EFinish]) = Some rs /\ Forall (fun r => fst r = true) rs /\
  forall pieces, concat pieces = concat (map snd rs) ->
  exists os, length os = length pieces /\ concat os = concat chunks /\
    p_session q (p_new_decoder q) (PMaxFile limit :: PStart dict :: map PChunk pieces ++ [PFinish]) =
      [Some (true, []); Some (true, [])] ++ map (fun o => Some (true, o)) os ++ [Some (true, [])].
Proof.
  intros m q dict chunks fl look limit BD ZD F G J MW LI. pose proof (zlen_nonneg _ (concat chunks)).
  assert (idle_plain (fst (set_maximum_target_file_size new_decoder limit))) as IP by (apply ip_max_file; [apply ip_new|unfold size_max; lia]).
  destruct (C82_round_trip dict chunks fl look _ BD ZD F G J IP MW (proj1 LI)) as (e & e' & delta & SE & ES & RT).
  destruct (stream_results _ _ _ _ ES) as (rs & DC & AL & ED). exists rs.
  assert (Forall (fits dict) (EStart :: map EChunk chunks ++ [EFinish])) as FI.
  { constructor; [exact Logic.I|]. apply Forall_app. split; [|constructor; [exact Logic.I|constructor]].
    apply Forall_map. rewrite Forall_forall in *. intros c IN. split; [auto|]. destruct (G c IN). exact H0. }
  destruct (C57_encode_model m dict fl look _ BD ZD FI) as [PE PD].
  split. { unfold b_encoder_session. rewrite PE, SE, (PD e SE), DC. reflexivity. }
  split; [exact AL|]. intros pieces EP. rewrite <- ED in EP. specialize (RT pieces EP).
  assert (Forall bytes_ok pieces) as FP.
  { destruct (streaming_encoder_ok dict fl look BD) as (en & EN & SE2); [exact ZD|].
    destruct (new_encoder_inv en dict fl look true EN) as (im & EI); [exact ZD|exact J|].
    destruct (stream_file _ dict im _ fl true (fun _ _ => True) chunks EI eq_refl J) as (w' & delta2 & ES2 & _ & BO & _);
      [apply chunks_size_ok; auto|auto|].
    assert (new_encoder en fl look = e) as X by congruence. rewrite X in ES2. assert (delta2 = delta) as -> by congruence.
    apply bytes_ok_concat. rewrite EP. exact BO. }
  unfold decode_stream in RT.
  destruct (decode_chunks (start_decoding (fst (set_maximum_target_file_size new_decoder limit)) dict) pieces []) as [[[d' [|]] o]|] eqn:DD; try discriminate RT.
  injection RT as FD ->. destruct (pieces_session _ _ _ _ _ DD) as (os & LO & EO & S). cbn [app] in EO.
  exists os. split; [exact LO|]. split; [symmetry; exact EO|].
  rewrite C57_decode_model.
  - cbn [session64 do64]. destruct (set_maximum_target_file_size new_decoder limit) as [d1 ok1] eqn:E1. cbn [fst] in S.
    assert (ok1 = true) as -> by (unfold set_maximum_target_file_size, new_decoder in E1; congruence).
    cbn [session64 do64 app]. rewrite S. cbn [session64 do64]. destruct (finish_decoding d') as [d2 ok2]. cbn [snd] in FD. subst ok2. reflexivity.
  - constructor; [cbn [arg_ok]; lia|]. constructor; [exact BD|]. apply Forall_app. split; [|constructor; [exact Logic.I|constructor]].
    apply Forall_map. exact FP.
  - cbn [not_lowered]. split; [discriminate|]. clear. induction pieces as [|x pieces IH]; cbn [map app not_lowered]; auto.
Qed.
Print Assumptions C57_stream.

(** ** A case: more than 2^31 bytes, from a 32-bit big-endian build to a 64-bit build *)
Example C57_stream_case : exists chunks, zlen (concat chunks) = 2480000000 /\
  exists rs, b_encoder_session c57_be32 c01_dict (flags_of true true) true (EStart :: map EChunk chunks ++ [EFinish]) = Some rs /\
    Forall (fun r => fst r = true) rs /\
    forall pieces, concat pieces = concat (map snd rs) ->
    exists os, length os = length pieces /\ concat os = concat chunks /\
      p_session LP64 (p_new_decoder LP64) (PMaxFile 4000000000 :: PStart c01_dict :: map PChunk pieces ++ [PFinish]) =
        [Some (true, []); Some (true, [])] ++ map (fun o => Some (true, o)) os ++ [Some (true, [])].
Proof.
  exists (zrepeat c01_target 20000000).
  assert (zlen c01_target = 124) as ZT by (vm_compute; reflexivity).
  assert (zlen c01_dict <= 100) as ZD by (vm_compute; discriminate).
  assert (zlen (concat (zrepeat c01_target 20000000)) = 2480000000) as ZC by (rewrite zlen_copies by lia; rewrite ZT; lia).
  split; [exact ZC|].
  apply C57_stream; [apply bytes_okb_ok; vm_compute; reflexivity|lia| | |reflexivity| |rewrite ZC; lia]; apply all_copies.
  - apply bytes_okb_ok; vm_compute; reflexivity.
  - unfold chunk_size_ok. lia.
  - lia.
Qed.
