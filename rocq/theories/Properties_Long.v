(** C82: streams longer than 2^31 bytes. *)

From Verif Require Import Base ListFacts Spec SpecLong SpecEncode CopyFacts Varint VarintFacts AddrCache CodeTable InstructionMap CodeTableFacts Adler AdlerFacts BodyFacts InstructionMapFacts
  EncodeTable WriterFacts RollingHash BlockHash Index Engine EngineFacts JsonWriter Encoder EncoderFacts EncoderCalls Sound
  HeaderParser Decoder WindowExt WindowHeader WindowStep Usable Stream Session Reuse Files LongStream LongEncode Properties_Stream Properties_Decode Properties_Encode.
From Coq Require Import ZifyBool ZifyNat.

(** A chunk that the encoder can write as one window: its length, and that of the
    dictionary and the chunk together, fit an [int] (with 53 bytes to spare for
    what a window needs besides its data). *)
Definition chunk_size_ok (dict c : list Z) : Prop :=
  zlen dict + zlen c <= 2147483647 /\ zlen c + 53 <= 2147483647.

Lemma chunks_size_ok : forall dict chunks, Forall bytes_ok chunks -> Forall (chunk_size_ok dict) chunks -> Forall (chunk_fits dict) chunks.
Proof.
  intros dict chunks F G. rewrite Forall_forall in *. intros c IN. split; [auto|]. destruct (G c IN). unfold int32_max. lia.
Qed.

(** Only the chunks are limited, not the stream: C03 and C02 hold for streams of any
    length. *)
Theorem C82_well_formed : forall dict chunks fl look allow,
  bytes_ok dict -> zlen dict <= 2147483647 -> Forall bytes_ok chunks -> Forall (chunk_size_ok dict) chunks -> fl_json fl = false ->
  exists e e' delta, streaming_encoder dict fl look = Some e /\ encode_stream e chunks = Some (e', true, delta) /\
    vcd_file strict strict allow (fun _ _ => True) dict delta (concat chunks).
Proof.
  intros dict chunks fl look allow BD ZD F G J.
  destruct (streaming_encoder_ok dict fl look BD) as (en & EN & SE); [exact ZD|].
  destruct (new_encoder_inv en dict fl look allow EN) as (im & EI); [exact ZD|exact J|].
  destruct (stream_file _ dict im _ fl allow (fun _ _ => True) chunks EI eq_refl J) as (w' & delta & ES & _ & BO & VF & NC & LD).
  - apply chunks_size_ok; auto.
  - auto.
  - do 3 eexists. split; [exact SE|]. split; [exact ES|]. exact VF.
Qed.
Print Assumptions C82_well_formed.

(** The decoder: a file whose windows, one by one, are within its limits and within
    31 bits, and do not refer to the earlier target, is decoded in whatever pieces
    it comes; [h] is the header, with a code table or not. *)
Theorem C82_decoder_complete : forall t d dict h v tbl ns ss ws out pieces,
  idle_plain d -> bytes_ok dict -> zlen dict <= 2147483647 -> t_slack t = false ->
  head t t h v tbl ns ss -> modes_fit ns ss ws -> zlen h <= 2147483647 ->
  windows_each t t (no_target (file_format v tbl ns ss false)) dict (window_sized dict (within (max_window d) (max_file d))) [] ws out ->
  Forall bytes_ok pieces -> concat pieces = h ++ ws -> ~ bad_cache (concat pieces) ->
  decode_stream d dict pieces = Some (true, out).
Proof.
  intros t d dict h v tbl ns ss ws out pieces IP BD ZD SL HD MF ZH WS F EP NB. eapply long_complete; eauto.
  refine (windows_each_no_target t t (file_format v tbl ns ss false) _ dict _ [] ws out _ WS). repeat split.
Qed.
Print Assumptions C82_decoder_complete.

(** The same with windows that take their source from the earlier target, if what
    they refer to lies below 2^31 and the decoder admits such windows. *)
Theorem C82_decoder_target : forall t d dict h v tbl ns ss ws out pieces,
  idle_plain d -> bytes_ok dict -> zlen dict <= 2147483647 -> t_slack t = false ->
  head t t h v tbl ns ss -> modes_fit ns ss ws -> zlen h <= 2147483647 ->
  windows_each t t (file_format v tbl ns ss (target_allowed d)) dict
    (fun prev w T => window_sized dict (within (max_window d) (max_file d)) prev w T /\ target_segment_low w T) [] ws out ->
  Forall bytes_ok pieces -> concat pieces = h ++ ws -> ~ bad_cache (concat pieces) ->
  decode_stream d dict pieces = Some (true, out).
Proof. intros t d dict h v tbl ns ss ws out pieces IP BD ZD SL HD MF ZH WS F EP NB. eapply long_complete; eauto. Qed.
Print Assumptions C82_decoder_target.

Theorem C82_round_trip : forall dict chunks fl look d,
  bytes_ok dict -> zlen dict <= 2147483647 -> Forall bytes_ok chunks -> Forall (chunk_size_ok dict) chunks -> fl_json fl = false ->
  idle_plain d -> Forall (fun c => zlen c <= max_window d) chunks -> zlen (concat chunks) <= max_file d ->
  exists e e' delta, streaming_encoder dict fl look = Some e /\ encode_stream e chunks = Some (e', true, delta) /\
    forall pieces, concat pieces = delta -> decode_stream d dict pieces = Some (true, concat chunks).
Proof.
  intros dict chunks fl look d BD ZD F G J IP MW MF.
  destruct (streaming_encoder_ok dict fl look BD) as (en & EN & SE); [exact ZD|].
  destruct (new_encoder_inv en dict fl look false EN) as (im & EI); [exact ZD|exact J|].
  destruct (encode_stream_long _ dict im _ _ (window_sized dict (within (max_window d) (max_file d))) chunks EI) as (e' & ws & ES & BW & WS).
  - apply chunks_size_ok; auto.
  - intros pre c post w1 EQ NE LN. split; [apply (chunks_within _ _ chunks MW MF pre c post EQ NE)|].
    assert (In c chunks) as IN by (rewrite EQ; apply in_or_app; right; left; reflexivity).
    rewrite Forall_forall in G. destruct (G c IN). unfold int32_max. lia.
  - do 3 eexists. split; [exact SE|]. split; [exact ES|]. cbn [new_encoder new_custom_encoder ec_flags]. intros pieces EP.
    destruct (write_header_bytes fl) as [HB HL]. rewrite header_of in * by exact J.
    apply (C82_decoder_complete strict d dict (file_header (version_of fl) 0) (version_of fl) rfc_table 4 3 ws); auto.
    + constructor; auto; [|unfold byte_ok; lia]. unfold version_of. destruct (_ || _); auto.
    + right. lia.
    + rewrite HL. lia.
    + apply bytes_ok_concat. rewrite EP. apply bytes_ok_app. auto.
    + rewrite EP. apply no_code_table_bad. intros v ind tl EQ. injection EQ as _ <- _. reflexivity.
Qed.
Print Assumptions C82_round_trip.

(** A stream of 20000000 chunks of 124 bytes each, 2480000000 bytes in all, and a
    decoder that admits files of 4000000000 bytes, meet the hypotheses. *)
Lemma zlen_copies : forall c n, 0 <= n -> zlen (concat (zrepeat c n)) = n * zlen (A:=Z) c.
Proof.
  intros c n N. unfold zrepeat. rewrite <- (Z2Nat.id n) at 2 by exact N. generalize (Z.to_nat n) as k. clear n N.
  induction k as [|k IH]; [reflexivity|]. cbn [repeat concat]. rewrite zlen_app, IH. lia.
Qed.

Lemma all_copies : forall (P : list Z -> Prop) c n, P c -> Forall P (zrepeat c n).
Proof. intros P c n H. unfold zrepeat. induction (Z.to_nat n); constructor; auto. Qed.

Definition c82_decoder : dec := fst (set_maximum_target_file_size new_decoder 4000000000).

Example C82_case : exists chunks, zlen (concat chunks) = 2480000000 /\ zlen (concat chunks) > 2147483647 /\
  exists e e' delta, streaming_encoder c01_dict (flags_of true true) true = Some e /\ encode_stream e chunks = Some (e', true, delta) /\
    forall pieces, concat pieces = delta -> decode_stream c82_decoder c01_dict pieces = Some (true, concat chunks).
Proof.
  exists (zrepeat c01_target 20000000).
  assert (zlen c01_target = 124) as ZC by (vm_compute; reflexivity).
  assert (zlen c01_dict = 60) as ZD by (vm_compute; reflexivity).
  assert (bytes_ok c01_target) as BT by (apply bytes_okb_ok; vm_compute; reflexivity).
  assert (max_window c82_decoder = 67108864 /\ max_file c82_decoder = 4000000000) as [MW MF] by (vm_compute; split; reflexivity).
  pose proof (zlen_copies c01_target 20000000 ltac:(lia)) as ZA. rewrite ZC in ZA.
  set (chunks := zrepeat c01_target 20000000) in *.
  assert (forall P : list Z -> Prop, P c01_target -> Forall P chunks) as ALL by (intros P; apply all_copies).
  clearbody chunks. split; [lia|]. split; [lia|].
  apply C82_round_trip.
  - apply bytes_okb_ok. vm_compute. reflexivity.
  - lia.
  - apply ALL. exact BT.
  - apply ALL. unfold chunk_size_ok. lia.
  - reflexivity.
  - apply ip_max_file; [constructor|]. unfold size_max. lia.
  - apply ALL. lia.
  - lia.
Qed.

(** VCD_TARGET: a first window adds four bytes, 600000000 windows after it copy them
    from the start of the target; 2400000004 bytes in all. *)
Definition c82_four : list Z := [7; 8; 9; 10].
Definition c82_first : list Z := [0] ++ [] ++ [10] ++ [4] ++ [0] ++ [4] ++ [1] ++ [0] ++ [] ++ [7; 8; 9; 10; 5].
Definition c82_again : list Z := [2] ++ ([4] ++ [0]) ++ [7] ++ [4] ++ [0] ++ [0] ++ [1] ++ [1] ++ [] ++ [20; 0].
Definition c82_f : format := file_format 0 rfc_table 4 3 true.

Lemma c82_first_window : Spec.window strict c82_f [] [] c82_first c82_four.
Proof.
  assert (forall b, 0 <= b < 128 -> varint [b] b) as V1.
  { intros b B. split; [apply is_varint_one; exact B|]. unfold varint_value. cbn [fold_left]. rewrite Z.mod_small by lia. lia. }
  assert (zlen c82_four = 4) as Z4 by reflexivity.
  apply (window_intro strict c82_f [] [] 0 [] [] [10] 10 [4] 0 [4] 4 [1] 1 [0] 0 []
    [{| i_op := 5; i_first := {| p_size := []; p_data := c82_four; p_addr := [] |}; i_second := no_piece |}]
    [7; 8; 9; 10; 5] [] c82_four).
  - unfold byte_ok. lia.
  - apply seg_none; reflexivity.
  - apply V1. lia.
  - rewrite Z4. apply V1. lia.
  - unfold byte_ok. lia.
  - reflexivity.
  - apply V1. lia.
  - apply V1. lia.
  - apply V1. lia.
  - reflexivity.
  - right. split; [intros (X & _); discriminate|]. split; [reflexivity|]. split; [reflexivity|]. split; reflexivity.
  - reflexivity.
  - eapply im_cons; [unfold byte_ok; cbn; lia|rewrite Z4; cbn [snd]; rewrite zlen_nil; lia| | |apply im_nil].
    + apply (hm_add 4 3 _ [] 4 [] 4 c82_four [] []); [rewrite zlen_nil; lia|left; split; [lia|split; reflexivity]|exact Z4].
    + apply hm_noop.
Qed.

Lemma c82_again_window : forall prev, Spec.window strict c82_f [] (c82_four ++ prev) c82_again c82_four.
Proof.
  intros prev.
  assert (forall b, 0 <= b < 128 -> varint [b] b) as V1.
  { intros b B. split; [apply is_varint_one; exact B|]. unfold varint_value. cbn [fold_left]. rewrite Z.mod_small by lia. lia. }
  assert (zlen c82_four = 4) as Z4 by reflexivity. pose proof (zlen_nonneg _ prev).
  apply (window_intro strict c82_f [] (c82_four ++ prev) 2 ([4] ++ [0]) c82_four [7] 7 [4] 0 [0] 0 [1] 1 [1] 1 []
    [{| i_op := 20; i_first := {| p_size := []; p_data := []; p_addr := [0] |}; i_second := no_piece |}]
    [20; 0] [0] c82_four).
  - unfold byte_ok. lia.
  - apply (seg_target _ _ _ _ [4] [0] 4 0); try reflexivity; [apply V1; lia|apply V1; lia|].
    rewrite slice_some by (rewrite ?zlen_app; lia). change (zdrop 0 (c82_four ++ prev)) with (zdrop (zlen (@nil Z)) ([] ++ c82_four ++ prev)).
    rewrite zdrop_app_eq by reflexivity. rewrite ztake_app_eq by reflexivity. reflexivity.
  - apply V1. lia.
  - rewrite Z4. apply V1. lia.
  - unfold byte_ok. lia.
  - reflexivity.
  - apply V1. lia.
  - apply V1. lia.
  - apply V1. lia.
  - reflexivity.
  - right. split; [intros (X & _); discriminate|]. split; [reflexivity|]. split; [reflexivity|]. split; reflexivity.
  - reflexivity.
  - eapply im_cons; [unfold byte_ok; cbn; lia|rewrite Z4; cbn [snd]; rewrite zlen_nil; lia| | |apply im_nil].
    + apply (hm_copy 4 3 _ c82_four 4 0 [] 4 [0] 0 [] [] c82_four); [rewrite zlen_nil; lia|left; split; [lia|split; reflexivity]| |reflexivity].
      apply addr_self; [apply V1; lia|rewrite zlen_nil; lia].
    + apply hm_noop.
Qed.

Lemma c82_again_low : target_segment_low c82_again c82_four.
Proof.
  intros ind b1 len b2 pos r EQ _ V1 V2. unfold c82_again in EQ. cbn [app] in EQ. injection EQ as _ EQ. symmetry in EQ.
  destruct (varint_head _ _ _ _ _ V1 EQ ltac:(lia)) as (_ & -> & EQ2).
  destruct (varint_head _ _ _ _ _ V2 EQ2 ltac:(lia)) as (_ & -> & _).
  change (zlen c82_four) with 4. unfold int32_max. lia.
Qed.

Lemma c82_windows : forall (ok : list Z -> list Z -> list Z -> Prop) k prev,
  (forall p, zlen p <= zlen (c82_four ++ prev) + 4 * Z.of_nat k - 4 -> ok p c82_again c82_four) ->
  windows_each strict strict c82_f [] ok (c82_four ++ prev) (concat (repeat c82_again k)) (c82_four ++ prev ++ concat (repeat c82_four k)).
Proof.
  intros ok k. induction k as [|k IH]; intros prev OK.
  - cbn [repeat concat]. rewrite app_nil_r. constructor.
  - cbn [repeat concat]. apply we_cons with (T := c82_four).
    + destruct (concat _); apply c82_again_window.
    + apply OK. lia.
    + assert (zlen c82_four = 4) as Z4 by reflexivity.
      rewrite (app_assoc prev). rewrite <- app_assoc. apply IH. intros p ZP. apply OK. rewrite !zlen_app in *. lia.
Qed.

Example C82_target_case : exists file out, zlen out = 2400000004 /\ bytes_ok file /\
  forall pieces, concat pieces = file -> decode_stream c82_decoder [] pieces = Some (true, out).
Proof.
  assert (zlen c82_four = 4) as Z4 by reflexivity.
  exists (file_header 0 0 ++ c82_first ++ concat (zrepeat c82_again 600000000)), (c82_four ++ concat (zrepeat c82_four 600000000)).
  split; [rewrite zlen_app, zlen_copies by lia; lia|].
  assert (Z.of_nat (Z.to_nat 600000000) = 600000000) as KN by (apply Z2Nat.id; lia).
  assert (max_window c82_decoder = 67108864 /\ max_file c82_decoder = 4000000000) as [MW MF] by (vm_compute; split; reflexivity).
  assert (forall k, bytes_ok (file_header 0 0 ++ c82_first ++ concat (repeat c82_again k))) as BF.
  { intros k. apply bytes_ok_app. split; [apply bytes_okb_ok; reflexivity|]. apply bytes_ok_app. split; [apply bytes_okb_ok; reflexivity|].
    induction k as [|k IH]; [constructor|]. cbn [repeat concat]. apply bytes_ok_app. split; [apply bytes_okb_ok; reflexivity|exact IH]. }
  unfold zrepeat. revert KN. generalize (Z.to_nat 600000000) as k. intros k KN. split; [apply BF|]. intros pieces EP.
  apply (C82_decoder_target strict c82_decoder [] (file_header 0 0) 0 rfc_table 4 3 (c82_first ++ concat (repeat c82_again k))).
  - apply ip_max_file; [constructor|]. unfold size_max. lia.
  - constructor.
  - rewrite zlen_nil. lia.
  - reflexivity.
  - constructor; auto; unfold byte_ok; lia.
  - right. lia.
  - change (zlen (file_header 0 0)) with 5. lia.
  - change (target_allowed c82_decoder) with true. fold c82_f.
    assert (forall prev w T, within 67108864 4000000000 prev T -> zlen w <= 100 -> zlen T <= 100 ->
      window_sized [] (within (max_window c82_decoder) (max_file c82_decoder)) prev w T) as WZ.
    { intros prev w T A B C. unfold window_sized. rewrite MW, MF. split; [exact A|]. rewrite zlen_nil. unfold int32_max. lia. }
    apply we_cons with (T := c82_four).
    + destruct (concat (repeat c82_again k)); apply c82_first_window.
    + split.
      * apply WZ; [|change (zlen c82_first) with 12; lia|lia]. unfold within. rewrite zlen_nil. lia.
      * intros ind b1 len b2 pos r EQ B. injection EQ as EI _. subst ind. discriminate.
    + pose proof (c82_windows (fun prev w T => window_sized [] (within (max_window c82_decoder) (max_file c82_decoder)) prev w T /\ target_segment_low w T) k []) as X.
      cbn [app] in X. rewrite app_nil_r in X. cbn [app]. apply X. intros p ZP. split; [|apply c82_again_low].
      apply WZ; [|change (zlen c82_again) with 11; lia|lia]. unfold within. lia.
  - apply bytes_ok_concat. rewrite EP. apply BF.
  - exact EP.
  - rewrite EP. apply no_code_table_bad. intros v ind tl EQ. injection EQ as _ <- _. reflexivity.
Qed.

(** The condition on the segment cannot be dropped: where the target is longer than
    2^31 bytes, a window of 15 bytes that copies four of them from position 2^31 is
    well-formed, and the decoder refuses it, whatever its other settings. *)
Definition c82_high : list Z := [2] ++ ([4] ++ [136; 128; 128; 128; 0]) ++ [7] ++ [4] ++ [0] ++ [0] ++ [1] ++ [1] ++ [] ++ [20; 0].

Theorem C82_target_high_refuted : exists prev w T, zlen prev = 2147483652 /\
  Spec.window strict c82_f [] prev w T /\ zlen w = 15 /\ zlen T = 4 /\
  forall c ns ss rest, d_win c = None -> d_sizes c = Some (ns, ss) -> d_target c = prev -> decode_window c (w ++ rest) = XErr.
Proof.
  assert (forall b, 0 <= b < 128 -> varint [b] b) as V1.
  { intros b B. split; [apply is_varint_one; exact B|]. unfold varint_value. cbn [fold_left]. rewrite Z.mod_small by lia. lia. }
  assert (zlen c82_four = 4) as Z4 by reflexivity.
  exists (concat (zrepeat c82_four 536870912) ++ c82_four), c82_high, c82_four.
  assert (zlen (concat (zrepeat c82_four 536870912)) = 2147483648) as ZP by (rewrite zlen_copies by lia; lia).
  revert ZP. generalize (concat (zrepeat c82_four 536870912)) as p. intros p ZP.
  split; [rewrite zlen_app; lia|]. split; [|split; [reflexivity|split; [exact Z4|]]].
  - apply (window_intro strict c82_f [] (p ++ c82_four) 2 ([4] ++ [136; 128; 128; 128; 0]) c82_four [7] 7 [4] 0 [0] 0 [1] 1 [1] 1 []
      [{| i_op := 20; i_first := {| p_size := []; p_data := []; p_addr := [0] |}; i_second := no_piece |}]
      [20; 0] [0] c82_four).
    + unfold byte_ok. lia.
    + apply (seg_target _ _ _ _ [4] [136; 128; 128; 128; 0] 4 2147483648); try reflexivity; [apply V1; lia| |].
      * split; [|reflexivity]. exists [136; 128; 128; 128], 0. split; [reflexivity|]. split; [|lia].
        repeat (apply Forall_cons; [lia|]). apply Forall_nil.
      * rewrite slice_some by (rewrite ?zlen_app; lia). rewrite zdrop_app_eq by lia.
        rewrite <- (app_nil_r c82_four) at 1. rewrite ztake_app_eq by reflexivity. reflexivity.
    + apply V1. lia.
    + rewrite Z4. apply V1. lia.
    + unfold byte_ok. lia.
    + reflexivity.
    + apply V1. lia.
    + apply V1. lia.
    + apply V1. lia.
    + reflexivity.
    + right. split; [intros (X & _); discriminate|]. split; [reflexivity|]. split; [reflexivity|]. split; reflexivity.
    + reflexivity.
    + eapply im_cons; [unfold byte_ok; cbn; lia|rewrite Z4; cbn [snd]; rewrite zlen_nil; lia| | |apply im_nil].
      * apply (hm_copy 4 3 _ c82_four 4 0 [] 4 [0] 0 [] [] c82_four); [rewrite zlen_nil; lia|left; split; [lia|split; reflexivity]| |reflexivity].
        apply addr_self; [apply V1; lia|rewrite zlen_nil; lia].
      * apply hm_noop.
  - intros c ns ss rest DW DS DT. rewrite (decode_window_none c ns ss) by auto.
    assert (header_fields c (c82_high ++ rest) = Err) as ->; [|reflexivity].
    unfold header_fields, parse_win_indicator, c82_high. cbn [app parse_byte bind].
    change (Z.testbit 2 0) with false. change (Z.testbit 2 1) with true. cbv iota.
    destruct (d_allow c); [|reflexivity]. cbn [negb]. unfold parse_source_segment.
    rewrite DT, zlen_app, ZP, Z4.
    change (parse_size (4 :: 136 :: 128 :: 128 :: 128 :: 0 :: 7 :: 4 :: 0 :: 0 :: 1 :: 1 :: 20 :: 0 :: rest))
      with (Ok (4, 136 :: 128 :: 128 :: 128 :: 0 :: 7 :: 4 :: 0 :: 0 :: 1 :: 1 :: 20 :: 0 :: rest)).
    cbn [bind]. change (2147483648 + 4 <? 4) with false. cbv iota.
    change (parse_size (136 :: 128 :: 128 :: 128 :: 0 :: 7 :: 4 :: 0 :: 0 :: 1 :: 1 :: 20 :: 0 :: rest)) with (@Err (Z * list Z)).
    reflexivity.
Qed.
Print Assumptions C82_target_high_refuted.
