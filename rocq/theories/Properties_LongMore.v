(** C46, C54, C38 and C41 for streams and files longer than 2^31 bytes. *)

From Verif Require Import Base ListFacts Spec SpecLong SpecEncode Varint CodeTable Decoder Usable Stream Session Reuse Files Sound Unique Chunked Engine EngineFacts Encoder EncodeTable
  EncoderFacts EncoderCalls LongStream LongEncode NoTarget Properties_Stream Properties_Decode Properties_Encode More Properties_Live Properties_More Properties_Long
  Cli CliFacts Properties_Cli.
From Coq Require Import ZifyBool ZifyNat.

(** ** C46 *)

(** [C46_no_lag] with a limit only for each chunk: sender and receiver can go on
    without end. *)
Theorem C46_long : forall dict chunks fl look d,
  bytes_ok dict -> zlen dict <= 2147483647 -> Forall bytes_ok chunks -> Forall (chunk_size_ok dict) chunks -> fl_json fl = false ->
  idle_plain d -> Forall (fun c => zlen c <= max_window d) chunks -> zlen (concat chunks) <= max_file d ->
  exists e e1 header sent, streaming_encoder dict fl look = Some e /\ start_encoding e = Some (e1, true, header) /\
    packets e1 chunks = Some sent /\ length sent = length chunks /\
    forall k, exists dk, decode_chunks (start_decoding d dict) (header :: firstn k sent) [] = Some (dk, true, concat (firstn k chunks)) /\
      snd (finish_decoding dk) = true.
Proof.
  intros dict chunks fl look d BD ZD F G J IP MW MF.
  assert (forall k, exists e e' delta, streaming_encoder dict fl look = Some e /\ encode_stream e (firstn k chunks) = Some (e', true, delta) /\
    forall pieces, concat pieces = delta -> decode_stream d dict pieces = Some (true, concat (firstn k chunks))) as RT.
  { intros k. destruct (concat_firstn_len chunks k). apply C82_round_trip; auto; try (apply Forall_firstn; assumption); lia. }
  destruct (RT (length chunks)) as (e & e' & delta & SE & ES & _). rewrite firstn_all in ES.
  unfold encode_stream in ES. destruct (start_encoding e) as [[[e1 [|]] header]|] eqn:ST; try discriminate.
  destruct (encode_chunks e1 chunks header) as [[[e2 [|]] o2]|] eqn:EC; try discriminate.
  destruct (packets_exist _ _ _ _ _ EC) as (sent & PK & LEN & K).
  exists e, e1, header, sent. split; [exact SE|]. split; [exact ST|]. split; [exact PK|]. split; [exact LEN|]. intros k.
  destruct (RT k) as (e0 & e0' & delta0 & SE0 & ES0 & DS). rewrite SE in SE0. injection SE0 as <-.
  unfold encode_stream in ES0. rewrite ST in ES0. destruct (K k) as (ek & EK). rewrite EK in ES0.
  destruct (finish_encoding ek) as [[e3 r] o3] eqn:FE. injection ES0 as <- -> <-.
  assert (o3 = []) as ->.
  { unfold finish_encoding in FE. destruct (negb (ec_allowed ek)); [congruence|]. injection FE as _ FO. rewrite <- FO.
    assert (is_binary (ec_coder ek)) as B.
    { eapply chunks_binary; [|exact EK]. eapply start_binary; [|exact ST]. unfold streaming_encoder in SE.
      destruct (engine_init (new_engine dict)) as [[en [|]]|]; try discriminate. injection SE as <-. cbn [new_encoder new_custom_encoder ec_coder].
      unfold new_encoder, new_custom_encoder, create_writer. cbn [ec_coder]. rewrite J. exact Logic.I. }
    destruct (ec_coder ek); [reflexivity|destruct B]. }
  rewrite app_nil_r in DS. specialize (DS (header :: firstn k sent) eq_refl). unfold decode_stream in DS.
  destruct (decode_chunks _ _ _) as [[[dk [|]] o]|]; try discriminate. injection DS as FD <-. eauto.
Qed.
Print Assumptions C46_long.

(** 20000000 packets, 2480000000 bytes: after every one the receiver has all. *)
Example C46_long_case : exists chunks, zlen (concat chunks) = 2480000000 /\
  exists e e1 header sent, streaming_encoder c01_dict (flags_of true true) true = Some e /\ start_encoding e = Some (e1, true, header) /\
    packets e1 chunks = Some sent /\ length sent = length chunks /\
    forall k, exists dk, decode_chunks (start_decoding c82_decoder c01_dict) (header :: firstn k sent) [] = Some (dk, true, concat (firstn k chunks)) /\
      snd (finish_decoding dk) = true.
Proof.
  exists (zrepeat c01_target 20000000).
  assert (zlen c01_target = 124) as ZC by (vm_compute; reflexivity).
  assert (zlen c01_dict = 60) as ZD by (vm_compute; reflexivity).
  assert (bytes_ok c01_target) as BT by (apply bytes_okb_ok; vm_compute; reflexivity).
  assert (max_window c82_decoder = 67108864 /\ max_file c82_decoder = 4000000000) as [MW MF] by (vm_compute; split; reflexivity).
  pose proof (zlen_copies c01_target 20000000 ltac:(lia)) as ZA. rewrite ZC in ZA.
  set (chunks := zrepeat c01_target 20000000) in *.
  assert (forall P : list Z -> Prop, P c01_target -> Forall P chunks) as ALL by (intros P; apply all_copies).
  clearbody chunks. split; [lia|].
  apply C46_long.
  - apply bytes_okb_ok. vm_compute. reflexivity.
  - lia.
  - apply ALL. exact BT.
  - apply ALL. unfold chunk_size_ok. lia.
  - reflexivity.
  - apply ip_max_file; [constructor|]. unfold size_max. lia.
  - apply ALL. lia.
  - lia.
Qed.

(** ** C54 *)

(** [C54_grown_dictionary] with a limit only for each chunk. *)
Theorem C54_long : forall dict extra chunks fl look d,
  bytes_ok dict -> zlen dict <= 2147483647 -> bytes_ok extra -> Forall bytes_ok chunks -> Forall (chunk_size_ok dict) chunks -> fl_json fl = false ->
  idle_plain d -> Forall (fun c => zlen c <= max_window d) chunks -> zlen (concat chunks) <= max_file d ->
  exists e e' delta, streaming_encoder dict fl look = Some e /\ encode_stream e chunks = Some (e', true, delta) /\
    forall pieces, concat pieces = delta -> decode_stream d (dict ++ extra) pieces = Some (true, concat chunks).
Proof.
  intros dict extra chunks fl look d BD ZD BE F G J IP MW MF.
  destruct (C82_round_trip dict chunks fl look d BD ZD F G J IP MW MF) as (e & e' & delta & SE & ES & H).
  exists e, e', delta. split; [exact SE|]. split; [exact ES|]. intros pieces EP.
  assert (Forall bytes_ok pieces) as FP.
  { destruct (streaming_encoder_ok dict fl look BD) as (en & EN & SE2); [exact ZD|].
    destruct (new_encoder_inv en dict fl look true EN) as (im & EI); [exact ZD|exact J|].
    destruct (stream_file _ dict im _ fl true (fun _ _ => True) chunks EI eq_refl J) as (w' & delta2 & ES2 & _ & BO & _);
      [apply chunks_size_ok; auto|auto|].
    assert (new_encoder en fl look = e) as X by congruence. rewrite X in ES2. assert (delta2 = delta) as -> by congruence.
    apply bytes_ok_concat. rewrite EP. exact BO. }
  apply (more_same d d dict extra pieces (concat chunks)); auto; lia.
Qed.
Print Assumptions C54_long.

(** ** C38 *)

Lemma cli_encode_long : forall s w dict T fuel,
  let m := Z.min (zlen T) (s_buffersize s) in
  let fl := {| fl_interleaved := s_interleaved s; fl_checksum := s_checksum s; fl_json := s_json s |} in
  bytes_ok dict -> bytes_ok T -> s_json s = false -> 0 < s_buffersize s ->
  wo_files w (s_dictionary s) = Some dict ->
  input_is w (s_target s) T -> T <> [] \/ s_target s = [] ->
  can_write w (s_delta s) (s_target s) ->
  zlen dict + m <= 2147483647 -> m + 53 <= 2147483647 ->
  zlen T + 1 < Z.of_nat fuel ->
  exists w1 delta chunks e e', cli_encode fuel w s = Exit true w1 /\ result_is (s_delta s) delta w w1 /\ delta <> [] /\
    concat chunks = T /\ Forall (fun c => 0 < zlen c <= m) chunks /\
    streaming_encoder dict fl (s_target_matches s) = Some e /\ encode_stream e chunks = Some (e', true, delta).
Proof.
  intros s w dict T fuel m fl BD BT J B FD IT NE CW L1 L2 FU. pose proof (zlen_nonneg _ dict). pose proof (zlen_nonneg _ T).
  assert (0 <= m) as M0 by (subst m; lia).
  unfold cli_encode, open_dictionary. rewrite FD.
  destruct (open_reading w _ T _ IT B NE) as (buf & -> & BB & BQ).
  destruct (open_writing w _ _ CW) as (w1 & -> & OW & IO & OE & OQ & DN).
  destruct (streaming_encoder_ok dict fl (s_target_matches s) BD) as (en & EN & SE); [unfold int32_max; lia|].
  assert (engine_init (new_engine dict) = Some (en, true)) as EI0.
  { unfold streaming_encoder in SE. destruct (engine_init (new_engine dict)) as [[en' [|]]|]; try discriminate. injection SE as Q. congruence. }
  rewrite EI0. fold fl. set (e0 := new_encoder en fl (s_target_matches s)) in *.
  destruct (new_encoder_inv en dict fl (s_target_matches s) true EN) as (im & EI); [unfold int32_max; lia|exact J|]. fold e0 in EI.
  destruct (start_encoding_ok e0 dict im _ _ EI) as (co & _ & ST & _). set (e1 := set_coder e0 _ _) in ST. set (o1 := write_header (ec_flags e0)) in *.
  assert (zlen o1 = 5) as HO1 by apply write_header_bytes.
  rewrite ST. set (inp := {| fi_name := s_target s |}).
  assert (content w1 (s_target s) = T) as CT.
  { rewrite (only_wrote_content _ _ _ _ OW); [apply input_content; exact IT|]. destruct DN; auto. }
  destruct (encode_loop_ok fuel w1 inp buf (s_delta s) e1 o1) as (chunks & P1 & P2 & P3); auto; try (cbn; lia).
  { cbn. destruct DN; auto. }
  { cbn [fi_name fi_pos inp]. rewrite CT, zdrop_0. exact FU. }
  cbn [fi_name fi_pos inp] in P1. rewrite CT, zdrop_0 in P1.
  assert (Forall (fun c => 0 < zlen c <= m) chunks) as FC.
  { apply pieces_forall in P2; [|lia]. apply Forall_forall. intros x IN. rewrite Forall_forall in P2. specialize (P2 x IN).
    assert (zlen x <= zlen T) as LX.
    { apply in_split in IN as (p & q & Q). rewrite <- P1, Q, concat_app. cbn [concat]. rewrite !zlen_app.
      pose proof (zlen_nonneg _ (concat p)). pose proof (zlen_nonneg _ (concat q)). lia. }
    subst m. lia. }
  assert (exists e2 o e3, encode_chunks e1 chunks [] = Some (e2, true, o) /\ encode_stream e0 chunks = Some (e3, true, o1 ++ o ++ snd (finish_encoding e2))) as (e2 & o & e3 & EC & ES).
  { destruct (stream_file _ dict im _ fl true (fun _ _ => True) chunks EI eq_refl J) as (w' & delta & ES & _).
    - apply chunks_size_ok; [apply bytes_ok_concat; rewrite P1; exact BT|]. eapply Forall_impl; [|exact FC]. cbv beta. unfold chunk_size_ok. intros. lia.
    - auto.
    - unfold encode_stream in *. rewrite ST in *. rewrite (encode_chunks_acc chunks e1 o1) in *.
      destruct (encode_chunks e1 chunks []) as [[[e2 [|]] o]|]; try discriminate. exists e2, o.
      destruct (finish_encoding e2) as [[e3 r3] o3]. cbn [snd]. exists e3. split; [reflexivity|]. injection ES as _ -> _. rewrite <- app_assoc. reflexivity. }
  destruct (P3 _ _ EC) as (w' & -> & W). set (delta := o1 ++ o ++ snd (finish_encoding e2)) in *.
  assert (delta = o1 ++ o ++ snd (finish_encoding e2)) as ED0 by reflexivity. clearbody delta.
  exists w', delta, chunks, e0, e3. split; [reflexivity|]. split; [eapply wrote_result; eauto|].
  split; [|split; [exact P1|split; [exact FC|split; [exact SE|exact ES]]]].
  intros E. rewrite ED0 in E. apply app_eq_nil in E as [E _]. apply (f_equal zlen) in E. rewrite HO1 in E. discriminate E.
Qed.

(** [C38_round_trip_partial] for files of any length: only what is read at a time, and
    the dictionary, are limited.  Missing: named files of length 0
    ([C38_empty_target_refuted], [C38_empty_delta_refuted]). *)
Theorem C38_long_partial : forall s w dict T fuel,
  bytes_ok dict -> bytes_ok T -> s_json s = false -> 0 < s_buffersize s ->
  s_dictionary s <> [] -> wo_files w (s_dictionary s) = Some dict ->
  input_is w (s_target s) T -> T <> [] \/ s_target s = [] ->
  can_write w (s_delta s) (s_target s) ->
  zlen dict + Z.min (zlen T) (s_buffersize s) <= 2147483647 -> Z.min (zlen T) (s_buffersize s) + 53 <= 2147483647 ->
  zlen T + 1 < Z.of_nat fuel ->
  exists w1 delta, vcdiff fuel CEncode s w = Exit true w1 /\ result_is (s_delta s) delta w w1 /\
    forall s2 w2 fuel2,
      0 < s_buffersize s2 -> s_dictionary s2 <> [] -> wo_files w2 (s_dictionary s2) = Some dict ->
      input_is w2 (s_delta s2) delta -> can_write w2 (s_target s2) (s_delta s2) ->
      zlen T <= s_max_file s2 <= size_max -> 0 <= s_max_window s2 <= size_max ->
      Z.min (zlen T) (s_buffersize s) <= window_limit s2 ->
      zlen delta + 1 < Z.of_nat fuel2 ->
      exists w3, vcdiff fuel2 CDecode s2 w2 = Exit true w3 /\ result_is (s_target s2) T w2 w3.
Proof.
  intros s w dict T fuel BD BT J B SD FD IT NE CW L1 L2 FU. pose proof (zlen_nonneg _ dict). pose proof (zlen_nonneg _ T).
  destruct (cli_encode_long s w dict T fuel BD BT J B FD IT NE CW L1 L2 FU) as (w1 & delta & chunks & e & e' & E & RI & ND & CC & FC & SE & ES).
  exists w1, delta. split; [|split; [exact RI|]].
  { unfold vcdiff. destruct (s_dictionary s) as [|c0 n0] eqn:ED; [congruence|]. cbn [nonempty negb].
    destruct (Z.eqb_spec (s_buffersize s) 0); [lia|]. exact E. }
  intros s2 w2 fuel2 B2 SD2 FD2 ID2 CW2 MF MW ML FU2. destruct (cli_decoder_limits s2) as (LW & LF & LA).
  destruct (cli_decode_run s2 w2 dict delta fuel2 B2 SD2 FD2 ID2 (or_introl ND) CW2 FU2) as (pieces & Q1 & Q2 & Q3).
  assert (decode_stream (cli_decoder s2) dict pieces = Some (true, T)) as DS.
  { set (m := Z.min _ _) in *.
    destruct (C82_round_trip dict chunks {| fl_interleaved := s_interleaved s; fl_checksum := s_checksum s; fl_json := s_json s |} (s_target_matches s) (cli_decoder s2) BD)
      as (e9 & e9' & d9 & SE9 & ES9 & H9); auto.
    - subst m. lia.
    - apply bytes_ok_concat. rewrite CC. exact BT.
    - eapply Forall_impl; [|exact FC]. cbv beta. unfold chunk_size_ok. intros. lia.
    - apply cli_decoder_plain; lia.
    - eapply Forall_impl; [|exact FC]. cbv beta. intros. lia.
    - rewrite CC. lia.
    - rewrite SE in SE9. injection SE9 as <-. rewrite ES in ES9. injection ES9 as _ <-. rewrite CC in H9. apply H9. exact Q1. }
  rewrite DS in Q3. destruct Q3 as (w3 & a & b & -> & RI3 & EQ & Q). rewrite (Q eq_refl), app_nil_r in EQ. subst a. exists w3. auto.
Qed.
Print Assumptions C38_long_partial.

(** A target file of 3000000000 bytes, read a megabyte at a time. *)
Definition c38_settings : settings :=
  {| s_dictionary := n_dict; s_target := n_copy; s_delta := n_delta; s_buffersize := 4096; s_allow_vcd_target := true; s_checksum := true;
     s_interleaved := true; s_json := false; s_target_matches := true; s_max_file := 4000000000; s_max_window := 67108864 |}.
Example C38_long_case : exists T fuel w1 delta, zlen T = 3000000000 /\
  vcdiff fuel CEncode (some_settings n_target n_delta 1048576) (some_world c01_dict T []) = Exit true w1 /\
  result_is n_delta delta (some_world c01_dict T []) w1 /\
  exists fuel2 w3, vcdiff fuel2 CDecode c38_settings (some_world c01_dict [] delta) = Exit true w3 /\
    result_is n_copy T (some_world c01_dict [] delta) w3.
Proof.
  exists (zrepeat 7 3000000000).
  assert (zlen c01_dict = 60) as ZD by (vm_compute; reflexivity).
  assert (bytes_ok c01_dict) as BD by (apply bytes_okb_ok; vm_compute; reflexivity).
  assert (zlen (zrepeat 7 3000000000) = 3000000000) as ZT by (apply zlen_zrepeat; lia).
  assert (bytes_ok (zrepeat 7 3000000000)) as BT by (unfold zrepeat, bytes_ok; apply Forall_forall; intros x IN; apply repeat_spec in IN as ->; unfold byte_ok; lia).
  assert (exists f, Z.of_nat f = 4000000000) as (fuel & FU) by (exists (Z.to_nat 4000000000); lia).
  set (T := zrepeat 7 3000000000) in *. clearbody T. exists fuel.
  destruct (C38_long_partial (some_settings n_target n_delta 1048576) (some_world c01_dict T []) c01_dict T fuel) as (w1 & delta & E & RI & D); auto.
  - reflexivity.
  - discriminate.
  - right. split; [discriminate|reflexivity].
  - left. intros ->. rewrite zlen_nil in ZT. lia.
  - right. split; [discriminate|reflexivity].
  - cbn [some_settings s_buffersize]. lia.
  - cbn [some_settings s_buffersize]. lia.
  - lia.
  - exists w1, delta. split; [exact ZT|]. split; [exact E|]. split; [exact RI|].
    assert (exists f, zlen delta + 1 < Z.of_nat f) as (fuel2 & FU2) by (exists (Z.to_nat (zlen delta + 2)); pose proof (zlen_nonneg _ delta); lia).
    destruct (D c38_settings (some_world c01_dict [] delta) fuel2) as (w3 & E3 & RI3); auto.
    + reflexivity.
    + discriminate.
    + right. split; [discriminate|reflexivity].
    + right. split; [discriminate|reflexivity].
    + cbn [c38_settings s_max_file]. unfold size_max. lia.
    + cbn [c38_settings s_max_window]. unfold size_max. lia.
    + rewrite ZT. vm_compute. discriminate.
    + exists fuel2, w3. split; [exact E3|exact RI3].
Qed.

Example C54_long_case : exists chunks, zlen (concat chunks) = 2480000000 /\
  exists e e' delta, streaming_encoder c01_dict (flags_of true true) true = Some e /\ encode_stream e chunks = Some (e', true, delta) /\
    forall pieces, concat pieces = delta -> decode_stream c82_decoder (c01_dict ++ [1;2;3]) pieces = Some (true, concat chunks).
Proof.
  exists (zrepeat c01_target 20000000).
  assert (zlen c01_target = 124) as ZC by (vm_compute; reflexivity).
  assert (zlen c01_dict = 60) as ZD by (vm_compute; reflexivity).
  assert (bytes_ok c01_target) as BT by (apply bytes_okb_ok; vm_compute; reflexivity).
  assert (max_window c82_decoder = 67108864 /\ max_file c82_decoder = 4000000000) as [MW MF] by (vm_compute; split; reflexivity).
  pose proof (zlen_copies c01_target 20000000 ltac:(lia)) as ZA. rewrite ZC in ZA.
  set (chunks := zrepeat c01_target 20000000) in *.
  assert (forall P : list Z -> Prop, P c01_target -> Forall P chunks) as ALL by (intros P; apply all_copies).
  clearbody chunks. split; [lia|].
  apply C54_long.
  - apply bytes_okb_ok. vm_compute. reflexivity.
  - lia.
  - apply bytes_okb_ok. reflexivity.
  - apply ALL. exact BT.
  - apply ALL. unfold chunk_size_ok. lia.
  - reflexivity.
  - apply ip_max_file; [constructor|]. unfold size_max. lia.
  - apply ALL. lia.
  - lia.
Qed.

(** ** C41 *)

Lemma nonempty_chunks : forall (chunks : list (list Z)) m, Forall (fun c => 0 < zlen c <= m) chunks -> zlen chunks <= zlen (concat chunks).
Proof. intros chunks m H. induction H as [|c l H _ IH]; [reflexivity|]. cbn [concat]. rewrite zlen_cons, zlen_app. lia. Qed.

(** [C41_test_passes] for files of any length. *)
Theorem C41_test_long : forall s w dict T fuel,
  bytes_ok dict -> bytes_ok T -> s_json s = false -> 0 < s_buffersize s ->
  s_dictionary s <> [] -> wo_files w (s_dictionary s) = Some dict -> s_target s <> [] -> wo_files w (s_target s) = Some T -> T <> [] ->
  s_delta s <> [] -> wo_writable w (s_delta s) = true -> s_delta s <> s_target s -> s_delta s <> s_dictionary s ->
  zlen dict + Z.min (zlen T) (s_buffersize s) <= 2147483647 -> Z.min (zlen T) (s_buffersize s) + 53 <= 2147483647 ->
  zlen T <= s_max_file s <= size_max -> 0 <= s_max_window s <= size_max -> Z.min (zlen T) (s_buffersize s) <= window_limit s ->
  54 * zlen T + 6 < Z.of_nat fuel ->
  exists w1 delta, vcdiff fuel CTest s w = Exit true w1 /\ result_is (s_delta s) delta w w1.
Proof.
  intros s w dict T fuel BD BT J B SD FD ST FT NT SX WX DT DD L1 L2 MF MW ML FU. pose proof (zlen_nonneg _ T). pose proof (zlen_nonneg _ dict).
  assert (input_is w (s_target s) T) as IT by (right; auto). assert (can_write w (s_delta s) (s_target s)) as CW by (right; auto).
  destruct (cli_encode_long s w dict T fuel BD BT J B FD IT (or_introl NT) CW L1 L2 ltac:(lia)) as (w1 & delta & chunks & e & e' & E & RI & ND & CC & FC & SE & ES).
  exists w1, delta. split; [|exact RI]. destruct RI as [OW [[Q _]|[_ FX]]]; [congruence|].
  unfold vcdiff. rewrite E. destruct (s_dictionary s) as [|c0 n0] eqn:ED; [congruence|]. destruct (s_target s) as [|c1 n1] eqn:ET; [congruence|].
  destruct (s_delta s) as [|c2 n2] eqn:EX; [congruence|]. cbn [nonempty negb orb]. destruct (Z.eqb_spec (s_buffersize s) 0); [lia|].
  rewrite <- ED, <- ET, <- EX in *. destruct OW as (_ & _ & OW & _).
  set (m := Z.min _ _) in *. set (fl := {| fl_interleaved := _ |}) in *. assert (fl_json fl = false) as JF by exact J.
  assert (0 <= m) as M0 by (subst m; lia).
  assert (Forall bytes_ok chunks) as CB by (apply bytes_ok_concat; rewrite CC; exact BT).
  assert (Forall (chunk_size_ok dict) chunks) as CS by (eapply Forall_impl; [|exact FC]; cbv beta; unfold chunk_size_ok; intros; lia).
  assert (zlen delta <= 54 * zlen T + 5 /\ bytes_ok delta) as [LD BO].
  { destruct (streaming_encoder_ok dict fl (s_target_matches s) BD) as (en & EN & SE2); [unfold int32_max; lia|].
    destruct (new_encoder_inv en dict fl (s_target_matches s) true EN) as (im & EI); [unfold int32_max; lia|exact JF|].
    destruct (stream_file _ dict im _ fl true (fun _ _ => True) chunks EI eq_refl JF) as (w' & delta2 & ES2 & _ & BO & _ & _ & LD);
      [apply chunks_size_ok; auto|auto|].
    assert (new_encoder en fl (s_target_matches s) = e) as X by congruence. rewrite X in ES2. assert (delta2 = delta) as -> by congruence.
    pose proof (nonempty_chunks _ _ FC). rewrite CC in *. split; [lia|exact BO]. }
  destruct (C41_compare_exact s w1 dict delta T fuel) as (pieces & P1 & P2 & _ & P4); auto; try congruence; try lia.
  - rewrite OW by (left; congruence). exact FD.
  - rewrite OW by (left; congruence). exact FT.
  - apply P4. destruct (cli_decoder_limits s) as (LW & LF & LA).
    destruct (C82_round_trip dict chunks fl (s_target_matches s) (cli_decoder s) BD) as (e9 & e9' & d9 & SE9 & ES9 & H9); auto.
    + lia.
    + apply cli_decoder_plain; lia.
    + eapply Forall_impl; [|exact FC]. cbv beta. intros. lia.
    + rewrite CC. lia.
    + rewrite SE in SE9. injection SE9 as <-. rewrite ES in ES9. injection ES9 as _ <-. rewrite CC in H9. apply H9. exact P1.
Qed.
Print Assumptions C41_test_long.

Definition c41_settings : settings :=
  {| s_dictionary := n_dict; s_target := n_target; s_delta := n_delta; s_buffersize := 1048576; s_allow_vcd_target := true; s_checksum := true;
     s_interleaved := true; s_json := false; s_target_matches := true; s_max_file := 4000000000; s_max_window := 67108864 |}.
Example C41_long_case : exists T fuel w1 delta, zlen T = 3000000000 /\
  vcdiff fuel CTest c41_settings (some_world c01_dict T []) = Exit true w1 /\ result_is n_delta delta (some_world c01_dict T []) w1.
Proof.
  exists (zrepeat 7 3000000000).
  assert (zlen c01_dict = 60) as ZD by (vm_compute; reflexivity).
  assert (bytes_ok c01_dict) as BD by (apply bytes_okb_ok; vm_compute; reflexivity).
  assert (zlen (zrepeat 7 3000000000) = 3000000000) as ZT by (apply zlen_zrepeat; lia).
  assert (bytes_ok (zrepeat 7 3000000000)) as BT by (unfold zrepeat, bytes_ok; apply Forall_forall; intros x IN; apply repeat_spec in IN as ->; unfold byte_ok; lia).
  assert (exists f, Z.of_nat f = 200000000000) as (fuel & FU) by (exists (Z.to_nat 200000000000); lia).
  set (T := zrepeat 7 3000000000) in *. clearbody T. exists fuel.
  destruct (C41_test_long c41_settings (some_world c01_dict T []) c01_dict T fuel) as (w1 & delta & E & RI); auto.
  - reflexivity.
  - discriminate.
  - discriminate.
  - intros ->. rewrite zlen_nil in ZT. lia.
  - discriminate.
  - discriminate.
  - discriminate.
  - cbn [c41_settings s_buffersize]. lia.
  - cbn [c41_settings s_buffersize]. lia.
  - cbn [c41_settings s_max_file]. unfold size_max. lia.
  - cbn [c41_settings s_max_window]. unfold size_max. lia.
  - rewrite ZT. vm_compute. discriminate.
  - lia.
  - exists w1, delta. split; [exact ZT|]. split; [exact E|exact RI].
Qed.
