(** C77: a delta of the encoder with target matching for which it is false. *)

From Coq Require Import ZifyBool ZifyNat.
From Verif Require Import Base ListFacts Spec SpecEncode SpecFind SpecMaximal CopyFacts Varint AddrCache CodeTable InstructionMap CodeTableFacts
  Adler AdlerFacts BodyFacts RollingHash BlockHash BlockHashFacts EncodeTable WriterFacts Engine EngineFacts Finds Maximal Runs JsonWriter Encoder EncoderFacts
  Decoder Usable Stream Session Reuse Properties_Stream Properties_Decode Properties_Encode Properties_Damage.

(** The engine, without a dictionary, on [n] equal bytes: the byte, and a COPY of it that
    overlaps with what it makes. *)
Lemma run_instructions : forall x n en, byte_ok x -> 33 <= n <= int32_max ->
  engine_init (new_engine []) = Some (en, true) -> engine_encode en true (zrepeat x n) = Some (Some [Add [x]; Copy 0 (n - 1)]).
Proof.
  intros x n en BX N EI.
  assert (ztake 1 (zdrop 0 (zrepeat x n)) = [x]) as EX.
  { unfold zrepeat. replace (Z.to_nat n) with (S (Z.to_nat (n - 1))) by lia. reflexivity. }
  assert (bytes_ok (zrepeat x n)) as BT by (apply Forall_forall; intros z Z; apply repeat_spec in Z; subst; exact BX).
  assert (periodic 1 (zrepeat x n)) as PE by apply zrepeat_periodic.
  assert (zlen (zrepeat x n) = n) as ZT by (apply zlen_zrepeat; lia).
  revert EX BT PE ZT. generalize (zrepeat x n) as T. intros T EX BT PE ZT.
  assert (bytes_ok []) as B0 by constructor.
  assert (zlen (@nil Z) = 0) as Z0 by reflexivity.
  destruct (engine_init_full [] B0) as (dh & dhs & EI2 & F); [unfold int32_max; lia|]. rewrite EI in EI2. injection EI2 as ->.
  destruct (engine_init_ok [] B0) as (en' & EI' & EN); [unfold int32_max; lia|]. rewrite EI in EI'. injection EI' as <-.
  destruct (engine_encode_ok _ [] true T EN BT) as (l & EE & GP); [intros Q; rewrite Q, zlen_nil in ZT; lia|lia|].
  rewrite EE. do 2 f_equal.
  destruct (engine_in_steps [] dh dhs true T l F BT ltac:(lia) EE) as (ls & e & S & Q & C).
  apply (steps_mono _ (emitted [] T true)) in S; [|intros p k c H; apply (found_emitted [] dh dhs T true p k c F); auto; lia].
  assert (hit T T 1 0 1) as HI.
  { pose proof (periodic_hit 1 T 1 0 ltac:(lia) PE ltac:(lia) ltac:(lia) ltac:(lia)) as X. rewrite Z.mul_1_l in X. exact X. }
  inversion S as [p0 E1 E2 E3|p0 k c l' e' (mt & m & a & EC & EK & G) S' E1 E2 E3].
  { subst. exfalso. destruct (Q 1 ltac:(lia) ltac:(lia)) as [_ X]. exact (X eq_refl HI). }
  subst. pose proof G as (N0 & MT & N32 & LE2 & WH & _ & _ & _ & cand & C1 & C2 & CM & _).
  assert (0 <= a < mt) as A by (destruct WH as [WH|[_ WH]]; lia).
  pose proof (target_copy_end 1 [] T true 0 mt m a ltac:(lia) PE G ltac:(lia)) as EN1. rewrite Z.add_0_l in *. rewrite EN1 in S'.
  apply steps_end in S' as [-> ->].
  assert (cand <= 1) as CA.
  { destruct (Z.lt_ge_cases 1 cand) as [X|X]; [|exact X]. exfalso. destruct (CM 1 ltac:(lia)) as [_ Y]. exact (Y eq_refl HI). }
  assert (mt = 1) as -> by lia. assert (a = 0) as -> by lia. assert (m = zlen T - 1) as -> by lia.
  cbn [Z.ltb Z.compare app] in C. rewrite EX in C.
  destruct C as [[-> _]|(d & -> & _ & LD)]; [reflexivity|]. exfalso.
  assert (d = []) as -> by (apply zlen_0_nil; lia).
  cbn [app] in GP. inversion GP as [|? ? ? ? _ G1|]; subst. inversion G1 as [| |? ? ? ? ? ? ? _ _ _ G2]; subst. inversion G2; subst. congruence.
Qed.

(** What the code table writer makes of these instructions *)
Definition c77_flags : flags := {| fl_interleaved := false; fl_checksum := true; fl_json := false |}.
Definition c77_written (x : Z) : option (list Z) :=
  match coder_init (create_writer c77_flags) 0 with
  | Some (c, true) =>
      match coder_calls (coder_checksum c 0) [Add [x]; Copy 0 65520] with
      | Some c1 => match coder_output c1 with Some (_, out) => Some out | None => None end
      | None => None
      end
  | _ => None
  end.
Lemma c77_written_eq : forall x, c77_written x = Some ([5; 0; 0; 15; 131; 255; 113; 0; 1; 5; 1; 0] ++ [x] ++ [2; 115; 131; 255; 112; 0]).
Proof. intros x. vm_compute. reflexivity. Qed.

Lemma run_stream : forall x, byte_ok x -> exists e e', streaming_encoder [] c77_flags true = Some e /\
  encode_stream e [zrepeat x 65521] = Some (e', true, file_header 83 0 ++ [5; 0; 0; 15; 131; 255; 113; 0; 1; 5; 1; 0] ++ [x] ++ [2; 115; 131; 255; 112; 0]).
Proof.
  intros x B.
  assert (bytes_ok []) as B0 by constructor.
  destruct (engine_init_ok [] B0) as (en & EI & EN); [unfold int32_max; rewrite zlen_nil; lia|].
  assert (en_dict en = []) as ED by (destruct EN; assumption).
  assert (engine_encode en true (zrepeat x 65521) = Some (Some [Add [x]; Copy 0 65520])) as RI
    by (apply (run_instructions x 65521 en B); [unfold int32_max; lia|exact EI]).
  assert (compute_adler32 (zrepeat x 65521) = 0) as RA.
  { rewrite C40_checksum_exact; [apply run_adler|]. apply Forall_forall. intros z Z. apply repeat_spec in Z. subst. exact B. }
  exists (new_encoder en c77_flags true).
  pose proof (c77_written_eq x) as W. unfold c77_written in W.
  unfold streaming_encoder. rewrite EI. unfold encode_stream, start_encoding.
  change (ec_engine (new_encoder en c77_flags true)) with en. change (ec_coder (new_encoder en c77_flags true)) with (create_writer c77_flags).
  rewrite ED, zlen_nil. destruct (coder_init (create_writer c77_flags) 0) as [[c [|]]|] eqn:CI; [|discriminate W|discriminate W].
  assert (exists w, c = Binary w) as (w & ->).
  { change (create_writer c77_flags) with (Binary (new_writer false)) in CI. cbn [coder_init] in CI.
    destruct (writer_init (new_writer false) 0) as [[w' r]|]; [|discriminate CI]. injection CI as <- _. exists w'. reflexivity. }
  cbn [coder_verify negb encode_chunks]. unfold encode_chunk.
  cbn [set_coder ec_allowed ec_coder ec_engine ec_look ec_flags new_encoder new_custom_encoder negb coder_verify].
  change (fl_checksum c77_flags) with true. cbv iota. rewrite RI, RA.
  cbn [coder_checksum coder_calls] in W |- *.
  destruct (writer_calls (add_checksum w 0) [Add [x]; Copy 0 65520]) as [w1|]; [|discriminate W]. cbn [coder_output] in W |- *.
  destruct (writer_output w1) as [[w2 out]|]; [|discriminate W].
  assert (out = [5; 0; 0; 15; 131; 255; 113; 0; 1; 5; 1; 0] ++ [x] ++ [2; 115; 131; 255; 112; 0]) as -> by congruence.
  unfold finish_encoding. cbn [set_coder ec_allowed ec_coder negb coder_finish]. eexists. split; [reflexivity|]. rewrite app_nil_r. reflexivity.
Qed.

(** With target matching the bound of 65521 bytes cannot be dropped even for the deltas
    that the encoder writes. For 65521 equal bytes it writes the byte once, as the only
    byte of the data section, and copies it; the delta is otherwise the same whatever the
    byte is, the checksum included. So if the byte is damaged on the way, the decoder
    accepts the delta and delivers 65521 wrong bytes. *)
Theorem C77_encoder_refuted : exists fl A dcl B, fl_checksum fl = true /\ declares true A dcl /\ h_data_len dcl = 1 /\
  forall x, byte_ok x ->
    (exists e e', streaming_encoder [] fl true = Some e /\ encode_stream e [zrepeat x 65521] = Some (e', true, file_header 83 0 ++ A ++ [x] ++ B)) /\
    decode_stream new_decoder [] [file_header 83 0 ++ A ++ [x] ++ B] = Some (true, zrepeat x 65521).
Proof.
  exists c77_flags, [5; 0; 0; 15; 131; 255; 113; 0; 1; 5; 1; 0]. eexists. exists [2; 115; 131; 255; 112; 0]. split; [reflexivity|].
  split.
  { apply (declares_intro true 5 ([0] ++ [0]) [15] 15 [131; 255; 113] 65521 0 [1] 1 [5] 5 [1] 1 [0] (Some 0)); try (apply digit; lia).
    - unfold segment_fields. change (Z.testbit 5 0 || Z.testbit 5 1) with true. cbv iota. exists [0], 0, [0], 0. split; [reflexivity|]. split; apply digit; lia.
    - split; [exists [131; 255], 113; split; [reflexivity|]; split; [repeat constructor; lia|lia]|reflexivity].
    - exists 0. split; [reflexivity|]. apply digit. lia. }
  split; [reflexivity|]. intros x B. destruct (run_stream x B) as (e & e' & SE & ES). split; [exists e, e'; split; [exact SE|exact ES]|].
  assert (bytes_ok (zrepeat x 65521)) as BT by (apply Forall_forall; intros z Z; apply repeat_spec in Z; subst; exact B).
  assert (concat [zrepeat x 65521] = zrepeat x 65521) as CC by apply app_nil_r.
  assert (zlen (zrepeat x 65521) = 65521) as ZT by apply run_length.
  destruct (C02_streaming_round_trip [] [zrepeat x 65521] c77_flags true new_decoder) as (f & f' & delta & SF & FS & RT).
  - constructor.
  - constructor; [exact BT|constructor].
  - reflexivity.
  - rewrite CC, zlen_nil, ZT. unfold int32_max. lia.
  - rewrite CC, ZT. change (zlen [zrepeat x 65521]) with 1. unfold int32_max. lia.
  - apply ip_new.
  - constructor; [rewrite ZT; vm_compute; discriminate|constructor].
  - rewrite CC, ZT. vm_compute. discriminate.
  - rewrite SE in SF. injection SF as <-. rewrite ES in FS. assert (delta = file_header 83 0 ++ [5; 0; 0; 15; 131; 255; 113; 0; 1; 5; 1; 0] ++ [x] ++ [2; 115; 131; 255; 112; 0]) as D by congruence.
    specialize (RT [delta] (app_nil_r delta)). rewrite CC, D in RT. exact RT.
Qed.
Print Assumptions C77_encoder_refuted.
