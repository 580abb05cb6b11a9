(** C60: whether encoding can end the program in a build without NDEBUG.

    [e_streaming dict fl look calls]: the first VCD_DFATAL reached when a HashedDictionary
    is made of [dict], initialised, a VCDiffStreamingEncoder made for it, and the calls
    [calls] are made on it.  [e_encodes v targets]: the same for calls of Encode on the
    VCDiffEncoder [v]. *)

From Verif Require Import Base ListFacts CopyFacts Spec SpecEncode SpecInstr Varint VarintFacts AddrCache AddrCacheFacts CodeTable CodeTableFacts
  InstructionMap InstructionMapFacts EncodeTable JsonWriter Adler AdlerFacts WriterFacts RollingHash RollingHashFacts
  BlockHash BlockHashFacts Engine EngineFacts Encoder EncoderFacts BodyFacts EncoderCalls FatalEnc FatalEncFacts.
From Coq Require Import ZifyBool ZifyNat.

(** The data passed in one call: bytes, together with the dictionary less than 2^31 of
    them, and the window made of them is less than 2^31 bytes as well. *)
Definition small_enough (dict data : list Z) : Prop :=
  bytes_ok data /\ zlen dict + zlen data <= 2147483647 /\ zlen data <= 2147483594.

(** Any calls in any order, repeated, failing or not, with any flags: no VCD_DFATAL.
    Missing for the full claim: larger data, for which it is false (below). *)
Theorem C60_streaming_partial : forall dict fl look calls,
  bytes_ok dict -> zlen dict <= 2147483647 ->
  (forall data, In (EChunk data) calls -> small_enough dict data) ->
  e_streaming dict fl look calls = None.
Proof.
  intros dict fl look calls B L F. change 2147483647 with int32_max in L. unfold e_streaming. apply efirst_none; [apply e_engine_init_none; assumption|].
  destruct (streaming_encoder_ok dict fl look B L) as (en & EN & ->).
  apply (e_ecalls_none calls _ dict); [apply new_encoder_ready; assumption|].
  apply Forall_forall. intros c IN. destruct c as [|data|]; cbn [call_fits]; auto. exact (F data IN).
Qed.
Print Assumptions C60_streaming_partial.

Lemma e_encode_stream_none : forall e dict target, eready e dict -> chunk_fits dict target -> e_encode_stream e target = None.
Proof.
  intros e dict target R F. unfold e_encode_stream. apply efirst_none; [exact (e_ecall_none e dict EStart R Logic.I)|].
  destruct (start_encoding e) as [[[e1 [|]] o]|] eqn:S; try reflexivity.
  apply (e_ecall_none e1 dict (EChunk target)); [|exact F]. eapply (do_ecall_ready e dict EStart); eauto. exact Logic.I.
Qed.
Lemma encode_stream_ready : forall e dict target e' r o, eready e dict -> chunk_fits dict target ->
  encode_stream e [target] = Some (e', r, o) -> eready e' dict.
Proof.
  intros e dict target e' r o R F H. unfold encode_stream in H.
  destruct (start_encoding e) as [[[e1 b] o1]|] eqn:S; [|discriminate].
  assert (eready e1 dict) as R1 by (eapply (do_ecall_ready e dict EStart); eauto; exact Logic.I).
  destruct b; [|injection H as <- _ _; exact R1]. cbn [encode_chunks] in H.
  destruct (encode_chunk e1 target) as [[[e2 b2] o2]|] eqn:S2; [|discriminate].
  assert (eready e2 dict) as R2 by (eapply (do_ecall_ready e1 dict (EChunk target)); eauto; exact F).
  destruct b2; [|injection H as <- _ _; exact R2].
  destruct (finish_encoding e2) as [[e3 r3] o3] eqn:S3. injection H as <- _ _.
  eapply (do_ecall_ready e2 dict EFinish); [exact R2|exact Logic.I|]. cbn [do_ecall]. rewrite S3. reflexivity.
Qed.

(** The same for Encode, called any number of times. *)
Theorem C60_encode_partial : forall dict fl look targets,
  bytes_ok dict -> zlen dict <= 2147483647 ->
  (forall data, In data targets -> small_enough dict data) ->
  e_encodes (set_target_matching (set_format_flags (new_vcdiff_encoder dict) fl) look) targets = None.
Proof.
  intros dict fl look targets B L F. change 2147483647 with int32_max in L.
  assert (forall ts v e, ve_encoder v = Some e -> eready e dict -> (forall data, In data ts -> small_enough dict data) -> e_encodes v ts = None) as REST.
  { induction ts as [|t ts IH]; intros v e EV R FT; cbn [e_encodes]; [reflexivity|].
    assert (chunk_fits dict t) as CF by exact (FT t (or_introl eq_refl)).
    unfold e_encode, encode. rewrite EV. apply efirst_none; [eapply e_encode_stream_none; eauto|].
    destruct (encode_stream e [t]) as [[[e' r] o]|] eqn:S; [|reflexivity].
    eapply IH; [reflexivity|eapply encode_stream_ready; eauto|]. intros data IN. apply FT. right. exact IN. }
  destruct targets as [|t ts]; [reflexivity|]. cbn [e_encodes].
  assert (chunk_fits dict t) as CF by exact (F t (or_introl eq_refl)).
  destruct (engine_init_ok dict B L) as (en & EI & EN). pose proof (new_encoder_ready en dict fl look EN L) as R.
  unfold e_encode, encode. cbn [set_target_matching set_format_flags new_vcdiff_encoder ve_engine ve_encoder ve_flags ve_look].
  rewrite EI. apply efirst_none.
  - apply efirst_none; [apply e_engine_init_none; assumption|]. eapply e_encode_stream_none; eauto.
  - destruct (encode_stream _ [t]) as [[[e' r] o]|] eqn:S; [|reflexivity].
    eapply REST; [reflexivity|eapply encode_stream_ready; eauto|]. intros data IN. apply F. right. exact IN.
Qed.
Print Assumptions C60_encode_partial.

(** A code table writer used without the engine, with any code table that it accepts: the
    calls [l] for a window and Output.  Every size is positive and every COPY starts
    before the end of the data ([execute_all] is defined). *)
Theorem C60_writer_partial : forall il t ns ss dict l T,
  table_ok t -> 0 <= ns <= 253 -> 0 <= ss -> ns + ss <= 254 ->
  validate t (1 + ns + ss) = Some true -> make_map t (1 + ns + ss) <> None ->
  Forall good_instruction l -> execute_all dict [] l = Some T ->
  zlen dict + zlen T <= 2147483647 -> costs l <= 2147483600 ->
  exists w w1, writer_init (new_custom_writer il ns ss t (1 + ns + ss)) (zlen dict) = Some (w, true) /\
    writer_calls w l = Some w1 /\ e_writer_calls w l = None /\ e_writer_output w1 = None.
Proof.
  intros il t ns ss dict l T TO NS SS S2 V MK G X L CL. change 2147483647 with int32_max in L.
  destruct (make_map t (1 + ns + ss)) as [im|] eqn:EM; [|congruence].
  assert (wbase (new_custom_writer il ns ss t (1 + ns + ss)) im) as BA.
  { constructor; cbn [new_custom_writer wr_table wr_max_mode wr_near wr_same wr_map wr_inst wr_data wr_addr]; auto; lia. }
  pose proof (zlen_nonneg _ T). pose proof (zlen_nonneg _ dict).
  destruct (wbase_init _ im dict BA) as (ca & _ & EI & W & TT); [lia|].
  set (w := inited (new_custom_writer il ns ss t (1 + ns + ss)) im (zlen dict) ca) in *.
  destruct (writer_calls_ok l w im dict [] [] [] [] T W G X L) as (w1 & items & hist & EC & W1 & TO1 & K1).
  destruct (shape_cks _ _ K1) as (SH & HC & CC & MP).
  exists w, w1. split; [exact EI|]. split; [exact EC|]. split; [eapply e_writer_calls_none; eauto|].
  eapply e_writer_output_none; [exact W1| |exact L|lia]. rewrite HC. discriminate.
Qed.
Print Assumptions C60_writer_partial.

(** ** Where it fails *)

(** A dictionary of 2^31 bytes: [static_cast<int>] of its size is negative. *)
Lemma big_dictionary : forall dict, zlen dict = 2147483648 -> e_engine_init (new_engine dict) = Some ThroughBehind.
Proof.
  intros dict E. unfold e_engine_init. cbn [new_engine en_hash en_dict]. unfold e_bh_init. rewrite E.
  replace (e_calc_table_size 2147483648) with (@None esite) by (vm_compute; reflexivity).
  destruct (calc_table_size 2147483648) as [t|] eqn:C; [|vm_compute in C; discriminate].
  destruct (Z.eqb_spec t 0) as [Z|N]; [exfalso; subst; vm_compute in C; discriminate|].
  cbv zeta. unfold e_add_all_blocks_through_index. cbn [bh_source bh_last]. rewrite E.
  replace (to_int32 2147483648 <? to_int32 2147483648) with false by (vm_compute; reflexivity).
  replace (to_int32 2147483648 <=? -1 * kBlockSize) with true by (vm_compute; reflexivity). reflexivity.
Qed.

Lemma e_size_length_negative : forall n, 2147483648 <= n <= 2147483800 -> e_size_length n = Some LengthNegative.
Proof.
  intros n N. unfold e_size_length, e_length, to_int32.
  assert ((n + 2147483648) mod 4294967296 = n + 2147483648 - 4294967296) as -> by (symmetry; apply Z.mod_unique with 1; lia).
  destruct (Z.ltb_spec (n + 2147483648 - 4294967296 - 2147483648) 0); [reflexivity|lia].
Qed.
Lemma efirst_skip : forall b, efirst None b = b.
Proof. reflexivity. Qed.
Lemma efirst_stop : forall p b, efirst (Some p) b = Some p.
Proof. reflexivity. Qed.
Lemma big_window : forall w2, wr_has_cks w2 = false -> wr_len w2 = 2147483647 -> wr_dict_size w2 = 0 ->
  zlen (wr_data w2) = 2147483647 -> zlen (wr_inst w2) + zlen (wr_addr w2) <= 6 -> e_window w2 = Some LengthNegative.
Proof.
  intros w2 H2 WL2 WD2 DA TO3. pose proof (zlen_nonneg _ (wr_inst w2)) as N1. pose proof (zlen_nonneg _ (wr_addr w2)) as N2.
  assert (e_delta_length w2 = None) as DL.
  { unfold e_delta_length. rewrite H2, WL2, DA. repeat (rewrite e_size_length_none by (unfold int32_max; lia)). reflexivity. }
  unfold e_window. rewrite DL, WD2. repeat (rewrite e_size_length_none by (unfold int32_max; lia)). rewrite !efirst_skip.
  assert (2147483648 <= delta_length w2 <= 2147483800) as DR.
  { unfold delta_length. rewrite H2, WL2, DA.
    assert (forall n, 0 <= n <= int32_max -> 1 <= size_length n <= 5) as SL.
    { intros n N. destruct (size_bytes_ok n N) as (_ & _ & U & ->). exact U. }
    assert (1 <= size_length 2147483647 <= 5) as S1 by (apply SL; unfold int32_max; lia).
    assert (1 <= size_length (zlen (wr_inst w2)) <= 5) as S2 by (apply SL; unfold int32_max; lia).
    assert (1 <= size_length (zlen (wr_addr w2)) <= 5) as S3 by (apply SL; unfold int32_max; lia).
    clear SL. generalize dependent (size_length 2147483647). generalize dependent (size_length (zlen (wr_inst w2))). generalize dependent (size_length (zlen (wr_addr w2))). intros.
    lia. }
  rewrite (e_size_length_negative _ DR). apply efirst_stop.
Qed.

(** A chunk of 2^31-1 bytes without a dictionary: the length of the delta encoding is
    negative as an int32_t. *)
Lemma big_chunk : forall data, bytes_ok data -> zlen data = 2147483647 ->
  e_streaming [] VCD_STANDARD_FORMAT false [EStart; EChunk data] = Some LengthNegative.
Proof.
  intros data B E. unfold e_streaming. rewrite (e_engine_init_none []) by (constructor || (rewrite zlen_nil; unfold int32_max; lia)). cbn [efirst].
  assert (zlen (@nil Z) <= int32_max) as L0 by (rewrite zlen_nil; unfold int32_max; lia).
  destruct (streaming_encoder_ok [] VCD_STANDARD_FORMAT false) as (en & EN & ->); [constructor|exact L0|].
  destruct (new_encoder_inv en [] VCD_STANDARD_FORMAT false true EN L0 eq_refl) as (im & EI).
  set (e := new_encoder en VCD_STANDARD_FORMAT false) in *.
  cbn [e_ecalls e_ecall do_ecall].
  pose proof (e_ecall_none e [] EStart (or_introl (ex_intro _ im (ex_intro _ _ (ex_intro _ _ EI)))) Logic.I) as ES. cbn [e_ecall] in ES. rewrite ES. cbn [efirst].
  destruct (start_encoding_ok e [] im _ _ EI) as (c & _ & -> & E1).
  set (w := inited _ im _ c) in *. set (e1 := set_coder e (Binary w) true) in *.
  destruct (ei_ready _ _ _ _ _ E1 eq_refl) as [WI TT].
  assert (ec_allowed e1 = true /\ ec_coder e1 = Binary w /\ fl_checksum (ec_flags e1) = false /\ ec_look e1 = false) as (F1 & F2 & F3 & F4) by (repeat split; reflexivity).
  assert (wr_max_mode w = 8 /\ wr_il w = false /\ wr_data w = [] /\ wr_has_cks w = false) as (G1 & G2 & G3 & G4) by (repeat split; reflexivity).
  clearbody e1 w. clear e EI ES.
  enough (e_encode_chunk e1 data = Some LengthNegative) as -> by reflexivity.
  unfold e_encode_chunk. rewrite F1, F2, F3, F4. cbn [negb coder_verify]. cbv zeta.
  assert (zlen (@nil Z) + zlen data <= int32_max) as L by (rewrite zlen_nil, E; unfold int32_max; lia).
  rewrite (e_engine_encode_none _ [] false data (ei_engine _ _ _ _ _ E1) B L). cbn [efirst].
  assert (data <> []) as NE by (intros ->; rewrite zlen_nil in E; lia).
  destruct (engine_encode_ok _ [] false data (ei_engine _ _ _ _ _ E1) B NE L) as (l & -> & GP).
  assert (l = [Add data]) as ->.
  { inversion GP; subst; [contradiction| |].
    - cbn [app] in *. match goal with G : genuine_plan _ _ _ true _ _ |- _ => inversion G; subst; [reflexivity|] end.
      exfalso. match goal with O : _ \/ _ |- _ => rewrite zlen_nil in O; destruct O as [O|[O _]]; [lia|discriminate] end.
    - exfalso. match goal with O : _ \/ _ |- _ => rewrite zlen_nil in O; destruct O as [O|[O _]]; [lia|discriminate] end. }
  assert (Forall good_instruction [Add data]) as GG by (eapply genuine_plan_good; eauto).
  pose proof (genuine_plan_execute _ _ _ _ _ _ GP) as GX.
  rewrite (e_writer_calls_none _ w im [] [] [] [] [] data WI GG GX L). cbn [efirst].
  destruct (writer_calls_ok _ w im [] [] [] [] [] data WI GG GX L) as (w2 & items & hist & EC & WI2 & TO2 & CK2). rewrite EC.
  destruct (shape_cks _ _ CK2) as (SH2 & HC2 & CC2 & MP2).
  assert (zlen (wr_data w2) = 2147483647) as DA.
  { cbn [writer_calls writer_call] in EC. unfold writer_add in EC.
    destruct (encode_instruction_ok w im [] [] [] [] [] VCD_ADD (zlen data) 0 WI) as (w1 & EN1 & CH);
      [unfold VCD_ADD; lia|rewrite E; unfold int32_max; lia|rewrite G1; lia|].
    rewrite EN1 in EC. injection EC as <-. destruct (choice_keeps _ _ _ _ _ _ _ _ _ _ CH) as (K1 & K2 & K3 & K4 & K5).
    destruct (cks_of_fields _ _ K1) as (KC & KI & KD).
    unfold append_data. rewrite KI, G2. cbn [set_sections wr_data]. rewrite zlen_app, K2, G3, zlen_nil, E. lia. }
  assert (zlen (wr_inst w2) + zlen (wr_addr w2) <= 6) as TO4 by (cbn [costs cost] in TO2; unfold total in TO2 at 1; clear - TO2 TT E DA; lia).
  pose proof (wi_len _ _ _ _ _ _ _ WI2) as WL2. pose proof (wi_dict _ _ _ _ _ _ _ WI2) as WD2. rewrite zlen_nil in WD2.
  assert (wr_inst w2 <> []) as IN2. { destruct (wi_ne _ _ _ _ _ _ _ WI2) as [[_ X]|(_ & _ & X & _)]; [contradiction|exact X]. }
  assert (wr_has_cks w2 = false) as H2 by congruence.
  unfold e_writer_output. destruct (wr_inst w2) as [|x0 tl] eqn:EIN; [contradiction|]. rewrite <- EIN in *. clear x0 tl EIN IN2.
  rewrite big_window; [reflexivity|exact H2|congruence|exact WD2|exact DA|exact TO4].
Qed.

(** Sizes that do not fit. *)
Theorem C60_refuted :
  (exists dict fl look, bytes_ok dict /\ e_streaming dict fl look [] = Some ThroughBehind) /\
  (exists data fl look, bytes_ok data /\ zlen data = 2147483647 /\
     e_streaming [] fl look [EStart; EChunk data] = Some LengthNegative).
Proof.
  split.
  - exists (zrepeat 0 2147483648), VCD_STANDARD_FORMAT, true. split; [apply bytes_ok_zrepeat; unfold byte_ok; lia|].
    unfold e_streaming. rewrite big_dictionary by (apply zlen_zrepeat; lia). reflexivity.
  - exists (zrepeat 0 2147483647), VCD_STANDARD_FORMAT, false. assert (bytes_ok (zrepeat 0 2147483647)) as B by (apply bytes_ok_zrepeat; unfold byte_ok; lia).
    split; [exact B|]. assert (zlen (zrepeat 0 2147483647) = 2147483647) as E by (apply zlen_zrepeat; lia).
    split; [exact E|]. apply big_chunk; assumption.
Qed.
Print Assumptions C60_refuted.

(** Calls that the headers exclude: a dictionary that is not initialised or initialised
    twice, a writer that is not initialised, a COPY from data that does not exist yet. *)
Theorem C60_misuse : 
  (forall dict fl look data, fl_json fl = false -> zlen dict <= 2147483647 ->
     e_ecalls (new_encoder (new_engine dict) fl look) [EStart; EChunk data] = Some EncodeBeforeInit) /\
  (forall dict en, bytes_ok dict -> zlen dict <= 2147483647 ->
     engine_init (new_engine dict) = Some (en, true) -> e_engine_init en = Some EngineInitTwice) /\
  (forall il d, e_writer_call (new_writer il) (Add d) = Some WriterNotInit) /\
  (forall il a n, e_writer_call (new_writer il) (Copy a n) = Some CopyNotInit) /\
  (forall il w n a size, 0 <= n <= 2147483647 -> n <= a -> writer_init (new_writer il) n = Some (w, true) ->
     e_writer_call w (Copy a size) = Some AddressNotBefore).
Proof.
  split; [|split; [|split; [|split]]].
  - intros dict fl look data J L. cbn [e_ecalls e_ecall do_ecall]. set (e := new_encoder _ fl look).
    assert (exists e1, start_encoding e = Some (e1, true, write_header fl) /\ ec_engine e1 = new_engine dict /\ ec_allowed e1 = true /\ (exists w, ec_coder e1 = Binary w)
      /\ e_start_encoding e = None) as (e1 & -> & EE & EA & (w & EW) & ->).
    { destruct (new_writer_base (fl_interleaved fl)) as [im BA]. destruct (wbase_init _ im dict BA) as (ca & _ & EI & _ & _); [unfold int32_max; lia|].
      unfold start_encoding, e_start_encoding. change (ec_engine e) with (new_engine dict). change (ec_flags e) with fl.
      assert (ec_coder e = Binary (new_writer (fl_interleaved fl))) as -> by (unfold e, new_encoder, new_custom_encoder, create_writer; cbn [ec_coder]; rewrite J; reflexivity).
      cbn [coder_init new_engine en_dict]. rewrite EI. cbn [coder_verify negb coder_header]. eexists. split; [reflexivity|].
      split; [reflexivity|]. split; [reflexivity|]. split; [eexists; reflexivity|reflexivity]. }
    cbn [efirst]. unfold e_encode_chunk. rewrite EA, EW, EE. reflexivity.
  - intros dict en B L EI. destruct (engine_init_ok dict B L) as (en' & EI' & EN). rewrite EI in EI'. injection EI' as <-.
    destruct EN as (_ & _ & dh & dhs & EH & _). unfold e_engine_init. rewrite EH. reflexivity.
  - reflexivity.
  - reflexivity.
  - intros il w n a size N A WI. cbn [e_writer_call]. unfold e_writer_copy.
    destruct (new_writer_base il) as [im BA]. destruct (wbase_init _ im (zrepeat 0 n) BA) as (ca & _ & EI & W & _); rewrite zlen_zrepeat in * by lia; [unfold int32_max; lia|].
    rewrite WI in EI. injection EI as ->. cbn [inited wr_map wr_dict_size wr_len set_state]. rewrite Z.add_0_r.
    rewrite to_int32_id by (unfold int32_max; lia). unfold e_encode_address. destruct (Z.ltb_spec a 0); [lia|]. destruct (Z.leb_spec n a); [reflexivity|lia].
Qed.
Print Assumptions C60_misuse.

(** A session: chunks before and after StartEncoding, an empty one, one with matches in the
    dictionary and in itself; and a writer used directly. *)
Definition c60_dict : list Z := map (fun n => Z.of_nat n * 37 mod 251) (seq 0 40).
Definition c60_calls : list ecall :=
  [EChunk [1;2;3]; EStart; EChunk []; EChunk (c60_dict ++ [7;8;9] ++ c60_dict ++ [7;8;9]); EFinish; EFinish].
Example C60_case : 
  bytes_ok c60_dict /\ zlen c60_dict = 40 /\ (forall data, In (EChunk data) c60_calls -> small_enough c60_dict data) /\
  match streaming_encoder c60_dict VCD_STANDARD_FORMAT true with
  | Some e => match do_ecalls e c60_calls with
              | Some (_, rs) => map fst rs = [false; true; true; true; true; false] /\ 
                                map (fun r => zlen (snd r)) rs = [0; 5; 0; 19; 0; 0]
              | None => False end
  | None => False
  end.
Proof.
  split; [apply bytes_okb_ok; vm_compute; reflexivity|]. split; [vm_compute; reflexivity|]. split.
  - intros data IN. unfold small_enough. cbn [c60_calls In] in IN.
    assert (forall x, bytes_okb x = true -> zlen c60_dict + zlen x <= 2147483647 -> zlen x <= 2147483594 -> bytes_ok x /\ zlen c60_dict + zlen x <= 2147483647 /\ zlen x <= 2147483594) as H
      by (intros x X1 X2 X3; split; [apply bytes_okb_ok; exact X1|auto]).
    destruct IN as [IN|[IN|[IN|[IN|[IN|[IN|[]]]]]]]; try discriminate; injection IN as <-; apply H;
      first [vm_compute; reflexivity | apply Z.leb_le; vm_compute; reflexivity].
  - vm_compute. split; reflexivity.
Qed.
Example C60_writer_case :
  validate default_table 8 = Some true /\ make_map default_table 8 <> None /\
  execute_all [1;2;3;4;5] [] [Add [9;9]; Copy 0 5; Run 300 7] <> None /\ costs [Add [9;9]; Copy 0 5; Run 300 7] = 26.
Proof.
  split; [vm_compute; reflexivity|]. split; [vm_compute; discriminate|]. split; [vm_compute; discriminate|vm_compute; reflexivity].
Qed.
