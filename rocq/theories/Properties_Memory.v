(** C70: the memory of the encoder. *)

From Verif Require Import Base ListFacts Spec SpecEncode SpecFind AddrCache AddrCacheFacts CodeTable InstructionMap EncodeTable BlockHash BlockHashFacts JsonWriter Engine EngineFacts
  WriterFacts Encoder EncoderFacts Finds.
From Coq Require Import ZifyBool ZifyNat.

(** Entries of type int in the three tables of an index of 16-byte blocks. *)
Definition index_entries (bh : blockhash) : Z := zlen (bh_table bh) + zlen (bh_next bh) + zlen (bh_last_of bh).

(** The index of a buffer of n bytes, also that of a target: the hash table has the
    least power of two above n/4 entries, the other two tables have one for each block. *)
Theorem C70_index : forall source start populate, bytes_ok source -> zlen source <= int32_max ->
  exists bh k, bh_init source start populate = Some (Some bh) /\
    zlen (bh_table bh) = 2 ^ k /\ 0 <= k /\ zlen source / 4 < zlen (bh_table bh) <= 2 * (zlen source / 4) + 1 /\
    zlen (bh_next bh) = zlen source / 16 /\ zlen (bh_last_of bh) = zlen source / 16 /\
    8 * index_entries bh <= 5 * zlen source + 8.
Proof.
  intros source start populate BS L. pose proof (zlen_nonneg _ source) as N0.
  assert (exists bh hs, bh_init source start populate = Some (Some bh) /\ bh_ok bh hs /\ bh_source bh = source) as (bh & hs & E & B & ES).
  { destruct (bh_init_eq source start populate L) as (k & K & B & E). destruct populate.
    - destruct (add_all_ok (empty_bh source start k) [] (zlen source)) as (bh' & more & E2 & B2 & T2 & SS & _); auto.
      { intros b h G. apply get_range in G. rewrite zlen_nil in G. lia. } { rewrite zlen_nil. cbn [empty_bh bh_source]. unfold kBlockSize. lia. }
      rewrite E2 in E. exists bh', ([] ++ more). split; [exact E|]. split; [exact B2|]. destruct SS as (S1 & _). rewrite S1. reflexivity.
    - exists (empty_bh source start k), []. auto. }
  pose proof (bh_init_mask _ _ _ _ L E) as M. unfold mask_right in M. rewrite ES in M.
  destruct (bo_mask _ _ B) as (k & K & MK & TL). exists bh, k.
  pose proof (bo_next_len _ _ B) as NL. pose proof (bo_last_len _ _ B) as LL. unfold number_of_blocks, kBlockSize in NL, LL. rewrite ES in NL, LL.
  assert (zlen (bh_table bh) = slots (zlen source)) as TS by lia.
  assert (zlen source / 4 + 1 <= slots (zlen source) < 2 * (zlen source / 4 + 1)) as SB.
  { unfold slots. pose proof (Z.div_pos (zlen source) 4 N0 ltac:(lia)). destruct (Z.eq_dec (zlen source / 4 + 1) 1) as [E1|E1].
    - rewrite E1. change (2 ^ Z.log2_up 1) with 1. lia.
    - pose proof (Z.log2_up_spec (zlen source / 4 + 1) ltac:(lia)) as [L1 L2]. split; [lia|].
      assert (0 < Z.log2_up (zlen source / 4 + 1)) by (apply Z.log2_up_pos; lia).
      assert (2 ^ Z.log2_up (zlen source / 4 + 1) = 2 * 2 ^ Z.pred (Z.log2_up (zlen source / 4 + 1))) as -> by (rewrite <- Z.pow_succ_r by lia; f_equal; lia). lia. }
  split; [exact E|]. split; [exact TL|]. split; [lia|]. split; [lia|]. split; [exact NL|]. split; [exact LL|].
  unfold index_entries. rewrite NL, LL, TS. lia.
Qed.
Print Assumptions C70_index.

(** What a streaming encoder holds, in bytes: the copy of the dictionary, its index and
    what the code table writer has buffered; its address cache too.  An int takes 4
    bytes.  The code table and its instruction map have a fixed size. *)
Definition buffered (c : coder) : Z :=
  match c with
  | Binary w => zlen (wr_inst w) + zlen (wr_data w) + zlen (wr_addr w) + 4 * (zlen (near_a (wr_cache w)) + zlen (same_a (wr_cache w)))
  | Json j => zlen (jw_out j)
  end.
Definition held_bytes (e : encoder) : Z :=
  zlen (en_dict (ec_engine e)) + (match en_hash (ec_engine e) with Some bh => 4 * index_entries bh | None => 0 end) + buffered (ec_coder e).

Definition small_cache (w : writer) : Prop := zlen (near_a (wr_cache w)) <= 4 /\ zlen (same_a (wr_cache w)) <= 768.
Lemma rep_small : forall c hist w, cache_rep c hist -> wr_cache w = c -> near_size c = 4 -> same_size c = 3 -> small_cache w.
Proof. intros c hist w R E N S. unfold small_cache. rewrite E. pose proof (cr_nlen _ _ R). pose proof (cr_slen _ _ R). lia. Qed.

Lemma calls_small : forall l e dict im w f e1 rs, einv e dict im w f -> wr_near w = 4 -> wr_same w = 3 -> small_cache w -> Forall (call_fits dict) l ->
  do_ecalls e l = Some (e1, rs) ->
  exists w1, ec_coder e1 = Binary w1 /\ ec_engine e1 = ec_engine e /\ small_cache w1 /\ total w1 = 0.
Proof.
  induction l as [|c l IH]; intros e dict im w f e1 rs E N S C F DC; cbn [do_ecalls] in DC.
  - injection DC as <- _. exists w. split; [apply (ei_coder _ _ _ _ _ E)|]. split; [reflexivity|]. split; [exact C|].
    destruct (wbase_init w im dict (ei_base _ _ _ _ _ E) (ei_size _ _ _ _ _ E)) as (c & _ & _ & _ & T). exact T.
  - inversion F as [|? ? CF F']; subst.
    assert (forall w' a, einv (set_coder e (Binary w') a) dict im w' f -> wr_near w' = 4 -> wr_same w' = 3 -> small_cache w' ->
      forall rs', do_ecalls (set_coder e (Binary w') a) l = Some (e1, rs') ->
      exists w1, ec_coder e1 = Binary w1 /\ ec_engine e1 = ec_engine e /\ small_cache w1 /\ total w1 = 0) as NEXT.
    { intros w' a E' N' S' C' rs' D'. destruct (IH _ _ _ _ _ _ _ E' N' S' C' F' D') as (w1 & X1 & X2 & X3 & X4). exists w1. auto. }
    assert (forall a, einv (set_coder e (Binary w) a) dict im w f -> forall rs', do_ecalls (set_coder e (Binary w) a) l = Some (e1, rs') ->
      exists w1, ec_coder e1 = Binary w1 /\ ec_engine e1 = ec_engine e /\ small_cache w1 /\ total w1 = 0) as SAME.
    { intros a E' rs' D'. exact (NEXT w a E' N S C rs' D'). }
    assert (set_coder e (Binary w) (ec_allowed e) = e) as SE by (pose proof (ei_coder _ _ _ _ _ E); destruct e; cbn in *; subst; reflexivity).
    destruct c as [|data|]; cbn [do_ecall] in DC.
    + destruct (start_encoding_ok _ _ _ _ _ E) as (c & EC & ES & E2). rewrite ES in DC.
      destruct (do_ecalls _ l) as [[e2 rs2]|] eqn:D; [|discriminate DC]. assert (e2 = e1) as -> by congruence.
      rewrite N, S in EC. destruct (cache_init_rep 4 3 c ltac:(lia) ltac:(lia) EC) as (R & RN & RS).
      eapply NEXT; [exact E2|exact N|exact S| |exact D]. eapply rep_small; [exact R|reflexivity|lia|lia].
    + destruct (ec_allowed e) eqn:AL.
      * cbn [call_fits] in CF. destruct CF as (CB & CL & CL2).
        destruct (encode_chunk_ok e dict im w f data [] E AL CB CL CL2) as (w' & out & EC & E2 & K & _). rewrite EC in DC.
        destruct (do_ecalls _ l) as [[e2 rs2]|] eqn:D; [|discriminate DC]. assert (e2 = e1) as -> by congruence.
        destruct (ei_ready _ _ _ _ _ E2 eq_refl) as (W & _). destruct (wi_cache _ _ _ _ _ _ _ W) as (R & RN & RS).
        destruct K as [SH _]. unfold shape in SH.
        assert (wr_near w' = 4 /\ wr_same w' = 3) as [N' S'] by (split; congruence).
        eapply NEXT; [exact E2|exact N'|exact S'| |exact D]. eapply rep_small; [exact R|reflexivity|lia|lia].
      * unfold encode_chunk in DC. rewrite AL in DC. cbn [negb] in DC.
        destruct (do_ecalls e l) as [[e2 rs2]|] eqn:D; [|discriminate DC]. assert (e2 = e1) as -> by congruence.
        eapply SAME; [rewrite SE; exact E|rewrite SE; exact D].
    + unfold finish_encoding in DC. destruct (ec_allowed e) eqn:AL; cbn [negb] in DC.
      * rewrite (ei_coder _ _ _ _ _ E) in DC. destruct (do_ecalls _ l) as [[e2 rs2]|] eqn:D; [|discriminate DC]. assert (e2 = e1) as -> by congruence.
        eapply SAME; [|exact D]. destruct E as [X1 X2 X3 X4 X5 X6]. constructor; auto.
      * destruct (do_ecalls e l) as [[e2 rs2]|] eqn:D; [|discriminate DC]. assert (e2 = e1) as -> by congruence.
        eapply SAME; [rewrite SE; exact E|rewrite SE; exact D].
Qed.

Lemma json_small : forall l e e1 rs j, ec_coder e = Json j -> zlen (jw_out j) <= 1 -> do_ecalls e l = Some (e1, rs) ->
  exists j1, ec_coder e1 = Json j1 /\ ec_engine e1 = ec_engine e /\ zlen (jw_out j1) <= 1.
Proof.
  induction l as [|c l IH]; intros e e1 rs j C J DC; cbn [do_ecalls] in DC; [injection DC as <- _; exists j; auto|].
  destruct (do_ecall e c) as [[[e2 r] o]|] eqn:D1; [|discriminate DC]. destruct (do_ecalls e2 l) as [[e3 rs3]|] eqn:D; [|discriminate DC].
  assert (e3 = e1) as -> by congruence.
  assert (exists j2, ec_coder e2 = Json j2 /\ ec_engine e2 = ec_engine e /\ zlen (jw_out j2) <= 1) as (j2 & C2 & EN & J2).
  { clear DC D. destruct c as [|data|]; cbn [do_ecall] in D1.
    - unfold start_encoding in D1. rewrite C in D1. cbn [coder_init] in D1. destruct (coder_verify _ _); cbn [negb] in D1; injection D1 as <- _ _; eexists; (split; [reflexivity|split; [reflexivity|cbn [json_init jw_out]; rewrite zlen_cons, zlen_nil; lia]]).
    - unfold encode_chunk in D1. rewrite C in D1. destruct (ec_allowed e); cbn [negb] in D1; [|injection D1 as <- _ _; eauto].
      destruct (coder_verify _ _); cbn [negb] in D1; [|injection D1 as <- _ _; eauto].
      assert ((if fl_checksum (ec_flags e) then coder_checksum (Json j) (Adler.compute_adler32 data) else Json j) = Json j) as EQ by (destruct (fl_checksum (ec_flags e)); reflexivity).
      rewrite EQ in D1. destruct (engine_encode _ _ _) as [[calls|]|]; [|injection D1 as <- _ _; cbn; eauto|discriminate D1].
      cbn [coder_calls coder_output json_output] in D1. injection D1 as <- _ _. eexists. split; [reflexivity|]. split; [reflexivity|]. cbn. rewrite zlen_nil. lia.
    - unfold finish_encoding in D1. destruct (ec_allowed e); cbn [negb] in D1; injection D1 as <- _ _; [rewrite C; cbn|]; eauto. }
  destruct (IH _ _ _ _ C2 J2 D) as (j1 & X1 & X2 & X3). exists j1. split; [exact X1|]. split; [congruence|exact X3].
Qed.

(** After any calls, whatever was encoded: the engine is the same as before them, and
    all that is held is at most 3.5 times the size of the dictionary and about 3 KB. *)
Theorem C70_held : forall dict fl look e l e1 rs,
  bytes_ok dict -> zlen dict <= int32_max ->
  streaming_encoder dict fl look = Some e -> Forall (call_fits dict) l -> do_ecalls e l = Some (e1, rs) ->
  ec_engine e1 = ec_engine e /\ buffered (ec_coder e1) <= 3088 /\ 2 * held_bytes e1 <= 7 * zlen dict + 6184.
Proof.
  intros dict fl look e l e1 rs B L SE F DC.
  destruct (streaming_encoder_ok dict fl look B L) as (en & EN & SE'). rewrite SE in SE'. injection SE' as ->.
  assert (ec_engine e1 = en /\ buffered (ec_coder e1) <= 3088) as [EE BU].
  { destruct (fl_json fl) eqn:J.
    - assert (ec_coder (new_encoder en fl look) = Json new_json_writer) as C by (unfold new_encoder, new_custom_encoder, create_writer; cbn [ec_coder]; rewrite J; reflexivity).
      destruct (json_small _ _ _ _ _ C ltac:(cbn; rewrite zlen_nil; lia) DC) as (j1 & C1 & E1 & J1). split; [exact E1|]. rewrite C1. cbn [buffered]. lia.
    - destruct (new_encoder_inv en dict fl look true EN L J) as (im & EI).
      assert (small_cache (new_writer (fl_interleaved fl))) as SC by (split; cbn [new_writer new_custom_writer wr_cache raw_cache near_a same_a]; rewrite zlen_nil; lia).
      destruct (calls_small l _ dict im _ _ e1 rs EI eq_refl eq_refl SC F DC) as (w1 & C1 & E1 & (N & S) & T).
      split; [exact E1|]. rewrite C1. cbn [buffered]. unfold total in T. lia. }
  split; [exact EE|]. split; [exact BU|]. unfold held_bytes. rewrite EE.
  destruct EN as (ED & _ & dh & dhs & EH & (HB & HS & _) & _). rewrite ED, EH.
  unfold streaming_encoder in SE. destruct (engine_init (new_engine dict)) as [[en' b]|] eqn:EI; [|discriminate SE]. destruct b; [|discriminate SE].
  assert (en' = en) as -> by (injection SE as X; exact X). unfold engine_init, create_dictionary_hash in EI. cbn [new_engine en_hash en_dict] in EI.
  destruct (C70_index dict 0 true B L) as (bh & k & EB & _ & _ & _ & _ & _ & IX). rewrite EB in EI. injection EI as EI. subst en. cbn [en_hash] in EH. injection EH as ->. lia.
Qed.
Print Assumptions C70_held.

(** An encoder with a dictionary of 64 bytes after two chunks: 32 entries in the hash
    table and 4 in each of the other two; 4 and 768 addresses. *)
Example C70_case :
  match streaming_encoder (zrepeat 7 64) VCD_STANDARD_FORMAT true with
  | Some e => match do_ecalls e [EStart; EChunk (zrepeat 7 100); EChunk [1;2;3]] with
              | Some (e1, _) => held_bytes e1 = 64 + 4 * (32 + 4 + 4) + 4 * (4 + 768) /\ buffered (ec_coder e1) = 3088
              | None => False end
  | None => False end.
Proof. vm_compute. auto. Qed.
