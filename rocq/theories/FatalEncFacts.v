(** The places of [FatalEnc] are not reached when the sizes fit. *)

From Verif Require Import Base ListFacts CopyFacts Spec SpecEncode SpecInstr Varint VarintFacts AddrCache AddrCacheFacts CodeTable CodeTableFacts
  InstructionMap InstructionMapFacts EncodeTable JsonWriter Adler AdlerFacts WriterFacts RollingHash RollingHashFacts
  BlockHash BlockHashFacts Engine EngineFacts Encoder EncoderFacts FatalEnc.
From Coq Require Import ZifyBool ZifyNat.

Lemma efirst_none : forall a b, a = None -> b = None -> efirst a b = None.
Proof. intros a b -> ->. reflexivity. Qed.

(** ** The index of blocks *)

Lemma e_table_size_loop_none : forall fuel t m x, table_size_loop fuel t m = Some x -> x <> 0 -> e_table_size_loop fuel t m = None.
Proof.
  induction fuel as [|fuel IH]; intros t m x H N; cbn [table_size_loop e_table_size_loop] in *; [reflexivity|].
  destruct (t <? m).
  - cbv zeta in *. destruct (_ <=? 0); [congruence|]. eapply IH; eauto.
  - destruct (negb _); [congruence|reflexivity].
Qed.

Lemma e_calc_table_size_none : forall n x, calc_table_size n = Some x -> x <> 0 -> e_calc_table_size n = None.
Proof.
  intros n x H N. unfold calc_table_size, e_calc_table_size in *. cbv zeta in *.
  destruct (table_size_loop 66 1 (n / 4 + 1)) as [t|] eqn:E; [|discriminate].
  destruct (_ && _) eqn:C; [congruence|]. apply efirst_none; [|reflexivity].
  eapply e_table_size_loop_none; [exact E|congruence].
Qed.

Lemma e_add_block_keeps : forall bh h s, e_add_block bh h = Some s -> add_block bh h = Some bh.
Proof.
  intros bh h s H. unfold e_add_block, add_block in *. destruct (bh_table bh) as [|x t]; [reflexivity|]. cbv zeta in *.
  destruct (_ <=? _); [reflexivity|]. destruct (get (bh_next bh) _) as [nx|]; [|discriminate]. destruct (negb (nx =? -1)); [reflexivity|].
  destruct (get (x :: t) _) as [f|]; [|discriminate]. destruct (f <? 0); [discriminate|].
  destruct (get (bh_last_of bh) f) as [la|]; [|discriminate]. destruct (get (bh_next bh) la) as [n2|]; [|discriminate].
  destruct (negb _); [reflexivity|discriminate].
Qed.

Lemma e_add_block_none : forall bh hs h, bh_ok bh hs -> zlen hs < number_of_blocks bh -> 0 <= h -> e_add_block bh h = None.
Proof.
  intros bh hs h B N H. destruct (e_add_block bh h) as [s|] eqn:E; [exfalso|reflexivity].
  apply e_add_block_keeps in E. destruct (add_block_ok bh hs h B N H) as (bh' & E' & B' & _).
  rewrite E in E'. injection E' as <-. pose proof (bo_last _ _ B) as L1. pose proof (bo_last _ _ B') as L2.
  rewrite zlen_app, zlen_cons, zlen_nil in L2. lia.
Qed.

Lemma room : forall bh n e, n * kBlockSize < e -> e <= zlen (bh_source bh) - kBlockSize + 1 -> n < number_of_blocks bh.
Proof.
  intros bh n e L E. unfold number_of_blocks, kBlockSize in *.
  apply Z.lt_le_trans with (n + 1); [lia|]. apply Z.div_le_lower_bound; lia.
Qed.

Lemma e_add_blocks_loop_none : forall fuel bh hs e, bytes_ok (bh_source bh) -> bh_ok bh hs ->
  e <= zlen (bh_source bh) - kBlockSize + 1 -> e_add_blocks_loop fuel bh (zlen hs * kBlockSize) e = None.
Proof.
  induction fuel as [|fuel IH]; intros bh hs e BS B E; cbn [e_add_blocks_loop].
  - destruct (_ <? e); reflexivity.
  - destruct (Z.ltb_spec (zlen hs * kBlockSize) e) as [LT|GE]; [|reflexivity].
    pose proof (room bh (zlen hs) e LT E) as RM.
    destruct (slice _ _ _) as [blk|] eqn:S; [|reflexivity]. destruct (slice_inv _ _ _ _ _ S) as (_ & _ & _ & _ & LB).
    destruct (hash_direct kBlockSize blk) as [h|] eqn:H; [|reflexivity].
    assert (0 <= h) as H0 by (eapply hash_direct_nonneg; [eapply slice_bytes_ok; eauto|exact LB|exact H]).
    apply efirst_none; [eapply e_add_block_none; eauto|].
    destruct (add_block_ok bh hs h B RM H0) as (bh' & -> & B' & (S1 & _)).
    replace (zlen hs * kBlockSize + kBlockSize) with (zlen (hs ++ [h]) * kBlockSize) by (rewrite zlen_app, zlen_cons, zlen_nil; unfold kBlockSize; lia).
    apply IH; [rewrite S1; exact BS|exact B'|rewrite S1; exact E].
Qed.

Lemma e_add_all_none : forall bh hs e, bytes_ok (bh_source bh) -> bh_ok bh hs ->
  (zlen hs - 1) * kBlockSize < e <= zlen (bh_source bh) -> e_add_all_blocks_through_index bh e = None.
Proof.
  intros bh hs e BS B E. pose proof (zlen_nonneg _ (bh_source bh)). pose proof (bo_size _ _ B). unfold e_add_all_blocks_through_index. cbv zeta.
  rewrite to_int32_id by (unfold int32_max in *; lia).
  destruct (Z.ltb_spec (zlen (bh_source bh)) e); [lia|]. rewrite (bo_last _ _ B).
  destruct (Z.leb_spec e ((zlen hs - 1) * kBlockSize)); [lia|].
  destruct (Z.ltb_spec (zlen (bh_source bh)) kBlockSize) as [SM|BG]; [reflexivity|].
  rewrite to_int32_id by (unfold int32_max, kBlockSize in *; lia).
  unfold next_index_to_add. rewrite (bo_last _ _ B). replace (zlen hs - 1 + 1) with (zlen hs) by lia.
  apply e_add_blocks_loop_none; auto. destruct (Z.ltb_spec (zlen (bh_source bh) - kBlockSize) e); lia.
Qed.

Lemma empty_bh_ok : forall source start k, zlen source <= int32_max -> 0 <= k <= 32 -> bh_ok (empty_bh source start k) [].
Proof.
  intros source start k L K. pose proof (zlen_nonneg _ source). pose proof (Z.pow_pos_nonneg 2 k ltac:(lia) ltac:(lia)).
  assert (0 <= zlen source / kBlockSize) as D by (unfold kBlockSize; apply Z.div_pos; lia).
  constructor; cbn [empty_bh bh_source bh_mask bh_table bh_next bh_last_of bh_last]; unfold number_of_blocks; cbn [empty_bh bh_source].
  + lia.
  + exists k. rewrite zlen_zrepeat by lia. auto.
  + rewrite zlen_zrepeat by lia. reflexivity.
  + rewrite zlen_zrepeat by lia. reflexivity.
  + reflexivity.
  + rewrite zlen_nil. lia.
  + intros i I. rewrite zlen_zrepeat in I by lia. cbn. apply get_zrepeat'. lia.
  + intros i. exact I.
  + intros i b l X. discriminate.
  + intros b B. rewrite zlen_nil in B. apply get_zrepeat'. lia.
Qed.

Lemma e_bh_init_none : forall source start populate, bytes_ok source -> zlen source <= int32_max -> e_bh_init source start populate = None.
Proof.
  intros source start populate B L. pose proof (zlen_nonneg _ source). unfold e_bh_init.
  destruct (calc_table_size_ok (zlen source)) as (k & K & E & M); [lia|]. pose proof (Z.pow_pos_nonneg 2 k ltac:(lia) ltac:(lia)).
  apply efirst_none; [eapply e_calc_table_size_none; [exact E|lia]|]. rewrite E. destruct (Z.eqb_spec (2 ^ k) 0); [lia|]. cbv zeta.
  destruct populate; [|reflexivity].
  assert (to_uint32 (2 ^ k - 1) = 2 ^ k - 1) as ->.
  { unfold to_uint32. apply Z.mod_small. assert (2 ^ k <= 2 ^ 32) by (apply Z.pow_le_mono_r; lia). change (2 ^ 32) with 4294967296 in *. lia. }
  rewrite to_int32_id by (unfold int32_max in *; lia).
  apply (e_add_all_none (empty_bh source start k) []); [exact B|apply empty_bh_ok; lia|]. cbn [empty_bh bh_source]. rewrite zlen_nil. unfold kBlockSize. lia.
Qed.

Lemma e_find_loop_none : forall n bh hs l i target cand start best block,
  bh_ok bh hs -> (exists pre, bucket (bh_mask bh) hs i = pre ++ l) ->
  e_find_loop n bh (hd (-1) l) block target cand start (zlen target - start) best = None.
Proof.
  induction n as [|n IH]; intros bh hs l i target cand start best block B (pre & EB); cbn [e_find_loop].
  - destruct (_ <? 0); reflexivity.
  - destruct (Z.ltb_spec (hd (-1) l) 0) as [NG|NN]; [reflexivity|]. destruct l as [|r l]; cbn [hd] in *; [lia|].
    assert (forall b, In b (r :: l) -> 0 <= b < zlen hs) as RA.
    { intros b I. apply (bucket_range _ (bh_mask bh) i). rewrite EB. apply in_or_app. right. exact I. }
    pose proof (RA r (or_introl eq_refl)) as RR.
    destruct (extend_match _ _ _ _ _ _ _) as [m'|]; [|reflexivity].
    pose proof (bo_count _ _ B). pose proof (number_of_blocks_range _ _ B).
    unfold e_next_matching_block, next_matching_block. rewrite to_size_id by (unfold size_max, int32_max in *; lia).
    destruct (Z.leb_spec (number_of_blocks bh) r); [lia|]. apply efirst_none; [reflexivity|].
    pose proof (bo_linked _ _ B i) as LK. rewrite EB in LK. apply linked_suffix in LK. destruct LK as [GN LK]. rewrite GN.
    destruct (skip_ok kMaxProbes bh hs l block B LK) as (r' & -> & C); [intros; apply RA; right; assumption|].
    assert (exists l', r' = hd (-1) l' /\ (exists pre, bucket (bh_mask bh) hs i = pre ++ l')) as (l' & -> & P').
    { destruct C as [-> |(p & q & El & Sl)].
      - exists []. split; [reflexivity|]. exists (pre ++ r :: l); rewrite app_nil_r; exact EB.
      - exists (r' :: q). split; [reflexivity|]. exists (pre ++ r :: p); rewrite EB, El, <- app_assoc; reflexivity. }
    eapply IH; eauto.
Qed.

Lemma e_find_best_match_none : forall bh hs h target cand start best, bh_ok bh hs -> 0 <= h ->
  e_find_best_match bh h target cand start (zlen target - start) best = None.
Proof.
  intros bh hs h target cand start best B H. unfold e_find_best_match. destruct (slice _ _ _) as [block|]; [|reflexivity].
  unfold first_matching_block. rewrite (bo_table _ _ B) by (eapply index_range; eauto). set (i := hash_table_index bh h).
  destruct (skip_ok kMaxProbes bh hs (bucket (bh_mask bh) hs i) block B (bo_linked _ _ B i)) as (r' & -> & C); [apply bucket_range|].
  assert (exists l', r' = hd (-1) l' /\ (exists pre, bucket (bh_mask bh) hs i = pre ++ l')) as (l' & -> & P').
  { destruct C as [-> |(p & q & El & Sl)].
    - exists []. split; [reflexivity|]. exists (bucket (bh_mask bh) hs i); rewrite app_nil_r; reflexivity.
    - exists (r' :: q). split; [reflexivity|]. exists p; exact El. }
  eapply e_find_loop_none; eauto.
Qed.

(** ** The engine *)

Lemma e_engine_init_none : forall dict, bytes_ok dict -> zlen dict <= int32_max -> e_engine_init (new_engine dict) = None.
Proof.
  intros dict B L. unfold e_engine_init. cbn [new_engine en_hash en_dict]. apply efirst_none; [apply e_bh_init_none; auto|].
  destruct (engine_init_ok dict B L) as (en & EI & _). unfold engine_init in EI. cbn [new_engine en_hash en_dict] in EI.
  destruct (create_dictionary_hash dict) as [[h|]|]; [reflexivity|discriminate|discriminate].
Qed.

Lemma e_encode_copy_none : forall dict dh dhs th ths target h cand start,
  dict_hash_ok dict dh dhs -> target_hash_ok dict target cand th ths -> 0 <= h ->
  e_encode_copy_for_best_match dh th h target cand start (zlen target - start) = None.
Proof.
  intros dict dh dhs th ths target h cand start (D1 & _) TH H. unfold e_encode_copy_for_best_match.
  apply efirst_none; [eapply e_find_best_match_none; eauto|]. destruct (find_best_match _ _ _ _ _ _ _) as [b1|]; [|reflexivity].
  destruct th as [bh|]; [|reflexivity]. destruct TH as (T1 & _). eapply e_find_best_match_none; eauto.
Qed.

Lemma e_encode_loop_none : forall fuel dict dh dhs target next_encode cand h th ths blk,
  dict_hash_ok dict dh dhs -> target_hash_ok dict target cand th ths ->
  bytes_ok target -> zlen target <= int32_max ->
  0 <= next_encode <= cand -> cand + kBlockSize <= zlen target ->
  slice target cand kBlockSize = Some blk -> hash_direct kBlockSize blk = Some h ->
  e_encode_loop fuel dh target (remove_table kBlockSize) next_encode cand h th = None.
Proof.
  induction fuel as [|fuel IH]; intros dict dh dhs target ne cand h th ths blk D TH B L NE CL S H; [reflexivity|].
  cbn [e_encode_loop]. cbv zeta.
  assert (kBlockSize = 16) as K by reflexivity.
  destruct (slice_inv _ _ _ _ _ S) as (_ & _ & _ & _ & LB).
  assert (0 <= h) as H0 by (eapply hash_direct_nonneg; [eapply slice_bytes_ok; eauto| |eauto]; lia).
  apply efirst_none; [eapply e_encode_copy_none; eauto|].
  destruct (encode_copy_ok dict dh dhs th ths target h cand ne D (or_introl TH) H0 NE CL L) as (k & calls & -> & C).
  destruct C as [[-> ->]|[KR G]].
  - cbn [Z.ltb Z.compare]. destruct (Z.ltb_spec (zlen target - kBlockSize) (cand + 1)) as [E|E]; [reflexivity|].
    destruct (next_hash target cand blk h B ltac:(lia) ltac:(lia) S H) as (f & la & blk' & h' & GF & GL & S' & H' & U).
    assert (exists th' ths', match th with
              | Some t => match add_one_index_hash t (to_int32 cand) h with Some th'0 => Some (Some th'0) | None => None end
              | None => Some None end = Some th' /\ target_hash_ok dict target (cand + 1) th' ths' /\
              match th with None => None | Some t => e_add_one_index_hash t (to_int32 cand) h end = None)
      as (th' & ths' & -> & TH' & ->).
    { destruct th as [bh|]; [|exists None, []; repeat split].
      destruct TH as (T1 & T2 & T3 & T4 & T5). unfold add_one_index_hash, e_add_one_index_hash, next_index_to_add. rewrite (bo_last _ _ T1).
      rewrite to_int32_id by (unfold int32_max in *; lia). replace (zlen ths - 1 + 1) with (zlen ths) by lia.
      destruct (Z.eqb_spec cand (zlen ths * kBlockSize)) as [EQ|NEQ].
      - assert (zlen ths < number_of_blocks bh) as RM.
        { unfold number_of_blocks. rewrite T2. apply Z.lt_le_trans with (zlen ths + 1); [lia|]. apply Z.div_le_lower_bound; lia. }
        destruct (add_block_ok bh ths h T1 RM H0) as (bh' & -> & OK & (S1 & S2 & S3)).
        exists (Some bh'), (ths ++ [h]). split; [reflexivity|]. split; [|eapply e_add_block_none; eauto].
        cbn [target_hash_ok]. split; [exact OK|]. split; [congruence|]. split; [congruence|]. split.
        { eapply true_hashes_snoc; eauto. rewrite <- EQ. exact S. }
        rewrite zlen_app, zlen_cons, zlen_nil. lia.
      - exists (Some bh), ths. split; [reflexivity|]. split; [|reflexivity].
        cbn [target_hash_ok]. split; [exact T1|]. split; [exact T2|]. split; [exact T3|]. split; [exact T4|]. lia. }
    rewrite GF, GL, U. cbn [efirst].
    eapply (IH dict dh dhs target ne (cand + 1) h' th' ths' blk' D TH' B L); [lia|lia|exact S'|exact H'].
  - destruct (Z.ltb_spec 0 k) as [KP|KN]; [|lia].
    destruct (Z.ltb_spec (zlen target - kBlockSize) (ne + k)) as [E|E]; [reflexivity|].
    assert (slice target (ne + k) kBlockSize = Some (ztake kBlockSize (zdrop (ne + k) target))) as S' by (apply slice_some; lia).
    rewrite S'. set (blk' := ztake kBlockSize _) in *. clearbody blk'.
    destruct (slice_inv _ _ _ _ _ S') as (_ & _ & _ & _ & LB').
    pose proof (slice_bytes_ok _ _ _ _ B S') as BB'.
    assert (hash_direct kBlockSize blk' = Some (poly blk' mod kBase)) as H' by (apply hash_direct_block; auto; lia).
    rewrite H'.
    destruct th as [bh|].
    + destruct TH as (T1 & T2 & T3 & T4 & T5).
      destruct (add_all_ok bh ths (ne + k)) as (bh' & more & A1 & A2 & A3 & (S1 & S2 & S3) & A4 & A5).
      { rewrite T2; exact B. } { exact T1. } { rewrite T2; exact T4. } { rewrite T2. lia. }
      rewrite to_int32_id by (unfold int32_max in *; lia).
      apply efirst_none. { apply (e_add_all_none bh ths); [rewrite T2; exact B|exact T1|rewrite T2; lia]. }
      rewrite A1.
      eapply (IH dict dh dhs target (ne + k) (ne + k) (poly blk' mod kBase) (Some bh') (ths ++ more) blk' D);
        [|exact B|exact L|lia|lia|exact S'|exact H'].
      cbn [target_hash_ok]. split; [exact A2|]. split; [congruence|]. split; [congruence|]. split; [rewrite <- T2; exact A3|].
      rewrite zlen_app. split.
      * destruct A4 as [-> | A4]; [rewrite zlen_nil; lia|exact A4].
      * destruct (Z.lt_ge_cases ((zlen ths + zlen more) * kBlockSize) (ne + k)) as [X|X]; [exfalso|exact X].
        pose proof (zlen_nonneg _ ths). pose proof (zlen_nonneg _ more).
        assert (zlen ths + zlen more < zlen ths + zlen more); [|lia]. apply A5; [|exact X].
        split; [lia|]. unfold number_of_blocks. rewrite T2. apply Z.lt_le_trans with (zlen ths + zlen more + 1); [lia|]. apply Z.div_le_lower_bound; lia.
    + eapply (IH dict dh dhs target (ne + k) (ne + k) (poly blk' mod kBase) None [] blk' D I B L); [lia|lia|exact S'|exact H'].
Qed.

Lemma e_engine_encode_none : forall en dict look target, engine_ok en dict -> bytes_ok target -> zlen dict + zlen target <= int32_max ->
  e_engine_encode en look target = None.
Proof.
  intros en dict look target (E1 & BD & dh & dhs & E2 & D & _) B L. unfold e_engine_encode. rewrite E2, E1. cbv zeta.
  pose proof (zlen_nonneg _ dict). pose proof (zlen_nonneg _ target).
  assert (kBlockSize = 16) as K by reflexivity.
  destruct (Z.eqb_spec (zlen target) 0); [reflexivity|]. destruct (Z.ltb_spec (zlen target) kBlockSize) as [SM|BG]; [reflexivity|].
  apply efirst_none; [destruct look; [apply e_bh_init_none; auto; lia|reflexivity]|].
  assert (exists th ths, (if look then create_target_hash target (zlen dict) else Some None) = Some th /\
       target_hash_ok dict target 0 th ths /\ is_some th = look) as (th & ths & -> & TH & IS).
  { destruct look; [|exists None, []; repeat split]. unfold create_target_hash.
    rewrite to_int32_id by (unfold int32_max in *; lia).
    destruct (bh_init_eq target (zlen dict) false) as (k & KR & OK & ->); [lia|].
    exists (Some (empty_bh target (zlen dict) k)), []. split; [reflexivity|]. split; [|reflexivity].
    cbn [target_hash_ok]. split; [exact OK|]. split; [reflexivity|]. split; [reflexivity|].
    split; [intros b h G; rewrite (proj2 (get_none _ _ _)) in G by (rewrite zlen_nil; lia); discriminate|]. rewrite zlen_nil. lia. }
  assert (look && (match th with None => true | Some _ => false end) = false) as ->
    by (destruct th, look; cbn in *; congruence).
  assert (slice target 0 kBlockSize = Some (ztake kBlockSize (zdrop 0 target))) as S' by (apply slice_some; lia).
  rewrite S'. set (blk' := ztake kBlockSize _) in *. clearbody blk'.
  destruct (slice_inv _ _ _ _ _ S') as (_ & _ & _ & _ & LB').
  pose proof (slice_bytes_ok _ _ _ _ B S') as BB'.
  assert (hash_direct kBlockSize blk' = Some (poly blk' mod kBase)) as H' by (apply hash_direct_block; auto; lia).
  rewrite H'.
  eapply (e_encode_loop_none (Z.to_nat (zlen target)) dict dh dhs target 0 0 (poly blk' mod kBase) th ths blk' D TH B);
    [lia|lia|lia|exact S'|exact H'].
Qed.

(** ** The writer *)

Lemma e_size_none : forall n, 0 <= n <= int32_max -> e_size n = None.
Proof.
  intros n N. unfold e_size, e_varint. rewrite to_int32_id by (unfold int32_max in *; lia). destruct (Z.ltb_spec n 0); [lia|reflexivity].
Qed.
Lemma e_size_length_none : forall n, 0 <= n <= int32_max -> e_size_length n = None.
Proof.
  intros n N. unfold e_size_length, e_length. rewrite to_int32_id by (unfold int32_max in *; lia). destruct (Z.ltb_spec n 0); [lia|reflexivity].
Qed.

Lemma e_encode_single_none : forall w im inst size mode, wcfg w im -> 1 <= inst <= 3 -> 1 <= size <= int32_max -> 0 <= mode <= wr_max_mode w ->
  e_encode_single im inst size mode = None.
Proof.
  intros w im inst size mode C I S M. pose proof (wcfg_valid w im C) as VT. pose proof (wc_map_ok _ _ C) as MO.
  unfold e_encode_single. destruct (if size <=? 255 then _ else _) as [op|]; [|reflexivity]. destruct (negb _); [reflexivity|].
  destruct (first_lookup_explicit (wr_table w) (wr_max_mode w) im inst mode (wc_table _ _ C)) as (op' & -> & N); auto.
  { destruct VT as (_ & ? & _). lia. } { apply (wc_valid _ _ C). }
  destruct (Z.eqb_spec op' kNoOpcode); [contradiction|]. apply e_size_none. lia.
Qed.

Lemma e_encode_instruction_none : forall w im inst size mode, wcfg w im -> 1 <= inst <= 3 -> 1 <= size <= int32_max -> 0 <= mode <= wr_max_mode w ->
  e_encode_instruction w inst size mode = None.
Proof.
  intros w im inst size mode C I S M. unfold e_encode_instruction. rewrite (wc_map _ _ C).
  pose proof (e_encode_single_none w im inst size mode C I S M) as ES.
  destruct (0 <=? wr_last w); [|exact ES]. destruct (get _ _) as [la|]; [|reflexivity].
  destruct (if size <=? 255 then _ else _) as [op|]; [|reflexivity]. destruct (negb _); [reflexivity|].
  destruct (second_lookup _ _ _ _ _) as [op2|]; [|reflexivity]. destruct (negb _); [apply e_size_none; lia|exact ES].
Qed.

Lemma e_writer_call_none : forall w im seg ins items hist T i T',
  winv w im seg ins items hist T -> good_instruction i -> execute seg T i = Some T' -> zlen seg + zlen T' <= int32_max ->
  e_writer_call w i = None.
Proof.
  intros w im seg ins items hist T i T' W G X L. pose proof (zlen_nonneg _ T). pose proof (zlen_nonneg _ seg).
  pose proof (wi_cache _ _ _ _ _ _ _ W) as (WCA & WCN & WCS). pose proof (wi_len _ _ _ _ _ _ _ W) as WL. pose proof (wi_dict _ _ _ _ _ _ _ W) as WD.
  pose proof (wi_cfg _ _ _ _ _ _ _ W) as WC.
  assert (0 <= wr_max_mode w) as MM by (destruct WC; lia).
  assert (forall n : nat, zlen T' = zlen T + Z.of_nat n -> Z.of_nat n <= int32_max) as NB by (intros; lia).
  destruct i as [d|a n|n b]; cbn [execute good_instruction e_writer_call] in *.
  - injection X as <-. destruct G as [G1 G2]. rewrite zlen_app in L.
    apply (e_encode_instruction_none w im); auto; unfold VCD_ADD; lia.
  - destruct (Z.leb_spec 0 a) as [A0|]; [|discriminate]. destruct (Z.ltb_spec a (zlen seg + zlen T)) as [A1|]; [|discriminate]. cbn [andb] in X.
    destruct (copy_bytewise_length _ _ _ _ _ X) as (bs0 & ET & CL). rewrite ET, zlen_app in L.
    unfold e_writer_copy. rewrite (wc_map _ _ WC). rewrite WD, WL. rewrite to_int32_id by (unfold int32_max in *; lia).
    apply efirst_none. { unfold e_encode_address. destruct (Z.ltb_spec a 0); [lia|]. destruct (Z.leb_spec (zlen seg + zlen T) a); [lia|reflexivity]. }
    destruct (encode_address_ok (wr_cache w) hist a (zlen seg + zlen T) WCA) as (mode & e & c' & -> & MR & ER & _ & _ & _); [lia|lia|].
    cbv zeta. apply efirst_none.
    + apply (e_encode_instruction_none _ im); [|unfold VCD_COPY; lia|lia|].
      * eapply wcfg_eq; [|exact WC]. rewrite <- (wc_map _ _ WC). reflexivity.
      * cbn [set_state wr_max_mode]. rewrite WCN, WCS in MR. pose proof (wc_mode _ _ WC). lia.
    + destruct (write_as_varint c' mode); [|reflexivity]. unfold e_varint. destruct (Z.ltb_spec e 0); [lia|reflexivity].
  - injection X as <-. destruct G as [G1 G2]. rewrite zlen_app, zlen_zrepeat in L by lia.
    apply (e_encode_instruction_none w im); auto; unfold VCD_RUN; lia.
Qed.

Lemma e_writer_calls_none : forall l w im seg ins items hist T T',
  winv w im seg ins items hist T -> Forall good_instruction l -> execute_all seg T l = Some T' -> zlen seg + zlen T' <= int32_max ->
  e_writer_calls w l = None.
Proof.
  induction l as [|i l IH]; intros w im seg ins items hist T T' W G X L; cbn [execute_all e_writer_calls] in *; [reflexivity|].
  destruct (execute seg T i) as [T1|] eqn:E; [|discriminate]. inversion G; subst.
  destruct (execute_all_grows _ _ _ _ H2 X) as (b & EB).
  assert (zlen seg + zlen T1 <= int32_max) as L1 by (rewrite EB, zlen_app in L; pose proof (zlen_nonneg _ b); lia).
  apply efirst_none; [eapply e_writer_call_none; eauto|].
  destruct (writer_call_ok _ _ _ _ _ _ _ _ _ W H1 E L1) as (w1 & it1 & h1 & -> & W1 & _). eapply IH; eauto.
Qed.

Lemma window_bytes_delta : forall w, window_bytes w =
  [if wr_has_cks w then 5 else 1] ++ size_bytes (wr_dict_size w) ++ size_bytes 0 ++ size_bytes (delta_length w) ++ delta_bytes w.
Proof. reflexivity. Qed.

Lemma e_window_none : forall w im dict ins items hist T,
  winv w im dict ins items hist T -> (wr_has_cks w = true -> 0 <= wr_cks w < 4294967296) ->
  zlen dict + zlen T <= int32_max -> total w <= 2147483600 -> e_window w = None.
Proof.
  intros w im dict ins items hist T W CK L TO.
  pose proof (wi_len _ _ _ _ _ _ _ W) as WL. pose proof (wi_dict _ _ _ _ _ _ _ W) as WD.
  pose proof (zlen_nonneg _ T). pose proof (zlen_nonneg _ dict).
  pose proof (zlen_nonneg _ (wr_inst w)). pose proof (zlen_nonneg _ (wr_data w)). pose proof (zlen_nonneg _ (wr_addr w)).
  unfold total in TO.
  destruct (size_bytes_ok (wr_len w)) as (_ & _ & VL1 & VE1); [lia|].
  destruct (size_bytes_ok (zlen (wr_data w))) as (_ & _ & VL2 & VE2); [unfold int32_max; lia|].
  destruct (size_bytes_ok (zlen (wr_inst w))) as (_ & _ & VL3 & VE3); [unfold int32_max; lia|].
  destruct (size_bytes_ok (zlen (wr_addr w))) as (_ & _ & VL4 & VE4); [unfold int32_max; lia|].
  set (bck := if wr_has_cks w then encode_bytes I64 (wr_cks w) else []).
  assert (zlen bck <= 10 /\ zlen bck = (if wr_has_cks w then varint_length (wr_cks w) else 0)) as (KL & KE).
  { unfold bck. destruct (wr_has_cks w).
    - destruct (cks_bytes_ok (wr_cks w) (CK eq_refl)) as (_ & _ & U3 & U4). split; [lia|auto].
    - rewrite zlen_nil. split; [lia|reflexivity]. }
  assert (delta_length w = zlen (delta_bytes w)) as DL.
  { unfold delta_length, delta_bytes. fold bck. zl. rewrite VE1, VE2, VE3, VE4, KE. lia. }
  assert (0 <= zlen (delta_bytes w) <= int32_max) as DB.
  { split; [apply zlen_nonneg|]. unfold delta_bytes. fold bck. zl. unfold int32_max. lia. }
  assert (zlen (wr_data w) <= int32_max /\ zlen (wr_inst w) <= int32_max /\ zlen (wr_addr w) <= int32_max) as (I1 & I2 & I3) by (unfold int32_max; lia).
  unfold e_window, e_delta_length. rewrite DL.
  repeat (rewrite e_size_length_none by (unfold int32_max in *; lia)). repeat (rewrite e_size_none by (unfold int32_max in *; lia)).
  rewrite Z.eqb_refl. cbn [efirst negb]. unfold e_length, e_varint.
  destruct (wr_has_cks w); [|reflexivity]. destruct (Z.ltb_spec (wr_cks w) 0); [specialize (CK eq_refl); lia|reflexivity].
Qed.

Lemma e_writer_output_none : forall w im dict ins items hist T,
  winv w im dict ins items hist T -> (wr_has_cks w = true -> 0 <= wr_cks w < 4294967296) ->
  zlen dict + zlen T <= int32_max -> total w <= 2147483600 -> e_writer_output w = None.
Proof.
  intros w im dict ins items hist T W CK L TO. pose proof (wi_cfg _ _ _ _ _ _ _ W) as WC. unfold e_writer_output. apply efirst_none.
  - destruct (wr_inst w) eqn:E; [reflexivity|]. eapply e_window_none; eauto.
  - cbv zeta. set (w' := match wr_inst w with [] => w | _ => _ end).
    assert (wr_map w' = Some im /\ wr_near w' = wr_near w /\ wr_same w' = wr_same w) as (M1 & M2 & M3).
    { unfold w'. destruct (wr_inst w); cbn [set_sections wr_map wr_near wr_same]; rewrite (wc_map _ _ WC); auto. }
    clearbody w'. unfold writer_init. rewrite M1, M2, M3. unfold cache_init.
    pose proof (wc_mode _ _ WC). pose proof (wc_mode255 _ _ WC). destruct (Z.ltb_spec 254 (wr_near w + wr_same w)); [lia|reflexivity].
Qed.

(** ** Streaming encoders *)

Lemma e_encode_chunk_none : forall e dict im w f data, einv e dict im w f -> chunk_fits dict data -> e_encode_chunk e data = None.
Proof.
  intros e dict im w f data [EN SZ CO BA WR RD] (B & L & L2). unfold e_encode_chunk.
  destruct (ec_allowed e) eqn:AL; [|reflexivity]. rewrite CO. cbn [negb coder_verify]. destruct (RD eq_refl) as [WI TT].
  cbv zeta. apply efirst_none; [eapply e_engine_encode_none; eauto|].
  set (w1 := if fl_checksum (ec_flags e) then add_checksum w (compute_adler32 data) else w).
  assert ((if fl_checksum (ec_flags e) then coder_checksum (Binary w) (compute_adler32 data) else Binary w) = Binary w1) as ->
    by (unfold w1; destruct (fl_checksum (ec_flags e)); reflexivity).
  destruct (list_eq_dec Z.eq_dec data []) as [-> |NE].
  { unfold engine_encode. pose proof EN as (_ & _ & dh & dhs & EH & _). rewrite EH. rewrite zlen_nil. reflexivity. }
  assert (winv w1 im dict [] [] [] [] /\ total w1 = 0 /\ (wr_has_cks w1 = true -> 0 <= wr_cks w1 < 4294967296)) as (WI1 & TT1 & CK1).
  { unfold w1. destruct (fl_checksum (ec_flags e)) eqn:FC.
    - split; [|split; [exact TT|]].
      + destruct WI as [[] ? ? ? ? ? ? ? ?]. constructor; auto. constructor; auto.
      + intros _. cbn [add_checksum wr_cks]. rewrite compute_adler32_ok by exact B. apply adler_sum_range.
    - split; [exact WI|]. split; [exact TT|]. intros HC. destruct WR as (_ & _ & _ & _ & _ & X). rewrite X in FC by exact HC. discriminate. }
  clearbody w1. destruct (engine_encode_ok _ dict (ec_look e) data EN B NE L) as (l & -> & GP).
  pose proof (genuine_plan_good _ _ _ _ _ _ GP B) as GG. pose proof (genuine_plan_execute _ _ _ _ _ _ GP) as GX.
  apply efirst_none; [eapply e_writer_calls_none; eauto|].
  destruct (writer_calls_ok l w1 im dict [] [] [] [] data WI1 GG GX L) as (w2 & items & hist & -> & WI2 & TO2 & CK2).
  pose proof (genuine_plan_cost _ _ _ _ _ _ GP) as CO2. rewrite zlen_nil in CO2.
  destruct (shape_cks _ _ CK2) as (SH2 & HC2 & CC2 & MP2).
  eapply e_writer_output_none; [exact WI2|rewrite HC2, CC2; exact CK1|exact L|lia].
Qed.

(** Encoders made by the library: with the binary writer, or with the JSON writer. *)
Definition eready (e : encoder) (dict : list Z) : Prop :=
  (exists im w f, einv e dict im w f) \/ (engine_ok (ec_engine e) dict /\ exists j, ec_coder e = Json j).

Lemma e_ecall_none : forall e dict c, eready e dict -> call_fits dict c -> e_ecall e c = None.
Proof.
  intros e dict c [(im & w & f & E)|(EN & j & CJ)] CF; destruct c as [|data|]; cbn [e_ecall call_fits] in *; try reflexivity.
  - unfold e_start_encoding. destruct (start_encoding_ok e dict im w f E) as (cc & _ & S & _). unfold start_encoding in S.
    destruct (coder_init _ _) as [[c' []]|]; [reflexivity| |reflexivity]. injection S as _ X. discriminate.
  - eapply e_encode_chunk_none; eauto.
  - unfold e_start_encoding. rewrite CJ. reflexivity.
  - unfold e_encode_chunk. rewrite CJ. destruct (ec_allowed e); [|reflexivity]. destruct (coder_verify _ _); [|reflexivity]. cbn [negb]. cbv zeta.
    destruct CF as (B & L & _). apply efirst_none; [eapply e_engine_encode_none; eauto|].
    destruct (engine_encode _ _ _) as [[l|]|]; try reflexivity. destruct (fl_checksum _); reflexivity.
Qed.

Lemma do_ecall_ready : forall e dict c e' r o, eready e dict -> call_fits dict c -> do_ecall e c = Some (e', r, o) -> eready e' dict.
Proof.
  intros e dict c e' r o [(im & w & f & E)|(EN & j & CJ)] CF D.
  - destruct (do_ecall_ok c e dict im w f E CF) as (w' & a & r' & o' & D' & E' & _). rewrite D in D'. injection D' as -> _ _. left. eauto.
  - right. destruct c as [|data|]; cbn [do_ecall] in D.
    + unfold start_encoding in D. rewrite CJ in D. cbn [coder_init] in D. destruct (negb _); injection D as <- _ _; cbn [set_coder ec_engine ec_coder]; eauto.
    + unfold encode_chunk in D. rewrite CJ in D. destruct (negb (ec_allowed e)); [injection D as <- _ _; eauto|].
      destruct (negb (coder_verify _ _)); [injection D as <- _ _; eauto|]. cbv zeta in D.
      set (cc := if fl_checksum (ec_flags e) then _ else _) in D. assert (cc = Json j) as EC by (unfold cc; destruct (fl_checksum _); reflexivity).
      clearbody cc. subst cc.
      destruct (engine_encode _ _ _) as [[l|]|]; [| |discriminate].
      * cbn [coder_calls] in D. cbn [coder_output] in D. destruct (json_output _) as [j' o']. injection D as <- _ _; cbn [set_coder ec_engine ec_coder]; eauto.
      * injection D as <- _ _; cbn [set_coder ec_engine ec_coder]; eauto.
    + unfold finish_encoding in D. destruct (negb _); injection D as <- _ _; cbn [set_coder ec_engine ec_coder]; eauto.
Qed.

Lemma e_ecalls_none : forall l e dict, eready e dict -> Forall (call_fits dict) l -> e_ecalls e l = None.
Proof.
  induction l as [|c l IH]; intros e dict R F; cbn [e_ecalls]; [reflexivity|]. inversion F; subst.
  apply efirst_none; [eapply e_ecall_none; eauto|]. destruct (do_ecall e c) as [[[e' r] o]|] eqn:D; [|reflexivity].
  eapply IH; [eapply do_ecall_ready; eauto|assumption].
Qed.

Lemma new_encoder_ready : forall en dict fl look, engine_ok en dict -> zlen dict <= int32_max -> eready (new_encoder en fl look) dict.
Proof.
  intros en dict fl look EN L. destruct (fl_json fl) eqn:J.
  - right. split; [exact EN|]. exists new_json_writer. unfold new_encoder, new_custom_encoder, create_writer. cbn [ec_coder]. rewrite J. reflexivity.
  - left. destruct (new_encoder_inv en dict fl look true EN L J) as (im & EI). eauto.
Qed.
