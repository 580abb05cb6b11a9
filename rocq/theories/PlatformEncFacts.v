(** The encoder does the same on every platform and with either comparison of blocks. *)

From Verif Require Import Base ListFacts Spec SpecEncode Varint AddrCache Adler CodeTable InstructionMap EncodeTable JsonWriter
  CopyFacts WriterFacts RollingHash RollingHashFacts BlockHash BlockHashFacts Engine EngineFacts Encoder EncoderFacts JsonFacts
  Platform PlatformEnc PlatformFacts.
From Coq Require Import ZifyBool ZifyNat.

(** ** Comparing words is comparing bytes *)

Lemma word_little_eq : forall a b, length a = length b -> bytes_ok a -> bytes_ok b -> word_little a = word_little b -> a = b.
Proof.
  induction a as [|x a IH]; intros [|y b] L A B E; try discriminate; [reflexivity|]. cbn [word_little] in E.
  inversion A as [|? ? X A']; inversion B as [|? ? Y B']; subst. unfold byte_ok in *.
  assert (word_little a = word_little b) as W by lia. f_equal; [lia|]. apply IH; auto.
Qed.

Lemma word_big_app : forall a b v, fold_left (fun v x => 256 * v + x) (a ++ b) v = fold_left (fun v x => 256 * v + x) b (fold_left (fun v x => 256 * v + x) a v).
Proof. intros. apply fold_left_app. Qed.

Lemma word_big_eq : forall a b, length a = length b -> bytes_ok a -> bytes_ok b -> word_big a = word_big b -> a = b.
Proof.
  unfold word_big. induction a as [|x a IH] using rev_ind; intros b L A B E.
  - destruct b; [reflexivity|discriminate].
  - destruct b as [|y b _] using rev_ind; [rewrite app_length in L; cbn in L; lia|].
    rewrite !app_length in L. cbn in L. rewrite !fold_left_app in E. cbn [fold_left] in E.
    apply bytes_ok_app in A as [A X]. apply bytes_ok_app in B as [B Y]. inversion X as [|? ? X1 _]; inversion Y as [|? ? Y1 _]; subst.
    unfold byte_ok in *. assert (fold_left (fun v x => 256 * v + x) a 0 = fold_left (fun v x => 256 * v + x) b 0) as W by lia.
    f_equal; [|f_equal; lia]. apply IH; auto. lia.
Qed.

Lemma bytes_ok_firstn : forall n l, bytes_ok l -> bytes_ok (firstn n l).
Proof. intros n l H. rewrite <- (firstn_skipn n l) in H. apply bytes_ok_app in H. apply H. Qed.
Lemma bytes_ok_skipn : forall n l, bytes_ok l -> bytes_ok (skipn n l).
Proof. intros n l H. rewrite <- (firstn_skipn n l) in H. apply bytes_ok_app in H. apply H. Qed.

Lemma compare_word_eq : forall m a b, length a = length b -> bytes_ok a -> bytes_ok b ->
  compare_word m a b = true <-> firstn (uword_size (b_platform m)) a = firstn (uword_size (b_platform m)) b.
Proof.
  intros m a b L A B. unfold compare_word. cbv zeta.
  pose proof (bytes_ok_firstn (uword_size (b_platform m)) a A). pose proof (bytes_ok_firstn (uword_size (b_platform m)) b B).
  assert (length (firstn (uword_size (b_platform m)) a) = length (firstn (uword_size (b_platform m)) b)) as LL by (rewrite !firstn_length; lia).
  split; [|intros ->; apply Z.eqb_refl]. intros E. apply Z.eqb_eq in E.
  destruct (b_little m); [apply word_little_eq|apply word_big_eq]; auto.
Qed.

Lemma compare_words_eq : forall m n a b, (0 < n)%nat -> length a = (n * uword_size (b_platform m))%nat -> length b = length a ->
  bytes_ok a -> bytes_ok b -> compare_words m n a b = true <-> a = b.
Proof.
  intros m. set (w := uword_size (b_platform m)). assert (0 < w)%nat as W by (unfold w; destruct (b_platform m); cbn; lia).
  induction n as [|n IH]; intros a b N LA LB A B; [lia|].
  destruct n as [|n].
  - cbn [compare_words]. rewrite compare_word_eq by auto. fold w. rewrite !firstn_all2 by lia. reflexivity.
  - change (compare_words m (S (S n)) a b) with (compare_word m a b && compare_words m (S n) (skipn w a) (skipn w b)).
    rewrite andb_true_iff, compare_word_eq by auto. fold w.
    rewrite (IH (skipn w a) (skipn w b)); [|lia|rewrite skipn_length; lia|rewrite !skipn_length; lia|apply bytes_ok_skipn; auto|apply bytes_ok_skipn; auto].
    split.
    + intros [E1 E2]. rewrite <- (firstn_skipn w a), <- (firstn_skipn w b), E1, E2. reflexivity.
    + intros ->. auto.
Qed.

Lemma b_match_eq : forall m a b, zlen a = kBlockSize -> zlen b = kBlockSize -> bytes_ok a -> bytes_ok b ->
  b_block_contents_match m a b = block_contents_match a b.
Proof.
  Local Transparent zlen.
  intros m a b LA LB A B. unfold b_block_contents_match, block_contents_match. destruct (negb _); [reflexivity|].
  destruct (b_words m); [|reflexivity]. unfold zlen, kBlockSize in LA, LB.
  apply eq_true_iff_eq. rewrite bytes_eqb_eq. unfold block_compare_words.
  rewrite compare_words_eq; auto; try reflexivity; unfold kBlockSize; destruct (b_platform m); cbn; lia.
  Local Opaque zlen.
Qed.

(** ** Making an index *)

Lemma p_table_size_loop_eq : forall p fuel t k, 1 <= t -> k <= 2147483647 ->
  p_table_size_loop p fuel t k = table_size_loop fuel t k.
Proof.
  intros p. induction fuel as [|fuel IH]; intros t k T K; [reflexivity|]. cbn [p_table_size_loop table_size_loop].
  destruct (Z.ltb_spec t k); [|reflexivity]. cbv zeta.
  rewrite wrap_small by lia. rewrite to_size_id by (unfold size_max; lia). destruct (_ <=? 0); [reflexivity|]. apply IH; lia.
Qed.

Lemma p_calc_table_size_eq : forall p n, 0 <= n <= int32_max -> p_calc_table_size p n = calc_table_size n.
Proof.
  intros p n N. unfold p_calc_table_size, calc_table_size. cbv zeta. unfold int32_max in N.
  assert (0 <= n / 4 <= 536870911) as D by (split; [apply Z.div_pos; lia|]; pose proof (Z.div_le_mono n 2147483647 4); change (2147483647 / 4) with 536870911 in *; lia).
  rewrite p_table_size_loop_eq by lia. destruct (table_size_loop 66 1 (n / 4 + 1)); [|reflexivity].
  rewrite wrap_small by lia. rewrite to_size_id by (unfold size_max; lia). reflexivity.
Qed.

Lemma p_bh_init_eq : forall p source start populate, zlen source <= int32_max ->
  p_bh_init p source start populate = bh_init source start populate.
Proof.
  intros p source start populate L. pose proof (zlen_nonneg _ source). unfold p_bh_init, bh_init.
  rewrite p_calc_table_size_eq by lia. reflexivity.
Qed.

Lemma p_engine_init_eq : forall p dict, zlen dict <= int32_max -> p_engine_init p (new_engine dict) = engine_init (new_engine dict).
Proof.
  intros p dict L. unfold p_engine_init, engine_init, p_create_dictionary_hash, create_dictionary_hash. cbn [en_hash en_dict new_engine].
  rewrite p_bh_init_eq by exact L. reflexivity.
Qed.

(** ** Searching it *)

Lemma skip_range : forall n bh b block r, skip_non_matching n bh b block = Some r ->
  r < 0 \/ 0 <= r /\ r * kBlockSize + kBlockSize <= zlen (bh_source bh).
Proof.
  induction n as [|n IH]; intros bh b block r H; cbn [skip_non_matching] in H; destruct (Z.ltb_spec b 0);
    try (injection H as <-; left; lia);
    (destruct (slice (bh_source bh) (b * kBlockSize) kBlockSize) as [s|] eqn:S; [|discriminate]);
    destruct (slice_inv _ _ _ _ _ S) as (A1 & A2 & A3 & _);
    (destruct (block_contents_match block s); [injection H as <-; right; auto|]).
  - injection H as <-. left; lia.
  - destruct (get (bh_next bh) b); [|discriminate]. eapply IH; eauto.
Qed.

Lemma b_skip_eq : forall m n bh b block, zlen block = kBlockSize -> bytes_ok block -> bytes_ok (bh_source bh) ->
  b_skip_non_matching m n bh b block = skip_non_matching n bh b block.
Proof.
  intros m. induction n as [|n IH]; intros bh b block L B S; cbn [b_skip_non_matching skip_non_matching]; destruct (b <? 0); try reflexivity;
    (destruct (slice (bh_source bh) (b * kBlockSize) kBlockSize) as [s|] eqn:SL; [|reflexivity]);
    (rewrite b_match_eq; [|exact L|apply (slice_inv _ _ _ _ _ SL)|exact B|exact (slice_bytes_ok _ _ _ _ S SL)]);
    (destruct (block_contents_match block s); [reflexivity|]); [reflexivity|].
  destruct (get (bh_next bh) b); [|reflexivity]. apply IH; auto.
Qed.

Lemma p_extend_eq : forall p bh r target cand start best, 0 <= r -> r * kBlockSize + kBlockSize <= zlen (bh_source bh) ->
  zlen (bh_source bh) <= int32_max -> zlen target <= int32_max -> 0 <= start <= cand -> cand + kBlockSize <= zlen target ->
  p_extend_match p bh r target cand start (zlen target - start) best = extend_match bh r target cand start (zlen target - start) best.
Proof.
  intros p bh r target cand start best R S LS LT ST C. unfold p_extend_match, extend_match. cbv zeta. unfold int32_max, kBlockSize in *.
  rewrite (to_int32_id (cand - start)) by (unfold int32_max; lia).
  rewrite !wrap_small by lia. rewrite !to_size_id by (unfold size_max; lia). reflexivity.
Qed.

Lemma b_find_loop_eq : forall m n bh r block target cand start best,
  r < 0 \/ 0 <= r /\ r * kBlockSize + kBlockSize <= zlen (bh_source bh) ->
  zlen block = kBlockSize -> bytes_ok block -> bytes_ok (bh_source bh) ->
  zlen (bh_source bh) <= int32_max -> zlen target <= int32_max -> 0 <= start <= cand -> cand + kBlockSize <= zlen target ->
  b_find_loop m n bh r block target cand start (zlen target - start) best = find_loop n bh r block target cand start (zlen target - start) best.
Proof.
  intros m. induction n as [|n IH]; intros bh r block target cand start best R LB BB BS LS LT ST C; cbn [b_find_loop find_loop];
    destruct (Z.ltb_spec r 0); try reflexivity. destruct R as [R|[R1 R2]]; [lia|].
  rewrite p_extend_eq by auto. destruct (extend_match _ _ _ _ _ _ _); [|reflexivity].
  unfold b_next_matching_block, next_matching_block. unfold kBlockSize, int32_max in *.
  rewrite wrap_small by lia. rewrite to_size_id by (unfold size_max; lia).
  assert (forall x, (if number_of_blocks bh <=? r then Some (-1) else
      match get (bh_next bh) r with Some b => skip_non_matching kMaxProbes bh b block | None => None end) = Some x ->
      x < 0 \/ 0 <= x /\ x * 16 + 16 <= zlen (bh_source bh)) as RX.
  { intros x E. destruct (_ <=? _); [injection E as <-; left; lia|]. destruct (get (bh_next bh) r); [|discriminate]. exact (skip_range _ _ _ _ _ E). }
  assert ((if number_of_blocks bh <=? r then Some (-1) else
      match get (bh_next bh) r with Some b => b_skip_non_matching m kMaxProbes bh b block | None => None end) =
    (if number_of_blocks bh <=? r then Some (-1) else
      match get (bh_next bh) r with Some b => skip_non_matching kMaxProbes bh b block | None => None end)) as ->.
  { destruct (_ <=? _); [reflexivity|]. destruct (get (bh_next bh) r); [|reflexivity]. apply b_skip_eq; auto. }
  destruct (if number_of_blocks bh <=? r then _ else _) as [x|]; [|reflexivity]. apply IH; auto.
Qed.

Lemma b_find_best_eq : forall m bh h target cand start best, bytes_ok target -> bytes_ok (bh_source bh) ->
  zlen (bh_source bh) <= int32_max -> zlen target <= int32_max -> 0 <= start <= cand ->
  b_find_best_match m bh h target cand start (zlen target - start) best = find_best_match bh h target cand start (zlen target - start) best.
Proof.
  intros m bh h target cand start best BT BS LS LT ST. unfold b_find_best_match, find_best_match.
  destruct (slice target cand kBlockSize) as [block|] eqn:S; [|reflexivity].
  destruct (slice_inv _ _ _ _ _ S) as (A1 & A2 & A3 & _ & LB). pose proof (slice_bytes_ok _ _ _ _ BT S) as BB.
  unfold b_first_matching_block, first_matching_block. destruct (get (bh_table bh) _) as [b|]; [|reflexivity].
  rewrite b_skip_eq by auto. destruct (skip_non_matching _ _ _ _) as [r|] eqn:SK; [|reflexivity].
  apply b_find_loop_eq; auto. exact (skip_range _ _ _ _ _ SK).
Qed.

(** ** The engine *)

Lemma add_block_source : forall bh h bh', add_block bh h = Some bh' -> bh_source bh' = bh_source bh.
Proof.
  intros bh h bh' H. unfold add_block in H.
  repeat match type of H with context [match ?x with _ => _ end] => destruct x; try discriminate end; injection H as <-; reflexivity.
Qed.
Lemma add_blocks_source : forall f bh a b bh', add_blocks_loop f bh a b = Some bh' -> bh_source bh' = bh_source bh.
Proof.
  induction f as [|f IH]; intros bh a b bh' H; cbn [add_blocks_loop] in H; (destruct (a <? b); [|injection H as <-; reflexivity]); [discriminate|].
  destruct (slice _ _ _); [|discriminate]. destruct (hash_direct _ _); [|discriminate].
  destruct (add_block bh z) eqn:A; [|discriminate]. apply add_block_source in A. apply IH in H. congruence.
Qed.
Lemma add_all_source : forall bh i bh', add_all_blocks_through_index bh i = Some bh' -> bh_source bh' = bh_source bh.
Proof.
  intros bh i bh' H. unfold add_all_blocks_through_index in H. cbv zeta in H.
  repeat match type of H with context [if ?x then Some bh else _] => destruct x; [injection H as <-; reflexivity|] end.
  exact (add_blocks_source _ _ _ _ _ H).
Qed.

Lemma b_encode_copy_eq : forall m dh th h target cand start, bytes_ok target -> zlen target <= int32_max -> 0 <= start <= cand ->
  bytes_ok (bh_source dh) -> zlen (bh_source dh) <= int32_max -> (forall t, th = Some t -> bh_source t = target) ->
  b_encode_copy_for_best_match m dh th h target cand start (zlen target - start) =
  encode_copy_for_best_match dh th h target cand start (zlen target - start).
Proof.
  intros m dh th h target cand start BT LT ST BD LD TH. unfold b_encode_copy_for_best_match, encode_copy_for_best_match.
  rewrite b_find_best_eq by auto. destruct (find_best_match dh _ _ _ _ _ _) as [m1|]; [|reflexivity].
  destruct th as [t|]; [|reflexivity]. specialize (TH t eq_refl). rewrite b_find_best_eq; auto; rewrite TH; auto.
Qed.

Lemma b_encode_loop_eq : forall m fuel dict dh dhs target ne cand h th ths blk,
  dict_hash_ok dict dh dhs -> target_hash_ok dict target cand th ths -> bytes_ok dict -> zlen dict <= int32_max ->
  bytes_ok target -> zlen target <= int32_max ->
  0 <= ne <= cand -> cand + kBlockSize <= zlen target ->
  slice target cand kBlockSize = Some blk -> hash_direct kBlockSize blk = Some h ->
  b_encode_loop m fuel dh target (remove_table kBlockSize) ne cand h th = encode_loop fuel dh target (remove_table kBlockSize) ne cand h th.
Proof.
  intros m.
  induction fuel as [|fuel IH]; intros dict dh dhs target ne cand h th ths blk D TH BD LD B L NE CL S H; [reflexivity|].
  cbn [b_encode_loop encode_loop]. cbv zeta. assert (kBlockSize = 16) as K by reflexivity.
  destruct (slice_inv _ _ _ _ _ S) as (_ & _ & _ & _ & LB).
  assert (0 <= h) as H0 by (eapply hash_direct_nonneg; [eapply slice_bytes_ok; eauto| |eauto]; lia).
  rewrite b_encode_copy_eq; auto; [|destruct D as (_ & -> & _); exact BD|destruct D as (_ & -> & _); exact LD|intros t ->; apply TH].
  destruct (encode_copy_ok dict dh dhs th ths target h cand ne D (or_introl TH) H0 NE CL L) as (k & calls & -> & C).
  destruct C as [[-> ->]|[KR G]].
  - cbn [Z.ltb Z.compare]. destruct (Z.ltb_spec (zlen target - kBlockSize) (cand + 1)) as [E|E]; [reflexivity|].
    destruct (next_hash target cand blk h B ltac:(lia) ltac:(lia) S H) as (f & la & blk' & h' & GF & GL & S' & H' & U).
    assert (exists th' ths', match th with
              | Some t => match add_one_index_hash t (to_int32 cand) h with Some th'0 => Some (Some th'0) | None => None end
              | None => Some None end = Some th' /\ target_hash_ok dict target (cand + 1) th' ths')
      as (th' & ths' & -> & TH').
    { destruct th as [bh|]; [|exists None, []; split; [reflexivity|exact Logic.I]].
      destruct TH as (T1 & T2 & T3 & T4 & T5). unfold add_one_index_hash, next_index_to_add. rewrite (bo_last _ _ T1).
      rewrite to_int32_id by (unfold int32_max in *; lia). replace (zlen ths - 1 + 1) with (zlen ths) by lia.
      destruct (Z.eqb_spec cand (zlen ths * kBlockSize)) as [EQ|NEQ].
      - destruct (add_block_ok bh ths h T1) as (bh' & -> & OK & (S1 & S2 & S3)); [|exact H0|].
        { unfold number_of_blocks. rewrite T2. apply Z.lt_le_trans with (zlen ths + 1); [lia|]. apply Z.div_le_lower_bound; lia. }
        exists (Some bh'), (ths ++ [h]). split; [reflexivity|].
        cbn [target_hash_ok]. split; [exact OK|]. split; [congruence|]. split; [congruence|]. split.
        { eapply true_hashes_snoc; eauto. rewrite <- EQ. exact S. }
        rewrite zlen_app, zlen_cons, zlen_nil. lia.
      - exists (Some bh), ths. split; [reflexivity|].
        cbn [target_hash_ok]. split; [exact T1|]. split; [exact T2|]. split; [exact T3|]. split; [exact T4|]. lia. }
    rewrite GF, GL, U. f_equal. apply (IH dict dh dhs target ne (cand + 1) h' th' ths' blk'); auto; lia.
  - destruct (Z.ltb_spec 0 k) as [KP|KN]; [|lia].
    destruct (Z.ltb_spec (zlen target - kBlockSize) (ne + k)) as [E|E]; [reflexivity|].
    assert (slice target (ne + k) kBlockSize = Some (ztake kBlockSize (zdrop (ne + k) target))) as S' by (apply slice_some; lia).
    rewrite S'. set (blk' := ztake kBlockSize _) in *. clearbody blk'.
    destruct (slice_inv _ _ _ _ _ S') as (_ & _ & _ & _ & LB').
    pose proof (slice_bytes_ok _ _ _ _ B S') as BB'.
    assert (hash_direct kBlockSize blk' = Some (poly blk' mod kBase)) as H' by (apply hash_direct_block; auto; lia).
    rewrite H'.
    destruct th as [bh|].
    + destruct TH as (T1 & T2 & T3 & T4 & T5).
      destruct (add_all_ok bh ths (ne + k)) as (bh' & more & A1 & A2 & A3 & (S1 & S2 & S3) & A4 & A5).
      { rewrite T2; exact B. } { exact T1. } { rewrite T2; exact T4. } { rewrite T2. lia. }
      rewrite to_int32_id by (unfold int32_max in *; lia). rewrite A1. f_equal.
      apply (IH dict dh dhs target (ne + k) (ne + k) (poly blk' mod kBase) (Some bh') (ths ++ more) blk'); auto; try lia.
      cbn [target_hash_ok]. split; [exact A2|]. split; [congruence|]. split; [congruence|]. split; [rewrite <- T2; exact A3|].
      rewrite zlen_app. split.
      * destruct A4 as [-> | A4]; [rewrite zlen_nil; lia|exact A4].
      * destruct (Z.lt_ge_cases ((zlen ths + zlen more) * kBlockSize) (ne + k)) as [X|X]; [exfalso|exact X].
        pose proof (zlen_nonneg _ ths). pose proof (zlen_nonneg _ more).
        assert (zlen ths + zlen more < zlen ths + zlen more); [|lia]. apply A5; [|exact X].
        split; [lia|]. unfold number_of_blocks. rewrite T2. apply Z.lt_le_trans with (zlen ths + zlen more + 1); [lia|]. apply Z.div_le_lower_bound; lia.
    + f_equal. apply (IH dict dh dhs target (ne + k) (ne + k) (poly blk' mod kBase) None [] blk'); auto; lia || exact Logic.I.
Qed.

Lemma b_engine_encode_eq : forall m en dict look target, engine_ok en dict -> bytes_ok target -> zlen dict + zlen target <= int32_max ->
  b_engine_encode m en look target = engine_encode en look target.
Proof.
  intros m en dict look target (E1 & BD & dh & dhs & E2 & D & _) B L. unfold b_engine_encode, engine_encode. rewrite E2, E1. cbv zeta.
  pose proof (zlen_nonneg _ dict). pose proof (zlen_nonneg _ target). assert (kBlockSize = 16) as K by reflexivity.
  destruct (Z.eqb_spec (zlen target) 0); [reflexivity|]. destruct (Z.ltb_spec (zlen target) kBlockSize) as [SM|BG]; [reflexivity|].
  unfold p_create_target_hash. rewrite p_bh_init_eq by lia. fold (create_target_hash target (zlen dict)).
  assert (exists th ths, (if look then create_target_hash target (zlen dict) else Some None) = Some th /\
     target_hash_ok dict target 0 th ths) as (th & ths & -> & TH).
  { destruct look; [|exists None, []; split; [reflexivity|exact Logic.I]]. unfold create_target_hash.
    rewrite to_int32_id by (unfold int32_max in *; lia).
    destruct (bh_init_eq target (zlen dict) false) as (k & KR & OK & ->); [lia|].
    exists (Some (empty_bh target (zlen dict) k)), []. split; [reflexivity|].
    cbn [target_hash_ok]. split; [exact OK|]. split; [reflexivity|]. split; [reflexivity|].
    split; [intros b h G; rewrite (proj2 (get_none _ _ _)) in G by (rewrite zlen_nil; lia); discriminate|]. rewrite zlen_nil. lia. }
  destruct (look && _); [reflexivity|]. destruct (slice target 0 kBlockSize) as [blk|] eqn:S; [|reflexivity].
  destruct (hash_direct kBlockSize blk) as [h|] eqn:HD; [|reflexivity].
  rewrite (b_encode_loop_eq m _ dict dh dhs target 0 0 h th ths blk); auto; lia.
Qed.

(** ** The writers *)

Lemma encode_instruction_len : forall w i s mo w', encode_instruction w i s mo = Some w' -> wr_len w' = wr_len w.
Proof.
  intros w i s mo w' H.
  assert (forall im, encode_single w im i s mo = Some w' -> wr_len w' = wr_len w) as SI.
  { intros im E. unfold encode_single in E. destruct (if s <=? 255 then _ else _) as [op|]; [|discriminate].
    destruct (negb _); [injection E as <-; reflexivity|]. destruct (first_lookup _ _ _ _); [|discriminate].
    destruct (_ =? _); injection E as <-; reflexivity. }
  unfold encode_instruction in H. destruct (wr_map w) as [im|]; [|injection H as <-; reflexivity].
  destruct (0 <=? wr_last w); [|eauto]. destruct (get _ _); [|discriminate]. destruct (if s <=? 255 then _ else _) as [op|]; [|discriminate].
  destruct (negb _); [destruct (put _ _ _); [injection H as <-; reflexivity|discriminate]|].
  destruct (second_lookup _ _ _ _ _) as [op2|]; [|discriminate].
  destruct (negb _); [destruct (put _ _ _); [injection H as <-; reflexivity|discriminate]|eauto].
Qed.

Lemma p_writer_calls_eq : forall p look dict T b l T', genuine_plan look dict T b l T' -> zlen T' <= int32_max ->
  forall w, 0 <= wr_len w <= zlen T -> p_writer_calls p w l = writer_calls w l.
Proof.
  intros p look dict. unfold int32_max.
  assert (forall T b l T', genuine_plan look dict T b l T' -> zlen T <= zlen T') as GR.
  { intros T b l T' G. destruct (genuine_plan_grows _ _ _ _ _ _ G) as (x & ->). rewrite zlen_app. pose proof (zlen_nonneg _ x). lia. }
  induction 1 as [T b|T d l T' ND G IH|T b a n T1 l T' N C X G IH]; intros LT w W; [reflexivity| |].
  - pose proof (GR _ _ _ _ G) as LD. rewrite zlen_app in LD. pose proof (zlen_nonneg _ T). pose proof (zlen_nonneg _ d).
    cbn [p_writer_calls writer_calls p_writer_call writer_call]. unfold p_writer_add, writer_add.
    destruct (encode_instruction w VCD_ADD (zlen d) 0) as [w1|] eqn:EI; [|reflexivity]. apply encode_instruction_len in EI.
    unfold p_append_data, append_data. rewrite wrap_small by lia. rewrite to_size_id by (unfold size_max; lia).
    apply IH; [exact LT|]. rewrite zlen_app. destruct (wr_il w1); cbn [set_sections wr_len]; lia.
  - destruct (copy_bytewise_length _ _ _ _ _ X) as (bs & EB & LB). pose proof (GR _ _ _ _ G) as LD. rewrite EB, zlen_app in LD, IH. pose proof (zlen_nonneg _ T).
    cbn [p_writer_calls writer_calls p_writer_call writer_call]. unfold p_writer_copy, writer_copy.
    destruct (wr_map w); [|apply IH; [exact LT|lia]].
    destruct (encode_address _ _ _) as [[[mode e] c]|]; [|reflexivity]. cbv zeta.
    destruct (encode_instruction _ VCD_COPY n mode) as [w2|] eqn:EI; [|reflexivity]. apply encode_instruction_len in EI. cbn [set_state wr_len] in EI.
    unfold p_append_addr, append_addr. rewrite wrap_small by lia. rewrite to_size_id by (unfold size_max; lia).
    apply IH; [exact LT|]. destruct (wr_il w2); cbn [set_sections wr_len]; lia.
Qed.

Lemma p_json_calls_eq : forall p look dict T b l T', genuine_plan look dict T b l T' -> zlen T' <= int32_max ->
  forall j, fold_left (p_json_call p) l j = fold_left json_call l j.
Proof.
  intros p look dict. unfold int32_max.
  induction 1 as [T b|T d l T' ND G IH|T b a n T1 l T' N C X G IH]; intros LT j; [reflexivity|apply IH; exact LT|].
  destruct (copy_bytewise_length _ _ _ _ _ X) as (bs & EB & LB). destruct (genuine_plan_grows _ _ _ _ _ _ G) as (x & ET).
  cbn [fold_left p_json_call json_call]. unfold p_json_copy, json_copy.
  assert (n <= zlen T') by (rewrite ET, EB, !zlen_app; pose proof (zlen_nonneg _ T); pose proof (zlen_nonneg _ x); lia).
  rewrite wrap_small by lia. rewrite to_size_id by (unfold size_max; lia). apply IH; exact LT.
Qed.

Lemma wrap_mod : forall p x, wrap p x mod 4294967296 = x mod 4294967296.
Proof.
  intros p x. unfold wrap.
  assert (exists k, 0 < k /\ smax p + 1 = 4294967296 * k) as (k & K & ->) by (destruct p; [exists 1|exists 4294967296|exists 4294967296]; cbn; lia).
  rewrite Z.rem_mul_r by lia. rewrite (Z.mul_comm 4294967296 (_ mod k)), Z.mod_add, Z.mod_mod by lia. reflexivity.
Qed.
Lemma to_int32_wrap : forall p x, to_int32 (wrap p x) = to_int32 x.
Proof.
  intros p x. unfold to_int32. f_equal. rewrite <- (Zplus_mod_idemp_l (wrap p x)), <- (Zplus_mod_idemp_l x), wrap_mod. reflexivity.
Qed.

Lemma p_output_eq : forall p w, p_writer_output p w = writer_output w.
Proof.
  intros p w. unfold p_writer_output, writer_output.
  assert (p_window_bytes p w = window_bytes w) as ->; [|reflexivity].
  unfold p_window_bytes, window_bytes. do 3 f_equal. 
  assert (size_bytes (p_delta_length p w) = size_bytes (delta_length w)) as ->; [|reflexivity].
  unfold size_bytes. f_equal. unfold p_delta_length, delta_length. rewrite to_int32_wrap. unfold to_int32. f_equal.
  rewrite <- Z.add_assoc. rewrite <- (Zplus_mod_idemp_l (wrap p _)), wrap_mod, Zplus_mod_idemp_l. f_equal. lia.
Qed.

(** ** The encoder *)

Definition fits (dict : list Z) (c : ecall) : Prop :=
  match c with EChunk data => bytes_ok data /\ zlen dict + zlen data <= int32_max | _ => True end.

(** Between calls: the length of the target written so far is zero. *)
Definition pe_inv (e : encoder) (dict : list Z) : Prop :=
  engine_ok (ec_engine e) dict /\ zlen dict <= int32_max /\
  (forall w, ec_coder e = Binary w -> wr_near w = 4 /\ wr_same w = 3 /\ (ec_allowed e = true -> wr_len w = 0)).

Lemma encode_instruction_sizes : forall w i s mo w', encode_instruction w i s mo = Some w' -> wr_near w' = wr_near w /\ wr_same w' = wr_same w.
Proof.
  intros w i s mo w' H.
  assert (forall im, encode_single w im i s mo = Some w' -> wr_near w' = wr_near w /\ wr_same w' = wr_same w) as SI.
  { intros im E. unfold encode_single in E. destruct (if s <=? 255 then _ else _) as [op|]; [|discriminate].
    destruct (negb _); [injection E as <-; split; reflexivity|]. destruct (first_lookup _ _ _ _); [|discriminate].
    destruct (_ =? _); injection E as <-; split; reflexivity. }
  unfold encode_instruction in H. destruct (wr_map w) as [im|]; [|injection H as <-; split; reflexivity].
  destruct (0 <=? wr_last w); [|eauto]. destruct (get _ _); [|discriminate]. destruct (if s <=? 255 then _ else _) as [op|]; [|discriminate].
  destruct (negb _); [destruct (put _ _ _); [injection H as <-; split; reflexivity|discriminate]|].
  destruct (second_lookup _ _ _ _ _) as [op2|]; [|discriminate].
  destruct (negb _); [destruct (put _ _ _); [injection H as <-; split; reflexivity|discriminate]|eauto].
Qed.
Lemma writer_calls_sizes : forall l w w', writer_calls w l = Some w' -> wr_near w' = wr_near w /\ wr_same w' = wr_same w.
Proof.
  induction l as [|i l IH]; intros w w' H; cbn [writer_calls] in H; [injection H as <-; auto|].
  destruct (writer_call w i) as [w1|] eqn:C; [|discriminate]. apply IH in H.
  assert (wr_near w1 = wr_near w /\ wr_same w1 = wr_same w); [|destruct H; split; etransitivity; eauto; apply H0].
  destruct i as [d|a n|n b]; cbn [writer_call] in C.
  - unfold writer_add in C. destruct (encode_instruction _ _ _ _) as [w2|] eqn:EI; [|discriminate]. apply encode_instruction_sizes in EI.
    injection C as <-. unfold append_data. destruct (wr_il w2); exact EI.
  - unfold writer_copy in C. destruct (wr_map w); [|injection C as <-; auto].
    destruct (encode_address _ _ _) as [[[mode e] c]|]; [|discriminate]. cbv zeta in C.
    destruct (encode_instruction _ _ _ _) as [w2|] eqn:EI; [|discriminate]. apply encode_instruction_sizes in EI.
    injection C as <-. unfold append_addr. destruct (wr_il w2); exact EI.
  - unfold writer_run in C. destruct (encode_instruction _ _ _ _) as [w2|] eqn:EI; [|discriminate]. apply encode_instruction_sizes in EI.
    injection C as <-. unfold append_data. destruct (wr_il w2); exact EI.
Qed.
Lemma writer_init_sizes : forall w n w' r, wr_near w = 4 -> wr_same w = 3 -> writer_init w n = Some (w', r) ->
  wr_near w' = 4 /\ wr_same w' = 3 /\ wr_len w' = 0.
Proof.
  intros w n w' r N S H. unfold writer_init in H. rewrite N, S in H. destruct (match wr_map w with Some _ => _ | None => _ end); [|discriminate].
  remember (cache_init 4 3) as ci eqn:CI. vm_compute in CI. subst ci. injection H as <- <-. auto.
Qed.

Lemma b_do_ecall_eq : forall m e dict c, pe_inv e dict -> fits dict c ->
  b_do_ecall m e c = do_ecall e c /\ forall e' r o, do_ecall e c = Some (e', r, o) -> pe_inv e' dict.
Proof.
  intros m e dict c (EN & SZ & WI) F. destruct c as [|data|]; cbn [b_do_ecall do_ecall fits] in *.
  - split; [reflexivity|]. intros e' r o H. unfold start_encoding in H.
    destruct (coder_init (ec_coder e) _) as [[c0 ok]|] eqn:CI; [|discriminate].
    assert (forall w, c0 = Binary w -> wr_near w = 4 /\ wr_same w = 3 /\ wr_len w = 0) as W0.
    { intros w ->. unfold coder_init in CI. destruct (ec_coder e) as [w0|j0] eqn:CO; [|discriminate].
      destruct (writer_init w0 _) as [[w' r']|] eqn:WW; [|discriminate]. injection CI as <- <-.
      destruct (WI w0 eq_refl) as (A & B & _). exact (writer_init_sizes _ _ _ _ A B WW). }
    assert (forall a, pe_inv (set_coder e c0 a) dict) as P.
    { intros a. split; [exact EN|]. split; [exact SZ|]. cbn [set_coder ec_coder]. intros w E. destruct (W0 w E) as (A & B & C). auto. }
    destruct ok; [|injection H as <- _ _; apply P].
    destruct (negb _); injection H as <- _ _; apply P.
  - destruct F as [B L]. unfold b_encode_chunk, encode_chunk. destruct (ec_allowed e) eqn:AL; cbn [negb].
    2:{ split; [reflexivity|]. intros e' r o H. injection H as <- _ _. split; [exact EN|]. split; [exact SZ|]. rewrite AL. exact WI. }
    destruct (negb (coder_verify (ec_coder e) data)).
    { split; [reflexivity|]. intros e' r o H. injection H as <- _ _. split; [exact EN|]. split; [exact SZ|]. rewrite AL. exact WI. }
    cbv zeta. set (c := if fl_checksum (ec_flags e) then _ else _).
    assert (forall w, c = Binary w -> wr_near w = 4 /\ wr_same w = 3 /\ wr_len w = 0) as W1.
    { intros w E. unfold c in E. destruct (ec_coder e) as [w0|j0] eqn:CO.
      - destruct (WI w0 eq_refl) as (X1 & X2 & X3). specialize (X3 eq_refl).
        destruct (fl_checksum (ec_flags e)); cbn [coder_checksum] in E; injection E as <-; auto.
      - destruct (fl_checksum (ec_flags e)); discriminate. }
    clearbody c. rewrite (b_engine_encode_eq m _ dict _ data EN B L).
    destruct (list_eq_dec Z.eq_dec data []) as [-> |NE].
    { assert (engine_encode (ec_engine e) (ec_look e) [] = Some None) as -> by (unfold engine_encode; destruct (en_hash (ec_engine e)); reflexivity).
      split; [reflexivity|]. intros e' r o H. injection H as <- _ _. split; [exact EN|]. split; [exact SZ|]. cbn [set_coder ec_coder ec_allowed].
      intros w E. destruct (W1 w E) as (X1 & X2 & X3). auto. }
    destruct (engine_encode_ok (ec_engine e) dict (ec_look e) data EN B NE L) as (l & -> & GP).
    assert (zlen data <= int32_max) as LD by (pose proof (zlen_nonneg _ dict); lia).
    assert (p_coder_calls (b_platform m) c l = coder_calls c l) as ->.
    { unfold p_coder_calls, coder_calls. destruct c as [w|j].
      - rewrite (p_writer_calls_eq _ _ _ _ _ _ _ GP LD); [reflexivity|]. destruct (W1 w eq_refl) as (_ & _ & ->). rewrite zlen_nil. lia.
      - rewrite (p_json_calls_eq _ _ _ _ _ _ _ GP LD). reflexivity. }
    destruct (coder_calls c l) as [c1|] eqn:CC; [|split; [reflexivity|discriminate]].
    assert (p_coder_output (b_platform m) c1 = coder_output c1) as ->.
    { unfold p_coder_output, coder_output. destruct c1; [rewrite p_output_eq; reflexivity|reflexivity]. }
    destruct (coder_output c1) as [[c2 out]|] eqn:CO; [|split; [reflexivity|discriminate]]. split; [reflexivity|].
    intros e' r o H. injection H as <- _ _. split; [exact EN|]. split; [exact SZ|]. cbn [set_coder ec_coder ec_allowed].
    intros w2 ->. unfold coder_output in CO. destruct c1 as [w1|j1]; [|destruct (json_output j1); discriminate].
    destruct (writer_output w1) as [[w3 o3]|] eqn:WO; [|discriminate]. injection CO as <- <-.
    unfold coder_calls in CC. destruct c as [w|j]; [|discriminate]. destruct (writer_calls w l) as [w4|] eqn:WC; [|discriminate]. injection CC as <-.
    destruct (W1 w eq_refl) as (X1 & X2 & _). apply writer_calls_sizes in WC as [Y1 Y2].
    unfold writer_output in WO. destruct (match wr_inst w4 with [] => _ | _ => _ end) as [w5 o5] eqn:W5.
    assert (wr_near w5 = 4 /\ wr_same w5 = 3) as [Z1 Z2] by (destruct (wr_inst w4); injection W5 as <- _; cbn; split; congruence).
    destruct (writer_init w5 (wr_dict_size w5)) as [[w6 r6]|] eqn:WN; [|discriminate]. injection WO as <- <-.
    destruct (writer_init_sizes _ _ _ _ Z1 Z2 WN) as (V1 & V2 & V3). auto.
  - split; [reflexivity|]. intros e' r o H. injection H as H. unfold finish_encoding in H. destruct (negb (ec_allowed e)); injection H as <- _ _.
    + split; auto.
    + split; [exact EN|]. split; [exact SZ|]. cbn [set_coder ec_coder ec_allowed]. intros w E. destruct (WI w E) as (X1 & X2 & _). split; [exact X1|]. split; [exact X2|discriminate].
Qed.

Lemma b_do_ecalls_eq : forall m l e dict, pe_inv e dict -> Forall (fits dict) l -> b_do_ecalls m e l = do_ecalls e l.
Proof.
  intros m. induction l as [|c l IH]; intros e dict P F; [reflexivity|]. inversion F as [|? ? F1 F2]; subst.
  destruct (b_do_ecall_eq m e dict c P F1) as [E PI]. cbn [b_do_ecalls do_ecalls]. rewrite E.
  destruct (do_ecall e c) as [[[e' r] o]|]; [|reflexivity]. rewrite (IH e' dict (PI _ _ _ eq_refl) F2). reflexivity.
Qed.

Lemma new_encoder_pe : forall en dict fl look, engine_ok en dict -> zlen dict <= int32_max -> pe_inv (new_encoder en fl look) dict.
Proof.
  intros en dict fl look E L. split; [exact E|]. split; [exact L|]. cbn [new_encoder new_custom_encoder ec_coder ec_allowed].
  unfold create_writer. destruct (fl_json fl); intros w H; [discriminate|]. injection H as <-. cbn. split; [reflexivity|]. split; [reflexivity|discriminate].
Qed.

Lemma p_streaming_encoder_eq : forall p dict fl look, zlen dict <= int32_max ->
  p_streaming_encoder p dict fl look = streaming_encoder dict fl look.
Proof. intros p dict fl look L. unfold p_streaming_encoder, streaming_encoder. rewrite p_engine_init_eq by exact L. reflexivity. Qed.

(** ** VCDiffEncoder *)

Lemma b_encode_stream_eq : forall m e dict target, pe_inv e dict -> bytes_ok target -> zlen dict + zlen target <= int32_max ->
  b_encode_stream m e [target] = encode_stream e [target] /\
  forall e' r o, encode_stream e [target] = Some (e', r, o) -> pe_inv e' dict.
Proof.
  intros m e dict target P B L. unfold b_encode_stream, encode_stream.
  destruct (b_do_ecall_eq m e dict EStart P Logic.I) as [_ P1]. cbn [do_ecall] in P1.
  destruct (start_encoding e) as [[[e1 [|]] o1]|]; [|split; [reflexivity|intros e' r o H; injection H as <- <- <-; eapply P1; reflexivity]|split; [reflexivity|discriminate]].
  specialize (P1 _ _ _ eq_refl). destruct (b_do_ecall_eq m e1 dict (EChunk target) P1 (conj B L)) as [E2 P2]. cbn [do_ecall b_do_ecall] in E2, P2.
  cbn [b_encode_chunks encode_chunks]. rewrite E2.
  destruct (encode_chunk e1 target) as [[[e2 [|]] o2]|]; [|split; [reflexivity|intros e' r o H; injection H as <- <- <-; eapply P2; reflexivity]|split; [reflexivity|discriminate]].
  specialize (P2 _ _ _ eq_refl). destruct (b_do_ecall_eq m e2 dict EFinish P2 Logic.I) as [_ P3]. cbn [do_ecall] in P3.
  destruct (finish_encoding e2) as [[e3 r3] o3]. split; [reflexivity|]. intros e' r o H. injection H as <- <- <-. eapply P3; reflexivity.
Qed.

(** A VCDiffEncoder with any history. *)
Definition ve_inv (v : vcdiff_encoder) (dict : list Z) : Prop :=
  match ve_encoder v with Some e => pe_inv e dict | None => ve_engine v = new_engine dict end.

Lemma b_encode_eq : forall m v dict target, ve_inv v dict -> bytes_ok dict -> bytes_ok target -> zlen dict + zlen target <= int32_max ->
  b_encode m v target = encode v target /\ forall v' r o, encode v target = Some (v', r, o) -> ve_inv v' dict.
Proof.
  intros m v dict target V BD BT L. pose proof (zlen_nonneg _ target). assert (zlen dict <= int32_max) as LD by lia.
  unfold b_encode, encode. unfold ve_inv in V. destruct (ve_encoder v) as [e|].
  - destruct (b_encode_stream_eq m e dict target V BT L) as [E P]. rewrite E. split; [reflexivity|]. intros v' r o H'.
    destruct (encode_stream e [target]) as [[[e' r'] o']|]; [|discriminate]. injection H' as <- <- <-. cbn. eapply P; reflexivity.
  - rewrite V, p_engine_init_eq by exact LD. destruct (engine_init_ok dict BD LD) as (en & -> & EN).
    destruct (b_encode_stream_eq m (new_encoder en (ve_flags v) (ve_look v)) dict target (new_encoder_pe _ _ _ _ EN LD) BT L) as [E P].
    rewrite E. split; [reflexivity|]. intros v' r o H'.
    destruct (encode_stream _ [target]) as [[[e' r'] o']|]; [|discriminate]. injection H' as <- <- <-. cbn. eapply P; reflexivity.
Qed.

Fixpoint encodes (v : vcdiff_encoder) (targets : list (list Z)) : list (option (bool * list Z)) :=
  match targets with
  | [] => []
  | t :: tl => match encode v t with None => [None] | Some (v', r, out) => Some (r, out) :: encodes v' tl end
  end.
Lemma b_encodes_eq : forall m targets v dict, ve_inv v dict -> bytes_ok dict ->
  Forall (fun t => bytes_ok t /\ zlen dict + zlen t <= int32_max) targets -> b_encodes m v targets = encodes v targets.
Proof.
  intros m. induction targets as [|t l IH]; intros v dict V BD F; [reflexivity|]. inversion F as [|? ? [F1 F2] F3]; subst.
  destruct (b_encode_eq m v dict t V BD F1 F2) as [E P]. cbn [b_encodes encodes]. rewrite E.
  destruct (encode v t) as [[[v' r] o]|]; [|reflexivity]. f_equal. apply (IH v' dict); auto. eapply P; reflexivity.
Qed.
