(** The engine leaves no long repetition in an ADD. *)

From Verif Require Import Base ListFacts Spec SpecEncode SpecFind CopyFacts WriterFacts RollingHash RollingHashFacts BlockHash BlockHashFacts Engine EngineFacts.
From Coq Require Import ZifyBool ZifyNat Sorting.Sorted.

(** ** Extending a match *)

Lemma matching_left_max : forall n source s target t k q, matching_left n source s target t = Some k ->
  Z.of_nat n <= s <= zlen source -> Z.of_nat n <= t <= zlen target ->
  0 <= q <= Z.of_nat n -> same_range source (s - q) target (t - q) q -> q <= k.
Proof.
  induction n as [|n IH]; intros source s target t k q E HS T Q (R1 & R2 & R3 & R4 & R5 & R6).
  - cbn [matching_left] in E. injection E as <-. lia.
  - destruct (Z.eq_dec q 0) as [-> |NQ].
    { destruct (matching_left_ok (S n) source s target t HS T) as (k' & E' & K' & _). rewrite E in E'. injection E' as <-. lia. }
    cbn [matching_left] in E.
    pose proof (R6 (q - 1) ltac:(lia)) as G. replace (s - q + (q - 1)) with (s - 1) in G by lia. replace (t - q + (q - 1)) with (t - 1) in G by lia.
    rewrite <- G in E. destruct (get_some _ source (s - 1)) as [a GA]; [lia|]. rewrite GA in E. rewrite Z.eqb_refl in E. cbn [negb] in E.
    destruct (matching_left n source (s - 1) target (t - 1)) as [k'|] eqn:E'; [|discriminate]. assert (k = 1 + k') as -> by congruence. clear E.
    enough (q - 1 <= k') by lia. apply (IH _ _ _ _ _ _ E'); [lia|lia|lia|].
    unfold same_range. split; [lia|]. split; [lia|]. split; [lia|]. split; [lia|]. split; [lia|].
    intros x X. replace (s - 1 - (q - 1)) with (s - q) by lia. replace (t - 1 - (q - 1)) with (t - q) by lia. apply R6. lia.
Qed.
Lemma matching_right_max : forall n source s target t k q, matching_right n source s target t = Some k ->
  0 <= s -> s + Z.of_nat n <= zlen source -> 0 <= t -> t + Z.of_nat n <= zlen target ->
  0 <= q <= Z.of_nat n -> same_range source s target t q -> q <= k.
Proof.
  induction n as [|n IH]; intros source s target t k q E S1 S2 T1 T2 Q (R1 & R2 & R3 & R4 & R5 & R6).
  - cbn [matching_right] in E. injection E as <-. lia.
  - destruct (Z.eq_dec q 0) as [-> |NQ].
    { destruct (matching_right_ok (S n) source s target t S1 S2 T1 T2) as (k' & E' & K' & _). rewrite E in E'. injection E' as <-. lia. }
    cbn [matching_right] in E.
    pose proof (R6 0 ltac:(lia)) as G. rewrite !Z.add_0_r in G.
    rewrite <- G in E. destruct (get_some _ source s) as [a GA]; [lia|]. rewrite GA in E. rewrite Z.eqb_refl in E.
    destruct (matching_right n source (s + 1) target (t + 1)) as [k'|] eqn:E'; [|discriminate]. assert (k = 1 + k') as -> by congruence. clear E.
    enough (q - 1 <= k') by lia. apply (IH _ _ _ _ _ _ E'); [lia|lia|lia|lia|lia|].
    unfold same_range. split; [lia|]. split; [lia|]. split; [lia|]. split; [lia|]. split; [lia|].
    intros x X. rewrite <- !Z.add_assoc. apply R6. lia.
Qed.

(** A range common to the source and the target, around block [r] of the source and the
    candidate block of the target. *)
Definition around (source : list Z) (r : Z) (target : list Z) (cand start a b : Z) : Prop :=
  0 <= a <= cand - start /\ 0 <= b /\ same_range source (r * 16 - a) target (cand - a) (a + 16 + b).

Lemma extend_match_max : forall bh hs r target cand start best m a b,
  bh_ok bh hs -> 0 <= r < zlen hs -> 0 <= start <= cand -> zlen target <= int32_max ->
  extend_match bh r target cand start (zlen target - start) best = Some m ->
  around (bh_source bh) r target cand start a b -> a + 16 + b <= m_size m.
Proof.
  intros bh hs r target cand start best m a b B R ST LT E (AR & BR & SR). pose proof SR as (R1 & R2 & R3 & R4 & R5 & R6).
  pose proof (bo_size _ _ B) as BS. pose proof (zlen_nonneg _ target). pose proof (zlen_nonneg _ (bh_source bh)).
  unfold extend_match, kBlockSize in E. cbv zeta in E.
  rewrite (to_int32_id (cand - start)) in E by (unfold int32_max in *; lia).
  replace (start + (cand - start)) with cand in E by lia.
  destruct (matching_left _ _ _ _ _) as [k|] eqn:EL; [|discriminate].
  rewrite !to_size_id in E by (unfold size_max, int32_max in *; lia).
  rewrite to_int32_id in E by (unfold int32_max in *; lia).
  replace (start + (cand - start + 16)) with (cand + 16) in E by lia.
  set (lim := Z.min (zlen (bh_source bh) - (r * 16 + 16)) _) in E.
  assert (0 <= lim /\ r * 16 + 16 + lim <= zlen (bh_source bh) /\ cand + 16 + lim <= zlen target /\ b <= lim) as (L1 & L2 & L3 & L4) by lia.
  clearbody lim.
  destruct (matching_right _ _ _ _ _) as [k2|] eqn:ER; [|discriminate].
  assert (replace_if_better best (16 + k + k2) (r * 16 - k + bh_start bh) (cand - start - k) = m) as EM by congruence. clear E.
  assert (a <= k) as A1.
  { apply (matching_left_max _ _ _ _ _ _ a EL); [lia|lia|lia|].
    unfold same_range. split; [lia|]. split; [lia|]. split; [lia|]. split; [lia|]. split; [lia|]. intros x X. apply R6. lia. }
  assert (b <= k2) as B1.
  { apply (matching_right_max _ _ _ _ _ _ b ER); [lia|lia|lia|lia|lia|].
    unfold same_range. split; [lia|]. split; [lia|]. split; [lia|]. split; [lia|]. split; [lia|]. intros x X.
    specialize (R6 (a + 16 + x) ltac:(lia)). replace (r * 16 - a + (a + 16 + x)) with (r * 16 + 16 + x) in R6 by lia.
    replace (cand - a + (a + 16 + x)) with (cand + 16 + x) in R6 by lia. exact R6. }
  pose proof (replace_better best (16 + k + k2) (r * 16 - k + bh_start bh) (cand - start - k)) as (_ & Q & _). rewrite EM in Q. lia.
Qed.

(** ** Reaching a block of the chain *)

Lemma skip_reach : forall n bh hs p r post block, bh_ok bh hs -> linked (bh_next bh) (p ++ r :: post) ->
  (forall b, In b (p ++ r :: post) -> 0 <= b < zlen hs) -> (length p <= n)%nat ->
  slice (bh_source bh) (r * kBlockSize) kBlockSize = Some block ->
  exists p1 p2, p = p1 ++ p2 /\ skip_non_matching n bh (hd (-1) (p ++ r :: post)) block = Some (hd (-1) (p2 ++ r :: post)) /\
    slice (bh_source bh) (hd (-1) (p2 ++ r :: post) * kBlockSize) kBlockSize = Some block.
Proof.
  induction n as [|n IH]; intros bh hs p r post block B L R LP S.
  - destruct p; [|cbn in LP; lia]. exists [], []. split; [reflexivity|]. cbn [app hd skip_non_matching]. split; [|exact S].
    destruct (Z.ltb_spec r 0); [reflexivity|]. rewrite S. assert (block_contents_match block block = true) as -> by (apply block_contents_match_eq; reflexivity). reflexivity.
  - destruct p as [|c p].
    + exists [], []. split; [reflexivity|]. cbn [app hd skip_non_matching]. split; [|exact S].
      destruct (Z.ltb_spec r 0); [reflexivity|]. rewrite S. assert (block_contents_match block block = true) as -> by (apply block_contents_match_eq; reflexivity). reflexivity.
    + cbn [app hd skip_non_matching]. pose proof (R c (or_introl eq_refl)) as RC. destruct (Z.ltb_spec c 0); [lia|].
      destruct (block_slice bh hs c B RC) as [blk E]. rewrite E. destruct (block_contents_match block blk) eqn:M.
      * apply block_contents_match_eq in M as <-. exists [], (c :: p). split; [reflexivity|]. cbn [app hd]. auto.
      * cbn [app linked] in L. destruct L as [G L]. rewrite G.
        destruct (IH bh hs p r post block B L) as (p1 & p2 & -> & E2 & S2); [intros; apply R; right; assumption|cbn in LP; lia|exact S|].
        exists (c :: p1), p2. split; [reflexivity|]. auto.
Qed.

Lemma find_loop_reach : forall n bh hs i pre p r post target cand start best block m a b,
  bh_ok bh hs -> bucket (bh_mask bh) hs i = pre ++ p ++ r :: post -> 0 <= start <= cand -> zlen target <= int32_max ->
  slice target cand kBlockSize = Some block ->
  slice (bh_source bh) (hd (-1) (p ++ r :: post) * kBlockSize) kBlockSize = Some block ->
  slice (bh_source bh) (r * kBlockSize) kBlockSize = Some block ->
  (length p <= kMaxProbes)%nat -> (length p < n)%nat ->
  find_loop n bh (hd (-1) (p ++ r :: post)) block target cand start (zlen target - start) best = Some m ->
  around (bh_source bh) r target cand start a b -> a + 16 + b <= m_size m.
Proof.
  induction n as [|n IH]; intros bh hs i pre p r post target cand start best block m a b B EB ST LT S1 SH SR LP LN E AR; [lia|].
  assert (forall c, In c (p ++ r :: post) -> 0 <= c < zlen hs) as RA.
  { intros c C. apply (bucket_range _ (bh_mask bh) i). rewrite EB. apply in_or_app. right. exact C. }
  set (h0 := hd (-1) (p ++ r :: post)) in *.
  assert (exists tl, p ++ r :: post = h0 :: tl) as (tl & ETL) by (unfold h0; destruct p; cbn; eauto). clearbody h0.
  pose proof (RA h0 ltac:(rewrite ETL; left; reflexivity)) as RH.
  cbn [find_loop] in E. destruct (Z.ltb_spec h0 0); [lia|].
  destruct (extend_match bh h0 target cand start (zlen target - start) best) as [best'|] eqn:EM; [|discriminate].
  unfold next_matching_block in E. pose proof (bo_count _ _ B). pose proof (number_of_blocks_range _ _ B).
  rewrite to_size_id in E by (unfold size_max, int32_max in *; lia). destruct (Z.leb_spec (number_of_blocks bh) h0); [lia|].
  pose proof (bo_linked _ _ B i) as LK. rewrite EB, ETL in LK. apply linked_suffix in LK. destruct LK as [GN LK]. rewrite GN in E.
  destruct p as [|c p].
  - cbn [app] in ETL. injection ETL as E0 ET. subst h0 tl.
    pose proof (extend_match_max bh hs r target cand start best best' a b B RH ST LT EM AR) as X.
    destruct (skip_ok kMaxProbes bh hs post block B LK) as (r' & ES & C); [intros; apply RA; right; assumption|]. rewrite ES in E.
    assert (exists l', r' = hd (-1) l' /\ (exists pre, bucket (bh_mask bh) hs i = pre ++ l') /\
              (forall r, hd_error l' = Some r -> slice (bh_source bh) (r * kBlockSize) kBlockSize = Some block)) as (l' & E' & P' & S').
    { destruct C as [-> |(p & q & El & Sl)].
      - exists []. split; [reflexivity|]. split; [exists (pre ++ r :: post); rewrite app_nil_r; exact EB|]. intros; discriminate.
      - exists (r' :: q). split; [reflexivity|]. split; [exists (pre ++ r :: p); rewrite EB, El; cbn [app]; rewrite <- app_assoc; reflexivity|].
        intros r0 Hr. injection Hr as <-. exact Sl. }
    subst r'. destruct (find_loop_ok n bh hs l' i target cand start best' block B P' ST LT S1 S') as (m' & EF & _ & SM & _).
    rewrite E in EF. injection EF as <-. lia.
  - cbn [app] in ETL. injection ETL as E0 ET. subst h0 tl.
    destruct (skip_reach kMaxProbes bh hs p r post block B LK) as (p1 & p2 & -> & ES & S2).
    { intros x X. apply RA. right. exact X. } { cbn in LP. lia. } { exact SR. }
    rewrite ES in E. apply (IH bh hs i (pre ++ c :: p1) p2 r post target cand start best' block m a b); auto.
    + rewrite EB. cbn [app]. rewrite <- !app_assoc. reflexivity.
    + cbn in LP. rewrite app_length in LP. lia.
    + cbn in LN. rewrite app_length in LN. lia.
Qed.

(** ** Slots *)

Lemma log2_up_eq : forall m k, 0 <= k -> m <= 2 ^ k < 2 * m -> Z.log2_up m = k.
Proof.
  intros m k K [L U]. destruct (Z.eq_dec k 0) as [-> |N].
  - change (2 ^ 0) with 1 in *. assert (m = 1) as -> by lia. reflexivity.
  - apply Z.log2_up_unique; [lia|]. split; [|exact L].
    assert (2 ^ k = 2 * 2 ^ Z.pred k) as E by (rewrite <- Z.pow_succ_r by lia; f_equal; lia). lia.
Qed.

(** The mask of an index is that of the specification. *)
Definition mask_right (bh : blockhash) : Prop := bh_mask bh = slots (zlen (bh_source bh)) - 1.

Lemma slots_pow : forall n, 0 <= n -> exists k, 0 <= k /\ slots n = 2 ^ k.
Proof. intros n N. exists (Z.log2_up (n / 4 + 1)). split; [apply Z.log2_up_nonneg|reflexivity]. Qed.

Lemma calc_table_size_slots : forall n, 0 <= n <= int32_max -> calc_table_size n = Some (slots n) /\ slots n <= 2 ^ 32.
Proof.
  intros n N. unfold calc_table_size. cbv zeta. unfold int32_max in N.
  assert (0 <= n / 4 <= 2147483647) as D by (split; [apply Z.div_pos; lia|apply Z.div_le_upper_bound; lia]).
  assert (1 <= n / 4 + 1 <= 2 ^ 32) as M by (change (2 ^ 32) with 4294967296; lia).
  destruct (table_size_loop_ok 66 0 (n / 4 + 1)) as (k & K & E & L); [lia|lia|exact M|change (2 ^ 0) with 1; lia|].
  change (2 ^ 0) with 1 in E. rewrite E. rewrite to_size_id by (unfold size_max; lia).
  unfold slots. rewrite (log2_up_eq _ k) by lia.
  destruct (Z.ltb_spec ((n / 4 + 1) * 2) (2 ^ k)); [lia|]. rewrite andb_false_r. split; [reflexivity|].
  apply Z.pow_le_mono_r; lia.
Qed.

Lemma same_source_refl : forall bh, same_source bh bh.
Proof. intros bh. split; [reflexivity|]. split; reflexivity. Qed.
Lemma add_block_same : forall bh h bh', add_block bh h = Some bh' -> same_source bh bh'.
Proof.
  intros bh h bh' E. unfold add_block in E.
  repeat match type of E with
         | context [match ?x with _ => _ end] => destruct x eqn:?; try discriminate
         | context [if ?x then _ else _] => destruct x; try discriminate
         end; injection E as <-; split; try split; reflexivity.
Qed.
Lemma add_blocks_loop_same : forall fuel bh p e bh', add_blocks_loop fuel bh p e = Some bh' -> same_source bh bh'.
Proof.
  induction fuel as [|fuel IH]; intros bh p e bh' E; cbn [add_blocks_loop] in E; destruct (p <? e); try discriminate;
    try (injection E as <-; apply same_source_refl).
  destruct (slice _ _ _); [|discriminate]. destruct (hash_direct _ _); [|discriminate]. destruct (add_block bh z) as [b1|] eqn:EA; [|discriminate].
  apply add_block_same in EA as (A1 & A2 & A3). apply IH in E as (B1 & B2 & B3). split; [congruence|]. split; congruence.
Qed.
Lemma add_all_same : forall bh e bh', add_all_blocks_through_index bh e = Some bh' -> same_source bh bh'.
Proof.
  intros bh e bh' E. unfold add_all_blocks_through_index in E. cbv zeta in E.
  destruct (_ <? e); [injection E as <-; apply same_source_refl|].
  destruct (e <=? _); [injection E as <-; apply same_source_refl|].
  destruct (_ <? kBlockSize); [injection E as <-; apply same_source_refl|]. apply add_blocks_loop_same in E. exact E.
Qed.
Lemma same_source_mask : forall bh bh', same_source bh bh' -> mask_right bh -> mask_right bh'.
Proof. intros bh bh' (E1 & _ & E3) M. unfold mask_right. rewrite E1, E3. exact M. Qed.

Lemma bh_init_mask : forall source start populate bh, zlen source <= int32_max ->
  bh_init source start populate = Some (Some bh) -> mask_right bh.
Proof.
  intros source start populate bh L E. pose proof (zlen_nonneg _ source).
  destruct (calc_table_size_slots (zlen source)) as [CT CL]; [lia|]. unfold bh_init in E. rewrite CT in E.
  assert (0 < slots (zlen source)) as P by (destruct (slots_pow (zlen source)) as (q & Q & ->); [lia|]; apply Z.pow_pos_nonneg; lia).
  destruct (Z.eqb_spec (slots (zlen source)) 0); [lia|]. cbv zeta in E.
  assert (to_uint32 (slots (zlen source) - 1) = slots (zlen source) - 1) as TU.
  { unfold to_uint32. apply Z.mod_small. change (2 ^ 32) with 4294967296 in *. lia. }
  rewrite TU in E. destruct populate.
  - destruct (add_all_blocks_through_index _ _) as [b|] eqn:EA; [|discriminate]. injection E as <-. apply add_all_same in EA.
    eapply same_source_mask; [exact EA|]. reflexivity.
  - injection E as <-. reflexivity.
Qed.

Lemma mask_slot : forall bh blk, mask_right bh -> bytes_ok blk -> zlen blk = kBlockSize ->
  Z.land (poly blk mod kBase) (bh_mask bh) = slot (zlen (bh_source bh)) blk.
Proof.
  intros bh blk M B L. rewrite M. unfold slot, window_hash. fold (poly blk). destruct (slots_pow (zlen (bh_source bh))) as (k & K & ->); [apply zlen_nonneg|].
  assert (2 ^ k - 1 = Z.ones k) as -> by (rewrite Z.ones_equiv; lia). rewrite Z.land_ones by lia. reflexivity.
Qed.

Lemma block16_slice : forall l b blk, slice l (b * kBlockSize) kBlockSize = Some blk -> block16 l b = blk.
Proof.
  intros l b blk S. destruct (slice_inv _ _ _ _ _ S) as (_ & _ & _ & E & _). unfold block16. rewrite E. unfold kBlockSize. f_equal. f_equal. lia.
Qed.

Local Transparent zlen.
Lemma zlen_length : forall A (l : list A), zlen l = Z.of_nat (length l).
Proof. reflexivity. Qed.
Local Opaque zlen.

(** An easy block is among the first 17 of its chain. *)
Lemma easy_place : forall bh hs r h blk, bh_ok bh hs -> mask_right bh -> bytes_ok (bh_source bh) -> true_hashes (bh_source bh) hs ->
  easy (zlen (bh_source bh)) (bh_source bh) r -> r < zlen hs ->
  slice (bh_source bh) (r * kBlockSize) kBlockSize = Some blk -> hash_direct kBlockSize blk = Some h ->
  exists p post, bucket (bh_mask bh) hs (hash_table_index bh h) = p ++ r :: post /\ (length p <= 16)%nat.
Proof.
  intros bh hs r h blk B M BS T (R0 & R1 & CR) RL S H.
  assert (forall c hc, get hs c = Some hc -> exists bc, slice (bh_source bh) (c * kBlockSize) kBlockSize = Some bc /\
            Z.land hc (bh_mask bh) = slot (zlen (bh_source bh)) bc) as SL.
  { intros c hc G. destruct (T _ _ G) as (bc & SC & HC). exists bc. split; [exact SC|].
    destruct (slice_inv _ _ _ _ _ SC) as (_ & _ & _ & _ & LC). pose proof (slice_bytes_ok _ _ _ _ BS SC) as BC.
    rewrite hash_direct_block in HC by auto. injection HC as <-. apply mask_slot; auto. }
  assert (Z.land h (bh_mask bh) = slot (zlen (bh_source bh)) blk) as HI.
  { destruct (slice_inv _ _ _ _ _ S) as (_ & _ & _ & _ & LC). pose proof (slice_bytes_ok _ _ _ _ BS S) as BC.
    rewrite hash_direct_block in H by auto. injection H as <-. apply mask_slot; auto. }
  unfold hash_table_index.
  assert (In r (bucket (bh_mask bh) hs (Z.land h (bh_mask bh)))) as IN.
  { apply bucket_in. destruct (get_some _ hs r) as [hr GR]; [lia|]. exists hr. split; [exact GR|].
    destruct (SL _ _ GR) as (bc & SC & ->). rewrite S in SC. injection SC as <-. symmetry. exact HI. }
  destruct (in_split _ _ IN) as (p & post & EB). exists p, post. split; [exact EB|].
  pose proof (bucket_nodup hs (bh_mask bh) (Z.land h (bh_mask bh))) as ND. rewrite EB in ND.
  pose proof (bucket_from_sorted hs 0 (bh_mask bh) (Z.land h (bh_mask bh))) as SO. fold (bucket (bh_mask bh) hs (Z.land h (bh_mask bh))) in SO. rewrite EB in SO.
  assert (forall c, In c p -> c < r) as LTR.
  { clear - SO. induction p as [|x p IH]; intros c [].
    - subst c. inversion SO as [|? ? _ F]; subst. rewrite Forall_forall in F. apply F. apply in_or_app. right. left. reflexivity.
    - apply IH; [|assumption]. inversion SO; assumption. }
  assert (NoDup p) as NP by (apply NoDup_remove_1 in ND; clear - ND; induction p; [constructor|]; inversion ND; subst; constructor; [intros X; apply H1; apply in_or_app; auto|auto]).
  unfold crowd in CR. rewrite zlen_length in CR.
  match type of CR with Z.of_nat ?n <= 16 => cut (length p <= n)%nat; [lia|] end.
  apply NoDup_incl_length; [exact NP|]. intros c C. apply filter_In.
  assert (In c (bucket (bh_mask bh) hs (Z.land h (bh_mask bh)))) as IC by (rewrite EB; apply in_or_app; left; exact C).
  pose proof (bucket_range _ _ _ _ IC). specialize (LTR _ C). split.
  - apply in_map_iff. exists (Z.to_nat c). split; [lia|]. apply in_seq. lia.
  - apply bucket_in in IC as (hc & GC & LC). destruct (SL _ _ GC) as (bc & SC & EC).
    rewrite (block16_slice _ _ _ SC), (block16_slice _ _ _ S). apply Z.eqb_eq. congruence.
Qed.

Lemma find_best_match_max : forall bh hs h target cand start best m blk r a b,
  bh_ok bh hs -> mask_right bh -> bytes_ok (bh_source bh) -> true_hashes (bh_source bh) hs ->
  0 <= start <= cand -> zlen target <= int32_max ->
  slice target cand kBlockSize = Some blk -> hash_direct kBlockSize blk = Some h ->
  find_best_match bh h target cand start (zlen target - start) best = Some m ->
  easy (zlen (bh_source bh)) (bh_source bh) r -> r < zlen hs ->
  around (bh_source bh) r target cand start a b -> a + 16 + b <= m_size m.
Proof.
  intros bh hs h target cand start best m blk r a b B M BS T ST LT S H E EA RL AR.
  assert (slice (bh_source bh) (r * kBlockSize) kBlockSize = Some blk) as SR.
  { destruct AR as (A1 & A2 & (R1 & R2 & R3 & R4 & R5 & R6)). rewrite <- S. apply same_range_eq. unfold kBlockSize.
    split; [lia|]. split; [lia|]. split; [lia|]. split; [lia|]. split; [lia|]. intros k K.
    specialize (R6 (a + k) ltac:(lia)). replace (r * 16 - a + (a + k)) with (r * 16 + k) in R6 by lia. replace (cand - a + (a + k)) with (cand + k) in R6 by lia. exact R6. }
  destruct (easy_place bh hs r h blk B M BS T EA RL SR H) as (p & post & EB & LP).
  unfold find_best_match in E. rewrite S in E. unfold first_matching_block in E.
  assert (0 <= h) as H0. { eapply hash_direct_nonneg; [|exact (proj2 (proj2 (proj2 (proj2 (slice_inv _ _ _ _ _ SR)))))|exact H]. eapply slice_bytes_ok; eauto. }
  rewrite (bo_table _ _ B) in E by (eapply index_range; eauto).
  pose proof (bo_linked _ _ B (hash_table_index bh h)) as LK. rewrite EB in E, LK.
  destruct (skip_reach kMaxProbes bh hs p r post blk B LK) as (p1 & p2 & -> & ES & S2); [|exact LP|exact SR|].
  { intros c C. apply (bucket_range _ (bh_mask bh) (hash_table_index bh h)). rewrite EB. exact C. }
  rewrite ES in E. rewrite app_length in LP.
  apply (find_loop_reach kMaxMatchesToCheck bh hs (hash_table_index bh h) p1 p2 r post target cand start best blk m a b); auto.
  - rewrite EB, <- app_assoc. reflexivity.
  - unfold kMaxProbes. lia.
  - unfold kMaxMatchesToCheck. lia.
Qed.

(** ** The loop of the engine *)

(** At position [c] of the target, with the data from [start] on not yet encoded, there is a
    common range of at least 32 bytes, around an easy block of [source] that
    begins before [lim]. *)
Definition hit (source target : list Z) (lim start c : Z) : Prop :=
  exists r a b, easy (zlen source) source r /\ r * 16 < lim /\ 32 <= a + 16 + b /\ around source r target c start a b.
Definition quiet (dict target : list Z) (look : bool) (p e : Z) : Prop :=
  forall c, p <= c -> c + 16 <= e -> ~ hit dict target (zlen dict) p c /\ (look = true -> ~ hit target target c p c).

(** The calls encode the target from [pos] to [e], and no ADD contains a hit. *)
Fixpoint lits (dict target : list Z) (look : bool) (pos : Z) (l : list instruction) (e : Z) : Prop :=
  match l with
  | [] => pos = e
  | Add d :: tl => slice target pos (zlen d) = Some d /\ quiet dict target look pos (pos + zlen d) /\ lits dict target look (pos + zlen d) tl e
  | Copy _ n :: tl => 0 <= n /\ lits dict target look (pos + n) tl e
  | Run _ _ :: _ => False
  end.
Lemma lits_app : forall dict target look l1 pos e1 l2 e2, lits dict target look pos l1 e1 -> lits dict target look e1 l2 e2 ->
  lits dict target look pos (l1 ++ l2) e2.
Proof.
  induction l1 as [|[d|a n|n b] l1 IH]; intros pos e1 l2 e2 H1 H2; cbn [app lits] in *.
  - subst. exact H2.
  - destruct H1 as (A & B & C). split; [exact A|]. split; [exact B|]. eapply IH; eauto.
  - destruct H1 as [A B]. split; [exact A|]. eapply IH; eauto.
  - exact H1.
Qed.

(** The dictionary index is complete. *)
Definition dict_full (dict : list Z) (dh : blockhash) (dhs : list Z) : Prop :=
  dict_hash_ok dict dh dhs /\ mask_right dh /\ bytes_ok dict /\ true_hashes dict dhs /\ (forall b, 0 <= b < zlen dict / kBlockSize -> b < zlen dhs).
Definition target_mask (th : option blockhash) : Prop := match th with None => True | Some bh => mask_right bh end.

Lemma encode_copy_shape : forall dict dh dhs th ths target h cand start blk k calls,
  dict_full dict dh dhs -> target_hash_ok dict target cand th ths -> target_mask th -> bytes_ok target ->
  0 <= start <= cand -> cand + kBlockSize <= zlen target -> zlen target <= int32_max ->
  slice target cand kBlockSize = Some blk -> hash_direct kBlockSize blk = Some h ->
  encode_copy_for_best_match dh th h target cand start (zlen target - start) = Some (k, calls) ->
  (k = 0 /\ calls = [] /\ ~ hit dict target (zlen dict) start cand /\ (is_some th = true -> ~ hit target target cand start cand)) \/
  (exists mt n a, calls = (if 0 <? mt then [Add (ztake mt (zdrop start target)); Copy a n] else [Copy a n]) /\
     k = mt + n /\ 0 <= mt <= cand - start /\ 16 <= n).
Proof.
  intros dict dh dhs th ths target h cand start blk k calls ((D1 & D2 & D3) & DM & BD & DT & DF) TH TM BT ST CL LT S H E.
  destruct (slice_inv _ _ _ _ _ S) as (_ & _ & _ & _ & LB).
  assert (0 <= h) as H0 by (eapply hash_direct_nonneg; [eapply slice_bytes_ok; eauto|exact LB|exact H]).
  unfold encode_copy_for_best_match in E.
  destruct (find_best_match_ok dh dhs h target cand start no_match D1 H0 ST CL LT) as (m1 & E1 & B1 & _). rewrite E1 in E.
  assert (exists m, match th with Some t => find_best_match t h target cand start (zlen target - start) m1 | None => Some m1 end = Some m /\
            m_size m1 <= m_size m /\ (m = no_match \/ exists bh hs, genuine bh hs target cand start m)) as (m & E2 & MM & GM).
  { assert (m1 = no_match \/ exists bh hs, genuine bh hs target cand start m1) as G1 by (destruct B1 as [-> |[_ G]]; [left; reflexivity|right; eauto]).
    destruct th as [bh|]; [|exists m1; split; [reflexivity|]; split; [lia|exact G1]].
    destruct TH as (T1 & _). destruct (find_best_match_ok bh ths h target cand start m1 T1 H0 ST CL LT) as (m & EM & B & _).
    exists m. split; [exact EM|]. destruct B as [-> |[B G]]; [split; [lia|exact G1]|split; [lia|right; eauto]]. }
  rewrite E2 in E.
  destruct (Z.leb_spec kMinimumMatchSize (m_size m)) as [BG|SM]; cbn [negb] in E.
  - right. destruct GM as [-> |(bh & hs & (r & RR & MT & ME & _))]; [cbn in BG; unfold kMinimumMatchSize in BG; lia|].
    exists (m_target m), (m_size m), (m_source m). unfold kMinimumMatchSize, kBlockSize in *.
    destruct (Z.ltb_spec 0 (m_target m)) as [P|NP].
    + rewrite slice_some in E by lia. injection E as <- <-. split; [reflexivity|]. split; [reflexivity|]. lia.
    + injection E as <- <-. split; [reflexivity|]. split; [reflexivity|]. lia.
  - left. injection E as <- <-. split; [reflexivity|]. split; [reflexivity|]. unfold kMinimumMatchSize in SM. split.
    + intros (r & a & b & EA & RL & AB & AR). pose proof EA as (R0 & R1 & _). rewrite <- D2 in EA.
      assert (r < zlen dhs) as RD. { apply DF. split; [lia|]. unfold kBlockSize. apply Z.lt_le_trans with (r + 1); [lia|]. apply Z.div_le_lower_bound; lia. }
      rewrite <- D2 in AR. pose proof (find_best_match_max dh dhs h target cand start no_match m1 blk r a b D1 DM ltac:(rewrite D2; exact BD) ltac:(rewrite D2; exact DT) ST LT S H E1 EA RD AR). lia.
    + intros IS (r & a & b & EA & RL & AB & AR). destruct th as [bh|]; [|discriminate]. destruct TH as (T1 & T2 & T3 & T4 & T5).
      pose proof EA as (R0 & R1 & _). rewrite <- T2 in EA at 1 2. unfold kBlockSize in T5.
      rewrite <- T2 in AR at 1. cbn in TM.
      pose proof (find_best_match_max bh ths h target cand start m1 m blk r a b T1 TM ltac:(rewrite T2; exact BT) ltac:(rewrite T2; exact T4) ST LT S H E2 EA ltac:(lia) AR). lia.
Qed.

Lemma quiet_sub : forall dict target look p e e', quiet dict target look p e -> e' <= e -> quiet dict target look p e'.
Proof. intros dict target look p e e' Q L c C1 C2. apply Q; lia. Qed.

Lemma encode_loop_lits : forall fuel dict dh dhs target next_encode cand h th ths blk e calls,
  dict_full dict dh dhs -> target_hash_ok dict target cand th ths -> target_mask th ->
  bytes_ok target -> zlen target <= int32_max ->
  0 <= next_encode <= cand -> cand + kBlockSize <= zlen target ->
  slice target cand kBlockSize = Some blk -> hash_direct kBlockSize blk = Some h ->
  (forall c, next_encode <= c < cand -> ~ hit dict target (zlen dict) next_encode c /\ (is_some th = true -> ~ hit target target c next_encode c)) ->
  encode_loop fuel dh target (remove_table kBlockSize) next_encode cand h th = Some (e, calls) ->
  lits dict target (is_some th) next_encode calls e /\ quiet dict target (is_some th) e (zlen target).
Proof.
  induction fuel as [|fuel IH]; intros dict dh dhs target ne cand h th ths blk e calls D TH TM B L NE CL S H QU E; [discriminate|].
  cbn [encode_loop] in E. cbv zeta in E.
  assert (kBlockSize = 16) as K by reflexivity.
  destruct (slice_inv _ _ _ _ _ S) as (_ & _ & _ & _ & LB).
  assert (0 <= h) as H0 by (eapply hash_direct_nonneg; [eapply slice_bytes_ok; eauto| |eauto]; lia).
  destruct (encode_copy_ok dict dh dhs th ths target h cand ne (proj1 D) (or_introl TH) H0 NE CL L) as (k & calls0 & EC & _). rewrite EC in E.
  destruct (encode_copy_shape dict dh dhs th ths target h cand ne blk k calls0 D TH TM B NE CL L S H EC) as [(-> & -> & N1 & N2)|(mt & n & a & EL & -> & MT & N16)].
  - cbn [Z.ltb Z.compare] in E. 
    assert (forall c, ne <= c < cand + 1 -> ~ hit dict target (zlen dict) ne c /\ (is_some th = true -> ~ hit target target c ne c)) as QU'.
    { intros c C. destruct (Z.eq_dec c cand) as [-> |NC]; [split; [exact N1|exact N2]|apply QU; lia]. }
    destruct (Z.ltb_spec (zlen target - kBlockSize) (cand + 1)) as [EX|EX].
    + injection E as <- <-. split; [reflexivity|]. intros c C1 C2. apply QU'. lia.
    + destruct (next_hash target cand blk h B ltac:(lia) ltac:(lia) S H) as (f & la & blk' & h' & GF & GL & S' & H' & U).
      assert (exists th' ths', match th with
                | Some t => match add_one_index_hash t (to_int32 cand) h with Some th'0 => Some (Some th'0) | None => None end
                | None => Some None end = Some th' /\ target_hash_ok dict target (cand + 1) th' ths' /\ is_some th = is_some th' /\ target_mask th')
        as (th' & ths' & ETH & TH' & IS & TM').
      { destruct th as [bh|]; [|exists None, []; repeat split].
        destruct TH as (T1 & T2 & T3 & T4 & T5). unfold add_one_index_hash, next_index_to_add. rewrite (bo_last _ _ T1).
        rewrite to_int32_id by (unfold int32_max in *; lia). replace (zlen ths - 1 + 1) with (zlen ths) by lia.
        destruct (Z.eqb_spec cand (zlen ths * kBlockSize)) as [EQ|NEQ].
        - destruct (add_block_ok bh ths h T1) as (bh' & -> & OK & (S1 & S2 & S3)); [|exact H0|].
          { unfold number_of_blocks. rewrite T2. apply Z.lt_le_trans with (zlen ths + 1); [lia|]. apply Z.div_le_lower_bound; lia. }
          exists (Some bh'), (ths ++ [h]). split; [reflexivity|]. split; [|split; [reflexivity|]].
          + cbn [target_hash_ok]. split; [exact OK|]. split; [congruence|]. split; [congruence|]. split.
            { eapply true_hashes_snoc; eauto. rewrite <- EQ. exact S. }
            rewrite zlen_app, zlen_cons, zlen_nil. lia.
          + cbn. apply (same_source_mask bh bh'); [|exact TM]. split; [exact S1|]. split; [exact S2|exact S3].
        - exists (Some bh), ths. split; [reflexivity|]. split; [|split; [reflexivity|exact TM]].
          cbn [target_hash_ok]. split; [exact T1|]. split; [exact T2|]. split; [exact T3|]. split; [exact T4|]. lia. }
      rewrite ETH, GF, GL, U in E.
      destruct (encode_loop fuel dh target (remove_table kBlockSize) ne (cand + 1) h' th') as [[e1 c1]|] eqn:EE; [|discriminate].
      cbn [prepend app] in E. injection E as <- <-.
      rewrite IS. apply (IH dict dh dhs target ne (cand + 1) h' th' ths' blk'); auto; try lia. rewrite <- IS. exact QU'.
  - assert (lits dict target (is_some th) ne calls0 (ne + (mt + n))) as LC.
    { subst calls0. destruct (Z.ltb_spec 0 mt) as [P|NP]; cbn [lits].
      - assert (zlen (ztake mt (zdrop ne target)) = mt) as LD by (rewrite zlen_ztake, zlen_zdrop by lia; lia). rewrite LD.
        split; [apply slice_some; lia|]. split; [|lia]. intros c C1 C2. apply QU. lia.
      - split; lia. }
    destruct (Z.ltb_spec 0 (mt + n)) as [KP|KN]; [|lia].
    destruct (Z.ltb_spec (zlen target - kBlockSize) (ne + (mt + n))) as [EX|EX].
    + injection E as <- <-. split; [exact LC|]. intros c C1 C2. lia.
    + assert (slice target (ne + (mt + n)) kBlockSize = Some (ztake kBlockSize (zdrop (ne + (mt + n)) target))) as S' by (apply slice_some; lia).
      rewrite S' in E. set (blk' := ztake kBlockSize _) in *. clearbody blk'.
      destruct (slice_inv _ _ _ _ _ S') as (_ & _ & _ & _ & LB').
      pose proof (slice_bytes_ok _ _ _ _ B S') as BB'.
      assert (hash_direct kBlockSize blk' = Some (poly blk' mod kBase)) as H' by (apply hash_direct_block; auto; lia).
      rewrite H' in E.
      assert (exists th' ths', target_hash_ok dict target (ne + (mt + n)) th' ths' /\ is_some th = is_some th' /\ target_mask th' /\
                exists c1, calls = calls0 ++ c1 /\ encode_loop fuel dh target (remove_table kBlockSize) (ne + (mt + n)) (ne + (mt + n)) (poly blk' mod kBase) th' = Some (e, c1))
        as (th' & ths' & TH' & IS & TM' & c1 & -> & EE).
      { destruct th as [bh|].
        - destruct TH as (T1 & T2 & T3 & T4 & T5).
          destruct (add_all_ok bh ths (ne + (mt + n))) as (bh' & more & A1 & A2 & A3 & (S1 & S2 & S3) & A4 & A5).
          { rewrite T2; exact B. } { exact T1. } { rewrite T2; exact T4. } 
          { rewrite T2. destruct (encode_copy_ok dict dh dhs (Some bh) ths target h cand ne (proj1 D)) as (k' & c' & EC' & CC); auto.
            - left. split; auto.
            - rewrite EC in EC'. injection EC' as <- <-. destruct CC as [[Q _]|[Q _]]; lia. }
          rewrite to_int32_id in E by (unfold int32_max in *; lia). rewrite A1 in E.
          destruct (encode_loop _ _ _ _ _ _ _ _) as [[e1 c1]|] eqn:EE; [|discriminate]. cbn [prepend] in E. injection E as <- <-.
          exists (Some bh'), (ths ++ more). split; [|split; [reflexivity|]; split; [|exists c1; split; [reflexivity|exact EE]]].
          + cbn [target_hash_ok]. split; [exact A2|]. split; [congruence|]. split; [congruence|]. split; [rewrite <- T2; exact A3|].
            rewrite zlen_app. split.
            * destruct A4 as [-> | A4]; [rewrite zlen_nil|exact A4].
              destruct (encode_copy_ok dict dh dhs (Some bh) ths target h cand ne (proj1 D)) as (k' & c' & EC' & CC); auto.
              { left. split; auto. }
              rewrite EC in EC'. injection EC' as <- <-. destruct CC as [[Q _]|[Q _]]; lia.
            * destruct (Z.lt_ge_cases ((zlen ths + zlen more) * kBlockSize) (ne + (mt + n))) as [X|X]; [exfalso|exact X].
              pose proof (zlen_nonneg _ ths). pose proof (zlen_nonneg _ more).
              assert (zlen ths + zlen more < zlen ths + zlen more); [|lia]. apply A5; [|exact X].
              split; [lia|]. unfold number_of_blocks. rewrite T2. apply Z.lt_le_trans with (zlen ths + zlen more + 1); [lia|]. apply Z.div_le_lower_bound; lia.
          + cbn. apply (same_source_mask bh bh'); [|exact TM]. split; [exact S1|]. split; [exact S2|exact S3].
        - destruct (encode_loop _ _ _ _ _ _ _ _) as [[e1 c1]|] eqn:EE; [|discriminate]. cbn [prepend] in E. injection E as <- <-.
          exists None, []. split; [exact I|]. split; [reflexivity|]. split; [exact I|]. exists c1. split; [reflexivity|exact EE]. }
      destruct (IH dict dh dhs target (ne + (mt + n)) (ne + (mt + n)) (poly blk' mod kBase) th' ths' blk' e c1) as [L1 Q1]; auto; try lia.
      rewrite IS in *. split; [|exact Q1]. eapply lits_app; [exact LC|exact L1].
Qed.

Lemma engine_init_full : forall dict, bytes_ok dict -> zlen dict <= int32_max ->
  exists dh dhs, engine_init (new_engine dict) = Some ({| en_dict := dict; en_hash := Some dh |}, true) /\ dict_full dict dh dhs.
Proof.
  intros dict B L. destruct (engine_init_ok dict B L) as (en & EI & (E1 & _ & dh & dhs & E2 & D & T & F)).
  exists dh, dhs. destruct en as [d o]. cbn in E1, E2. subst d o. split; [exact EI|].
  split; [exact D|]. split; [|split; [exact B|split; [exact T|exact F]]].
  unfold engine_init, new_engine, create_dictionary_hash in EI. cbn [en_hash en_dict] in EI.
  destruct (bh_init dict 0 true) as [[bh|]|] eqn:EB; try discriminate. injection EI as <-. eapply bh_init_mask; eauto.
Qed.

Lemma engine_encode_lits : forall dict dh dhs look target l, dict_full dict dh dhs -> bytes_ok target ->
  zlen dict + zlen target <= int32_max ->
  engine_encode {| en_dict := dict; en_hash := Some dh |} look target = Some (Some l) ->
  lits dict target look 0 l (zlen target).
Proof.
  intros dict dh dhs look target l D B L E. unfold engine_encode in E. cbn [en_hash en_dict] in E. cbv zeta in E.
  pose proof (zlen_nonneg _ dict). pose proof (zlen_nonneg _ target). assert (kBlockSize = 16) as K by reflexivity.
  destruct (Z.eqb_spec (zlen target) 0); [discriminate|]. destruct (Z.ltb_spec (zlen target) kBlockSize) as [SM|BG].
  - unfold add_unmatched_remainder in E. destruct (Z.ltb_spec 0 (zlen target)); [|lia]. rewrite slice_whole in E. injection E as <-.
    cbn [lits]. split; [apply slice_whole|]. split; [|lia]. intros c C1 C2. lia.
  - assert (exists th, (if look then create_target_hash target (zlen dict) else Some None) = Some th /\
       target_hash_ok dict target 0 th [] /\ is_some th = look /\ target_mask th) as (th & ET & TH & IS & TM).
    { destruct look; [|exists None; repeat split]. unfold create_target_hash.
      rewrite to_int32_id by (unfold int32_max in *; lia).
      destruct (bh_init_eq target (zlen dict) false) as (k & KR & OK & EB); [lia|]. rewrite EB.
      exists (Some (empty_bh target (zlen dict) k)). split; [reflexivity|]. split; [|split; [reflexivity|]].
      - cbn [target_hash_ok]. split; [exact OK|]. split; [reflexivity|]. split; [reflexivity|].
        split; [intros b h G; rewrite (proj2 (get_none _ _ _)) in G by (rewrite zlen_nil; lia); discriminate|]. rewrite zlen_nil. lia.
      - apply (bh_init_mask target (zlen dict) false); [lia|exact EB]. }
    rewrite ET in E.
    assert (look && (match th with None => true | Some _ => false end) = false) as X
      by (clear - IS; destruct th, look; cbn in *; congruence). rewrite X in E. clear X.
    assert (slice target 0 kBlockSize = Some (ztake kBlockSize (zdrop 0 target))) as S' by (apply slice_some; lia).
    rewrite S' in E. set (blk' := ztake kBlockSize _) in *. clearbody blk'.
    destruct (slice_inv _ _ _ _ _ S') as (_ & _ & _ & _ & LB').
    pose proof (slice_bytes_ok _ _ _ _ B S') as BB'.
    assert (hash_direct kBlockSize blk' = Some (poly blk' mod kBase)) as H' by (apply hash_direct_block; auto; lia).
    rewrite H' in E. destruct (encode_loop _ _ _ _ _ _ _ _) as [[e calls]|] eqn:EE; [|discriminate].
    assert (lits dict target look 0 calls e /\ quiet dict target look e (zlen target)) as [LC QE].
    { rewrite <- IS. eapply (encode_loop_lits _ dict dh dhs target 0 0 _ th [] blk' e calls); eauto; try lia. }
    unfold add_unmatched_remainder in E. destruct (Z.ltb_spec 0 (zlen target - e)) as [R|R].
    + destruct (slice target e (zlen target - e)) as [d|] eqn:SE; [|discriminate]. injection E as <-.
      destruct (slice_inv _ _ _ _ _ SE) as (_ & _ & _ & _ & LE).
      eapply lits_app; [exact LC|]. cbn [lits]. rewrite LE. split; [exact SE|].
      replace (e + (zlen target - e)) with (zlen target) by lia. split; [exact QE|reflexivity].
    + injection E as <-. rewrite app_nil_r.
      assert (e = zlen target) as <-; [|exact LC].
      destruct D as (D & _). destruct (encode_loop_ok (Z.to_nat (zlen target)) dict dh dhs target 0 0 (poly blk' mod kBase) th [] blk' D TH B)
        as (e' & calls' & EE' & ER & _); [lia|lia|lia|lia|exact S'|exact H'|]. rewrite EE in EE'. injection EE' as <- _. lia.
Qed.

(** The position of an ADD is the size of what the instructions before it produce. *)
Lemma lits_place : forall dict target look l1 T0 T d l2 e, lits dict target look (zlen T0) (l1 ++ Add d :: l2) e ->
  execute_all dict T0 l1 = Some T ->
  slice target (zlen T) (zlen d) = Some d /\ quiet dict target look (zlen T) (zlen T + zlen d).
Proof.
  induction l1 as [|[x|a n|n b] l1 IH]; intros T0 T d l2 e L X; cbn [app lits execute_all execute] in *.
  - injection X as <-. split; apply L.
  - destruct L as (_ & _ & L). eapply IH; [|exact X]. rewrite zlen_app. exact L.
  - destruct L as (N & L). destruct (_ && _); [|discriminate]. destruct (copy_bytewise _ _ _ _) as [T1|] eqn:C; [|discriminate].
    destruct (copy_bytewise_length _ _ _ _ _ C) as (bs & -> & LB). eapply IH; [|exact X]. rewrite zlen_app.
    replace (zlen bs) with n by lia. exact L.
  - destruct L.
Qed.

Lemma common_hit : forall source target pos d i j n b lim, slice target pos (zlen d) = Some d -> 0 <= pos ->
  common source i d j n b -> 32 <= n -> easy (zlen source) source b -> 16 * b < lim ->
  let c := pos + j + (16 * b - i) in
  pos <= c /\ c + 16 <= pos + zlen d /\ hit source target lim pos c.
Proof.
  intros source target pos d i j n b lim SD P ((s & S1 & S2) & I1 & I2) N E BL. cbv zeta.
  destruct (slice_inv _ _ _ _ _ S1) as (A1 & A2 & A3 & A4 & A5). destruct (slice_inv _ _ _ _ _ S2) as (B1 & B2 & B3 & B4 & B5).
  destruct (slice_inv _ _ _ _ _ SD) as (C1 & C2 & C3 & C4 & C5).
  split; [lia|]. split; [lia|]. exists b, (16 * b - i), (n - (16 * b - i) - 16).
  split; [exact E|]. split; [lia|]. split; [lia|]. split; [lia|]. split; [lia|].
  destruct (same_range_slice _ _ _ _ _ _ S1 S2) as (_ & _ & _ & _ & _ & R6).
  unfold same_range. split; [lia|]. split; [lia|]. split; [lia|]. split; [lia|]. split; [lia|].
  intros k K. replace (b * 16 - (16 * b - i) + k) with (i + k) by lia. rewrite R6 by lia.
  replace (pos + j + (16 * b - i) - (16 * b - i) + k) with (pos + (j + k)) by lia.
  rewrite C4. rewrite get_ztake by lia. rewrite get_zdrop by lia. reflexivity.
Qed.

Lemma add_quiet : forall dict look target en l l1 d l2 T, bytes_ok dict -> bytes_ok target -> zlen dict + zlen target <= int32_max ->
  engine_init (new_engine dict) = Some (en, true) -> engine_encode en look target = Some (Some l) ->
  l = l1 ++ Add d :: l2 -> execute_all dict [] l1 = Some T ->
  slice target (zlen T) (zlen d) = Some d /\ quiet dict target look (zlen T) (zlen T + zlen d).
Proof.
  intros dict look target en l l1 d l2 T BD BT L EI EE -> X. pose proof (zlen_nonneg _ target).
  destruct (engine_init_full dict BD) as (dh & dhs & EI2 & F); [lia|]. rewrite EI in EI2. injection EI2 as ->.
  pose proof (engine_encode_lits dict dh dhs look target _ F BT L EE) as LI.
  apply (lits_place dict target look l1 [] T d l2 (zlen target)); [rewrite zlen_nil; exact LI|exact X].
Qed.

Lemma found_dict : forall dict look target en l l1 d l2 T i j n b, bytes_ok dict -> bytes_ok target -> zlen dict + zlen target <= int32_max ->
  engine_init (new_engine dict) = Some (en, true) -> engine_encode en look target = Some (Some l) ->
  l = l1 ++ Add d :: l2 -> execute_all dict [] l1 = Some T ->
  common dict i d j n b -> 32 <= n -> 16 < crowd (zlen dict) dict b.
Proof.
  intros dict look target en l l1 d l2 T i j n b BD BT L EI EE EL X C N.
  destruct (add_quiet _ _ _ _ _ _ _ _ _ BD BT L EI EE EL X) as [SD Q].
  destruct (Z.le_gt_cases (crowd (zlen dict) dict b) 16) as [LE|GT]; [exfalso|exact GT].
  pose proof C as ((s & S1 & S2) & I1 & I2). destruct (slice_inv _ _ _ _ _ S1) as (A1 & A2 & A3 & A4 & A5).
  assert (easy (zlen dict) dict b) as E by (split; [lia|]; split; [lia|exact LE]).
  destruct (common_hit dict target (zlen T) d i j n b (zlen dict) SD (zlen_nonneg _ T) C N E) as (H1 & H2 & H); [lia|]. cbv zeta in *.
  exact (proj1 (Q _ H1 H2) H).
Qed.

Lemma found_target : forall dict target en l l1 d l2 T i j n b, bytes_ok dict -> bytes_ok target -> zlen dict + zlen target <= int32_max ->
  engine_init (new_engine dict) = Some (en, true) -> engine_encode en true target = Some (Some l) ->
  l = l1 ++ Add d :: l2 -> execute_all dict [] l1 = Some T ->
  common target i d j n b -> i < zlen T + j -> 32 <= n -> 16 < crowd (zlen target) target b.
Proof.
  intros dict target en l l1 d l2 T i j n b BD BT L EI EE EL X C IJ N.
  destruct (add_quiet _ _ _ _ _ _ _ _ _ BD BT L EI EE EL X) as [SD Q].
  destruct (Z.le_gt_cases (crowd (zlen target) target b) 16) as [LE|GT]; [exfalso|exact GT].
  pose proof C as ((s & S1 & S2) & I1 & I2). destruct (slice_inv _ _ _ _ _ S1) as (A1 & A2 & A3 & A4 & A5).
  assert (easy (zlen target) target b) as E by (split; [lia|]; split; [lia|exact LE]).
  destruct (common_hit target target (zlen T) d i j n b (zlen T + j + (16 * b - i)) SD (zlen_nonneg _ T) C N E) as (H1 & H2 & H); [lia|]. cbv zeta in *.
  exact (proj2 (Q _ H1 H2) eq_refl H).
Qed.

Lemma crowd_le : forall n l b, 0 <= b -> crowd n l b <= b.
Proof.
  intros n l b B. unfold crowd. rewrite zlen_length.
  assert (forall (f : Z -> bool) l, (length (filter f l) <= length l)%nat) as F by (induction l0 as [|x l0 IH]; cbn; [lia|destruct (f x); cbn; lia]).
  match goal with |- Z.of_nat (length (filter ?f ?x)) <= _ => specialize (F f x) end. rewrite map_length, seq_length in F. lia.
Qed.
