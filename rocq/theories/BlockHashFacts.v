(** The block hash: its chains list exactly the blocks that were added, and the
    matches it finds are genuine. *)

From Verif Require Import Base ListFacts RollingHash RollingHashFacts BlockHash.
From Coq Require Import ZifyBool ZifyNat Sorted.

(** Blocks, numbered from [k], whose hash value selects the table entry [i]. *)
Fixpoint bucket_from (k mask : Z) (hs : list Z) (i : Z) : list Z :=
  match hs with
  | [] => []
  | h :: tl => if Z.land h mask =? i then k :: bucket_from (k + 1) mask tl i else bucket_from (k + 1) mask tl i
  end.
Definition bucket (mask : Z) (hs : list Z) (i : Z) : list Z := bucket_from 0 mask hs i.

(** Following [next] from block to block goes through exactly [l]. *)
Fixpoint linked (next : list Z) (l : list Z) : Prop :=
  match l with
  | [] => True
  | b :: tl => get next b = Some (hd (-1) tl) /\ linked next tl
  end.

Lemma bucket_from_app : forall hs k mask h i,
  bucket_from k mask (hs ++ [h]) i = bucket_from k mask hs i ++ (if Z.land h mask =? i then [k + zlen hs] else []).
Proof.
  induction hs as [|x hs IH]; intros k mask h i; cbn [app bucket_from].
  - rewrite zlen_nil, Z.add_0_r. destruct (_ =? _); reflexivity.
  - rewrite IH, zlen_cons. replace (k + 1 + zlen hs) with (k + (1 + zlen hs)) by lia. destruct (Z.land x mask =? i); reflexivity.
Qed.
Lemma bucket_app : forall hs mask h i, bucket mask (hs ++ [h]) i = bucket mask hs i ++ (if Z.land h mask =? i then [zlen hs] else []).
Proof. intros. unfold bucket. rewrite bucket_from_app. reflexivity. Qed.

Lemma bucket_from_in : forall hs k mask i b, In b (bucket_from k mask hs i) <->
  (k <= b /\ exists h, get hs (b - k) = Some h /\ Z.land h mask = i).
Proof.
  induction hs as [|x hs IH]; intros k mask i b; cbn [bucket_from].
  - split; [contradiction|]. intros (_ & h & G & _). apply get_range in G. rewrite zlen_nil in G. lia.
  - assert (k <= b /\ (exists h, get (x :: hs) (b - k) = Some h /\ Z.land h mask = i) <->
      (b = k /\ Z.land x mask = i) \/ (k + 1 <= b /\ exists h, get hs (b - (k + 1)) = Some h /\ Z.land h mask = i)) as ->.
    { split.
      - intros (K & h & G & L). assert (b = k \/ k + 1 <= b) as [-> | K'] by lia.
        + rewrite Z.sub_diag, get_0 in G. injection G as <-. left. auto.
        + right. split; [lia|]. exists h. rewrite get_cons in G by lia. replace (b - (k + 1)) with (b - k - 1) by lia. auto.
      - intros [(-> & L)|(K & h & G & L)].
        + split; [lia|]. exists x. rewrite Z.sub_diag, get_0. auto.
        + split; [lia|]. exists h. rewrite get_cons by lia. replace (b - k - 1) with (b - (k + 1)) by lia. auto. }
    rewrite <- IH. destruct (Z.eqb_spec (Z.land x mask) i); cbn [In]; intuition congruence.
Qed.
Lemma bucket_in : forall hs mask i b, In b (bucket mask hs i) <-> exists h, get hs b = Some h /\ Z.land h mask = i.
Proof.
  intros. unfold bucket. rewrite bucket_from_in, Z.sub_0_r. split; [intros [_ H]; exact H|]. intros (h & G & L).
  pose proof (get_range _ _ _ _ G). split; [lia|]. eauto.
Qed.
Lemma bucket_range : forall hs mask i b, In b (bucket mask hs i) -> 0 <= b < zlen hs.
Proof. intros hs mask i b H. apply bucket_in in H as (h & G & _). eapply get_range; eauto. Qed.
Lemma bucket_disjoint : forall hs mask i j b, In b (bucket mask hs i) -> In b (bucket mask hs j) -> i = j.
Proof. intros hs mask i j b H1 H2. apply bucket_in in H1 as (h & G & L). apply bucket_in in H2 as (h' & G' & L'). congruence. Qed.

Lemma bucket_from_sorted : forall hs k mask i, StronglySorted Z.lt (bucket_from k mask hs i).
Proof.
  induction hs as [|x hs IH]; intros k mask i; cbn [bucket_from]; [constructor|].
  destruct (_ =? _); [|apply IH]. constructor; [apply IH|]. rewrite Forall_forall. intros b H.
  apply bucket_from_in in H as [H _]. lia.
Qed.
Lemma sorted_nodup : forall l, StronglySorted Z.lt l -> NoDup l.
Proof.
  induction 1 as [|a l S IH F]; constructor; [|exact IH]. intros I. rewrite Forall_forall in F. specialize (F _ I). lia.
Qed.
Lemma bucket_nodup : forall hs mask i, NoDup (bucket mask hs i).
Proof. intros. apply sorted_nodup, bucket_from_sorted. Qed.

Lemma linked_put_other : forall next next' l b x, linked next l -> put next b x = Some next' -> ~ In b l -> linked next' l.
Proof.
  intros next next' l b x. induction l as [|c l IH]; intros L P N; cbn [linked] in *; [exact I|].
  destruct L as [G L]. destruct (put_inv _ _ _ _ _ P) as (_ & _ & _ & O). split; [|apply IH; auto; intros X; apply N; right; exact X].
  rewrite O; [exact G|]. intros ->. apply N. left. reflexivity.
Qed.
Lemma linked_put_last : forall next next' l a b, linked next (l ++ [a]) -> NoDup (l ++ [a]) -> put next a b = Some next' ->
  get next b = Some (-1) -> ~ In b (l ++ [a]) -> linked next' (l ++ [a; b]).
Proof.
  intros next next' l a b L N P G NI. destruct (put_inv _ _ _ _ _ P) as (_ & _ & GA & O).
  induction l as [|c l IH]; cbn [app linked] in *.
  - split; [exact GA|]. split; [|exact I]. cbn [hd]. rewrite O; [exact G|]. intros ->. apply NI. left. reflexivity.
  - destruct L as [GC L]. inversion N as [|? ? NC N']; subst.
    split; [|apply IH; auto; intros X; apply NI; right; exact X].
    rewrite O; [|intros ->; apply NC; apply in_or_app; right; left; reflexivity].
    rewrite GC. destruct l; reflexivity.
Qed.

Record bh_ok (bh : blockhash) (hs : list Z) : Prop := {
  bo_size : zlen (bh_source bh) <= int32_max;
  bo_mask : exists k, 0 <= k <= 32 /\ bh_mask bh = 2 ^ k - 1 /\ zlen (bh_table bh) = 2 ^ k;
  bo_next_len : zlen (bh_next bh) = number_of_blocks bh;
  bo_last_len : zlen (bh_last_of bh) = number_of_blocks bh;
  bo_last : bh_last bh = zlen hs - 1;
  bo_count : zlen hs <= number_of_blocks bh;
  bo_table : forall i, 0 <= i < zlen (bh_table bh) -> get (bh_table bh) i = Some (hd (-1) (bucket (bh_mask bh) hs i));
  bo_linked : forall i, linked (bh_next bh) (bucket (bh_mask bh) hs i);
  bo_last_of : forall i b l, bucket (bh_mask bh) hs i = b :: l -> get (bh_last_of bh) b = Some (last (b :: l) 0);
  bo_rest : forall b, zlen hs <= b < number_of_blocks bh -> get (bh_next bh) b = Some (-1)
}.

Lemma index_range : forall bh hs h, bh_ok bh hs -> 0 <= h -> 0 <= hash_table_index bh h < zlen (bh_table bh).
Proof.
  intros bh hs h B H. destruct (bo_mask _ _ B) as (k & K & M & L). unfold hash_table_index. rewrite M, L.
  assert (2 ^ k - 1 = Z.ones k) as -> by (rewrite Z.ones_equiv; lia). rewrite Z.land_ones by lia.
  apply Z.mod_pos_bound. apply Z.pow_pos_nonneg; lia.
Qed.

Definition same_source (bh bh' : blockhash) : Prop :=
  bh_source bh' = bh_source bh /\ bh_start bh' = bh_start bh /\ bh_mask bh' = bh_mask bh.

Lemma last_snoc : forall l (a d : Z), last (l ++ [a]) d = a.
Proof. intros. apply last_last. Qed.

Lemma number_of_blocks_range : forall bh hs, bh_ok bh hs -> 0 <= number_of_blocks bh <= int32_max.
Proof.
  intros bh hs B. unfold number_of_blocks, kBlockSize. pose proof (bo_size _ _ B). pose proof (zlen_nonneg _ (bh_source bh)).
  split; [apply Z.div_pos; lia|]. transitivity (zlen (bh_source bh)); [|lia]. apply Z.div_le_upper_bound; lia.
Qed.

Lemma add_block_ok : forall bh hs h, bh_ok bh hs -> zlen hs < number_of_blocks bh -> 0 <= h ->
  exists bh', add_block bh h = Some bh' /\ bh_ok bh' (hs ++ [h]) /\ same_source bh bh'.
Proof.
  intros bh hs h B N H. pose proof (index_range _ _ h B H) as IR. pose proof (number_of_blocks_range _ _ B) as NR.
  pose proof (zlen_nonneg _ hs).
  pose proof B as [BS BM BN BL BLA BC BT BK BO BR]. unfold add_block.
  destruct (bh_table bh) as [|t0 tt] eqn:ET; [rewrite zlen_nil in IR; lia|]. rewrite <- ET in *. clear ET t0 tt.
  cbv zeta. rewrite BLA. replace (zlen hs - 1 + 1) with (zlen hs) by lia. rewrite to_int32_id by lia.
  destruct (Z.leb_spec (number_of_blocks bh) (zlen hs)); [lia|].
  rewrite BR by lia. change (negb (-1 =? -1)) with false. cbn iota.
  set (i := hash_table_index bh h) in *. rewrite BT by exact IR.
  assert (forall j, bucket (bh_mask bh) (hs ++ [h]) j = bucket (bh_mask bh) hs j ++ (if i =? j then [zlen hs] else [])) as BA.
  { intros j. rewrite bucket_app. reflexivity. }
  assert (forall j, ~ In (zlen hs) (bucket (bh_mask bh) hs j)) as NI.
  { intros j I. apply bucket_range in I. lia. }
  destruct (bucket (bh_mask bh) hs i) as [|b0 l0] eqn:EB; cbn [hd].
  - change (-1 <? 0) with true. cbn iota.
    destruct (put_some _ (bh_table bh) i (zlen hs) IR) as [t' PT]. rewrite PT.
    destruct (put_some _ (bh_last_of bh) (zlen hs) (zlen hs)) as [l' PL]; [lia|]. rewrite PL.
    eexists. split; [reflexivity|]. split; [|repeat split].
    destruct (put_inv _ _ _ _ _ PT) as (_ & TL & TG & TO). destruct (put_inv _ _ _ _ _ PL) as (_ & LL & LG & LO).
    constructor; cbn [bh_source bh_mask bh_table bh_next bh_last_of bh_last]; unfold number_of_blocks in *; cbn [bh_source]; auto.
    + rewrite TL. exact BM.
    + lia.
    + rewrite zlen_app, zlen_cons, zlen_nil. lia.
    + rewrite zlen_app, zlen_cons, zlen_nil. lia.
    + intros j J. rewrite BA. destruct (Z.eqb_spec i j) as [<-|NE].
      * rewrite EB. exact TG.
      * rewrite app_nil_r, TO by congruence. apply BT. lia.
    + intros j. rewrite BA. destruct (Z.eqb_spec i j) as [<-|NE].
      * rewrite EB. cbn. split; [|exact I]. apply BR. lia.
      * rewrite app_nil_r. apply BK.
    + intros j b l E. rewrite BA in E. destruct (Z.eqb_spec i j) as [<-|NE].
      * rewrite EB in E. cbn in E. injection E as <- <-. exact LG.
      * rewrite app_nil_r in E. rewrite LO; [eapply BO; eauto|]. intros ->. apply (NI j). rewrite E. left. reflexivity.
    + intros b Hb. rewrite zlen_app, zlen_cons, zlen_nil in Hb. apply BR. lia.
  - assert (0 <= b0 < zlen hs) as B0 by (apply (bucket_range hs (bh_mask bh) i); rewrite EB; left; reflexivity).
    destruct (Z.ltb_spec b0 0); [lia|].
    rewrite (BO i b0 l0 EB).
    destruct (exists_last (l := b0 :: l0)) as (pre & la & EL); [discriminate|]. rewrite EL, last_snoc.
    assert (In la (bucket (bh_mask bh) hs i)) as ILA by (rewrite EB, EL; apply in_or_app; right; left; reflexivity).
    assert (get (bh_next bh) la = Some (-1)) as GL.
    { pose proof (BK i) as LK. rewrite EB, EL in LK. clear -LK. induction pre as [|c pre IH]; cbn [app linked] in LK; [apply LK|]. apply IH. apply LK. }
    rewrite GL. change (negb (-1 =? -1)) with false. cbn iota.
    pose proof (bucket_range _ _ _ _ ILA).
    destruct (put_some _ (bh_next bh) la (zlen hs)) as [n' PN]; [lia|]. rewrite PN.
    destruct (put_some _ (bh_last_of bh) b0 (zlen hs)) as [l' PL]; [lia|]. rewrite PL.
    eexists. split; [reflexivity|]. split; [|repeat split].
    destruct (put_inv _ _ _ _ _ PN) as (_ & NL & NG & NO). destruct (put_inv _ _ _ _ _ PL) as (_ & LL & LG & LO).
    constructor; cbn [bh_source bh_mask bh_table bh_next bh_last_of bh_last]; unfold number_of_blocks in *; cbn [bh_source]; auto.
    + lia.
    + lia.
    + rewrite zlen_app, zlen_cons, zlen_nil. lia.
    + rewrite zlen_app, zlen_cons, zlen_nil. lia.
    + intros j J. rewrite BA, BT by exact J. destruct (Z.eqb_spec i j) as [<-|NE].
      * rewrite EB. reflexivity.
      * rewrite app_nil_r. reflexivity.
    + intros j. rewrite BA. destruct (Z.eqb_spec i j) as [<-|NE].
      * rewrite EB, EL, <- app_assoc. apply (linked_put_last (bh_next bh)); auto.
        -- rewrite <- EL, <- EB. apply BK.
        -- rewrite <- EL, <- EB. apply bucket_nodup.
        -- apply BR. lia.
        -- rewrite <- EL, <- EB. apply NI.
      * rewrite app_nil_r. eapply linked_put_other; [apply BK|exact PN|]. intros IJ. apply NE. eapply bucket_disjoint; eauto.
    + intros j b l E. rewrite BA in E. destruct (Z.eqb_spec i j) as [<-|NE].
      * rewrite EB in E. cbn [app] in E. injection E as <- <-. change (b0 :: l0 ++ [zlen hs]) with ((b0 :: l0) ++ [zlen hs]).
        rewrite last_snoc. exact LG.
      * rewrite app_nil_r in E. rewrite LO; [eapply BO; eauto|]. intros ->. apply NE.
        eapply (bucket_disjoint hs (bh_mask bh) i j b0); [rewrite EB|rewrite E]; left; reflexivity.
    + intros b Hb. rewrite zlen_app, zlen_cons, zlen_nil in Hb. rewrite NO by lia. apply BR. lia.
Qed.

(** ** Creating an index *)

Lemma pow2_land : forall k, 0 <= k -> Z.land (2 ^ k) (2 ^ k - 1) = 0.
Proof.
  intros k K. assert (2 ^ k - 1 = Z.ones k) as -> by (rewrite Z.ones_equiv; lia). rewrite Z.land_ones by lia. apply Z.mod_same.
  pose proof (Z.pow_pos_nonneg 2 k). lia.
Qed.

Lemma table_size_loop_ok : forall fuel j m, 0 <= j -> 32 < Z.of_nat fuel + j -> 1 <= m <= 2 ^ 32 -> 2 ^ j < 2 * m ->
  exists k, 0 <= k <= 32 /\ table_size_loop fuel (2 ^ j) m = Some (2 ^ k) /\ m <= 2 ^ k < 2 * m.
Proof.
  induction fuel as [|fuel IH]; intros j m J F M P; cbn [table_size_loop].
  - exfalso. assert (2 ^ 33 <= 2 ^ j) by (apply Z.pow_le_mono_r; lia). change (2 ^ 33) with (2 * 2 ^ 32) in *. lia.
  - destruct (Z.ltb_spec (2 ^ j) m) as [LT|GE].
    + assert (2 ^ (j + 1) = 2 ^ j * 2) as E by (rewrite Z.pow_add_r by lia; reflexivity).
      assert (0 < 2 ^ j) by (apply Z.pow_pos_nonneg; lia).
      cbv zeta. rewrite to_size_id by (unfold size_max; change (2 ^ 32) with 4294967296 in *; lia).
      destruct (Z.leb_spec (2 ^ j * 2) 0); [lia|]. rewrite <- E. apply IH; lia.
    + rewrite pow2_land by lia. change (negb (0 =? 0)) with false. cbn iota. exists j. split; [|auto].
      split; [lia|]. destruct (Z.leb_spec j 32); [lia|]. assert (2 ^ 33 <= 2 ^ j) by (apply Z.pow_le_mono_r; lia).
      change (2 ^ 33) with (2 * 2 ^ 32) in *. lia.
Qed.

Lemma calc_table_size_ok : forall n, 0 <= n <= int32_max -> exists k, 0 <= k <= 32 /\ calc_table_size n = Some (2 ^ k) /\
  n / 4 + 1 <= 2 ^ k.
Proof.
  intros n N. unfold calc_table_size. cbv zeta. unfold int32_max in N.
  assert (0 <= n / 4 <= 2147483647) as D by (split; [apply Z.div_pos; lia|apply Z.div_le_upper_bound; lia]).
  assert (1 <= n / 4 + 1 <= 2 ^ 32) as M by (change (2 ^ 32) with 4294967296; lia).
  destruct (table_size_loop_ok 66 0 (n / 4 + 1)) as (k & K & E & L); [lia|lia|exact M|change (2 ^ 0) with 1; lia|].
  change (2 ^ 0) with 1 in E. rewrite E. exists k. split; [exact K|].
  rewrite to_size_id by (unfold size_max; lia).
  destruct (Z.ltb_spec ((n / 4 + 1) * 2) (2 ^ k)); [lia|]. rewrite andb_false_r. split; [reflexivity|lia].
Qed.

Definition empty_bh (source : list Z) (start k : Z) : blockhash :=
  {| bh_source := source; bh_start := start; bh_mask := 2 ^ k - 1; bh_table := zrepeat (-1) (2 ^ k);
     bh_next := zrepeat (-1) (zlen source / kBlockSize); bh_last_of := zrepeat (-1) (zlen source / kBlockSize); bh_last := -1 |}.

Lemma bh_init_eq : forall source start populate, zlen source <= int32_max ->
  exists k, 0 <= k <= 32 /\ bh_ok (empty_bh source start k) [] /\
   bh_init source start populate =
     if populate then match add_all_blocks_through_index (empty_bh source start k) (zlen source) with None => None | Some bh => Some (Some bh) end
     else Some (Some (empty_bh source start k)).
Proof.
  intros source start populate L. pose proof (zlen_nonneg _ source). destruct (calc_table_size_ok (zlen source)) as (k & K & E & M); [lia|].
  pose proof (Z.pow_pos_nonneg 2 k ltac:(lia) ltac:(lia)).
  exists k. split; [exact K|]. split.
  - assert (0 <= zlen source / kBlockSize) as D by (unfold kBlockSize; apply Z.div_pos; lia).
    constructor; cbn [empty_bh bh_source bh_mask bh_table bh_next bh_last_of bh_last]; unfold number_of_blocks; cbn [empty_bh bh_source].
    + lia.
    + exists k. rewrite zlen_zrepeat by lia. auto.
    + rewrite zlen_zrepeat by lia. reflexivity.
    + rewrite zlen_zrepeat by lia. reflexivity.
    + reflexivity.
    + rewrite zlen_nil. lia.
    + intros i I. rewrite zlen_zrepeat in I by lia. cbn. apply get_zrepeat'. lia.
    + intros i. exact I.
    + intros i b l X. discriminate.
    + intros b B. rewrite zlen_nil in B. apply get_zrepeat'. lia.
  - unfold bh_init. rewrite E. destruct (Z.eqb_spec (2 ^ k) 0); [lia|]. cbv zeta.
    assert (to_uint32 (2 ^ k - 1) = 2 ^ k - 1) as ->.
    { unfold to_uint32. apply Z.mod_small. assert (2 ^ k <= 2 ^ 32) by (apply Z.pow_le_mono_r; lia). change (2 ^ 32) with 4294967296 in *. lia. }
    rewrite to_int32_id by lia. reflexivity.
Qed.

(** ** Adding blocks *)

(** [hs] are the hash values of the first blocks of the source. *)
Definition true_hashes (source hs : list Z) : Prop :=
  forall b h, get hs b = Some h -> exists blk, slice source (b * kBlockSize) kBlockSize = Some blk /\ hash_direct kBlockSize blk = Some h.

Lemma slice_whole : forall A (l : list A), slice l 0 (zlen l) = Some l.
Proof. intros A l. pose proof (zlen_nonneg _ l). rewrite slice_some by lia. rewrite zdrop_0, ztake_all by lia. reflexivity. Qed.

Lemma hash_direct_block : forall blk, bytes_ok blk -> zlen blk = kBlockSize ->
  hash_direct kBlockSize blk = Some (poly blk mod kBase).
Proof.
  intros blk B L. apply hash_direct_poly; [unfold kBlockSize; lia|exact B|]. rewrite <- L. apply slice_whole.
Qed.
Lemma hash_direct_nonneg : forall blk h, bytes_ok blk -> zlen blk = kBlockSize -> hash_direct kBlockSize blk = Some h -> 0 <= h.
Proof. intros blk h B L H. rewrite hash_direct_block in H by assumption. injection H as <-. apply Z.mod_pos_bound. unfold kBase; lia. Qed.

Lemma slice_bytes_ok : forall l o n s, bytes_ok l -> slice l o n = Some s -> bytes_ok s.
Proof. intros l o n s B S. destruct (slice_inv _ _ _ _ _ S) as (_ & _ & _ & -> & _). apply bytes_ok_ztake, bytes_ok_zdrop, B. Qed.

Lemma true_hashes_snoc : forall source hs blk h, true_hashes source hs ->
  slice source (zlen hs * kBlockSize) kBlockSize = Some blk -> hash_direct kBlockSize blk = Some h -> true_hashes source (hs ++ [h]).
Proof.
  intros source hs blk h T S H b x G. pose proof (get_range _ _ _ _ G) as R. rewrite zlen_app, zlen_cons, zlen_nil in R.
  assert (b < zlen hs \/ b = zlen hs) as [LT| ->] by lia.
  - rewrite get_app_l in G by lia. apply T. exact G.
  - rewrite get_app_r in G by lia. rewrite Z.sub_diag, get_0 in G. injection G as <-. eauto.
Qed.

Lemma add_blocks_loop_ok : forall fuel bh hs end_, bytes_ok (bh_source bh) -> bh_ok bh hs -> true_hashes (bh_source bh) hs ->
  number_of_blocks bh - zlen hs <= Z.of_nat fuel -> end_ <= zlen (bh_source bh) - kBlockSize + 1 ->
  exists bh' more, add_blocks_loop fuel bh (zlen hs * kBlockSize) end_ = Some bh' /\ bh_ok bh' (hs ++ more) /\
    true_hashes (bh_source bh) (hs ++ more) /\ same_source bh bh' /\ end_ <= (zlen hs + zlen more) * kBlockSize /\
    (more = [] \/ (zlen hs + zlen more - 1) * kBlockSize < end_).
Proof.
  induction fuel as [|fuel IH]; intros bh hs end_ BS B T F E; cbn [add_blocks_loop].
  - destruct (Z.ltb_spec (zlen hs * kBlockSize) end_) as [LT|GE].
    + exfalso. unfold number_of_blocks, kBlockSize in *. pose proof (Z.mul_div_le (zlen (bh_source bh)) 16 ltac:(lia)).
      pose proof (Z.mod_pos_bound (zlen (bh_source bh)) 16 ltac:(lia)). pose proof (Z.div_mod (zlen (bh_source bh)) 16 ltac:(lia)). lia.
    + exists bh, []. rewrite app_nil_r, zlen_nil, Z.add_0_r. split; [reflexivity|]. split; [exact B|]. split; [exact T|]. split; [repeat split|]. split; [exact GE|left; reflexivity].
  - destruct (Z.ltb_spec (zlen hs * kBlockSize) end_) as [LT|GE].
    + pose proof (zlen_nonneg _ hs).
      destruct (slice (bh_source bh) (zlen hs * kBlockSize) kBlockSize) as [blk|] eqn:S.
      2: { exfalso. rewrite slice_some in S by (unfold kBlockSize in *; lia). discriminate. }
      pose proof (slice_bytes_ok _ _ _ _ BS S) as BB. destruct (slice_inv _ _ _ _ _ S) as (_ & _ & _ & _ & LB).
      rewrite hash_direct_block by assumption.
      destruct (add_block_ok bh hs (poly blk mod kBase) B) as (bh' & EA & B' & SS).
      { unfold number_of_blocks, kBlockSize in *. apply Z.lt_le_trans with ((zlen hs * 16 + 16) / 16).
        - replace (zlen hs * 16 + 16) with ((zlen hs + 1) * 16) by lia. rewrite Z.div_mul by lia. lia.
        - apply Z.div_le_mono; lia. }
      { apply Z.mod_pos_bound. unfold kBase; lia. }
      rewrite EA. destruct SS as (S1 & S2 & S3).
      destruct (IH bh' (hs ++ [poly blk mod kBase]) end_) as (bh2 & more & EL & B2 & T2 & SS2 & E2 & M2).
      { rewrite S1. exact BS. } { exact B'. }
      { rewrite S1. eapply true_hashes_snoc; eauto. apply hash_direct_block; assumption. }
      { unfold number_of_blocks in *. rewrite S1, zlen_app, zlen_cons, zlen_nil. lia. }
      { rewrite S1. exact E. }
      rewrite zlen_app, zlen_cons, zlen_nil in *.
      replace (zlen hs * kBlockSize + kBlockSize) with ((zlen hs + (1 + 0)) * kBlockSize) by (unfold kBlockSize; lia).
      exists bh2, (poly blk mod kBase :: more). rewrite EL. rewrite <- app_assoc in B2, T2. cbn [app] in B2, T2.
      rewrite zlen_cons. rewrite S1 in T2.
      split; [reflexivity|]. split; [exact B2|]. split; [exact T2|].
      split. { destruct SS2 as (X1 & X2 & X3). repeat split; congruence. }
      split; [lia|]. right. destruct M2 as [-> |M2]; [rewrite zlen_nil; lia|lia].
    + exists bh, []. rewrite app_nil_r, zlen_nil, Z.add_0_r. split; [reflexivity|]. split; [exact B|]. split; [exact T|]. split; [repeat split|]. split; [exact GE|left; reflexivity].
Qed.

Lemma add_all_ok : forall bh hs end_, bytes_ok (bh_source bh) -> bh_ok bh hs -> true_hashes (bh_source bh) hs ->
  (zlen hs - 1) * kBlockSize < end_ <= zlen (bh_source bh) ->
  exists bh' more, add_all_blocks_through_index bh end_ = Some bh' /\ bh_ok bh' (hs ++ more) /\
    true_hashes (bh_source bh) (hs ++ more) /\ same_source bh bh' /\
    (more = [] \/ (zlen hs + zlen more - 1) * kBlockSize < end_) /\
    (forall b, 0 <= b < number_of_blocks bh -> b * kBlockSize < end_ -> b < zlen hs + zlen more).
Proof.
  intros bh hs end_ BS B T E. pose proof (zlen_nonneg _ (bh_source bh)). pose proof (bo_size _ _ B). unfold add_all_blocks_through_index. cbv zeta.
  rewrite to_int32_id by (unfold int32_max in *; lia).
  destruct (Z.ltb_spec (zlen (bh_source bh)) end_); [lia|]. rewrite (bo_last _ _ B).
  destruct (Z.leb_spec end_ ((zlen hs - 1) * kBlockSize)); [lia|].
  destruct (Z.ltb_spec (zlen (bh_source bh)) kBlockSize) as [SM|BG].
  - exists bh, []. rewrite app_nil_r, zlen_nil. split; [reflexivity|]. split; [exact B|]. split; [exact T|]. split; [repeat split|]. split; [left; reflexivity|].
    intros b Hb _. unfold number_of_blocks in Hb. rewrite Z.div_small in Hb by lia. lia.
  - rewrite to_int32_id by (unfold int32_max, kBlockSize in *; lia).
    set (lim := if _ <? _ then _ else _).
    assert (lim <= zlen (bh_source bh) - kBlockSize + 1 /\ lim <= end_ /\ (lim = end_ \/ lim = zlen (bh_source bh) - kBlockSize + 1)) as (L1 & L2 & L3).
    { unfold lim. destruct (Z.ltb_spec (zlen (bh_source bh) - kBlockSize) end_); lia. }
    pose proof (number_of_blocks_range _ _ B). pose proof (zlen_nonneg _ hs).
    destruct (add_blocks_loop_ok (Z.to_nat (number_of_blocks bh)) bh hs lim BS B T) as (bh' & more & EL & B' & T' & SS & E2 & M2); [lia|exact L1|].
    unfold next_index_to_add. rewrite (bo_last _ _ B). replace (zlen hs - 1 + 1) with (zlen hs) by lia.
    exists bh', more. split; [exact EL|]. split; [exact B'|]. split; [exact T'|]. split; [exact SS|].
    split; [destruct M2; [auto|right; lia]|].
    intros b Hb Lb. pose proof (zlen_nonneg _ more).
    assert (b * kBlockSize < lim); [|unfold kBlockSize in *; lia].
    destruct L3 as [-> | ->]; [exact Lb|]. unfold number_of_blocks, kBlockSize in *.
    pose proof (Z.mul_div_le (zlen (bh_source bh)) 16 ltac:(lia)). lia.
Qed.

(** ** Searching *)

Lemma bytes_eqb_eq : forall a b, bytes_eqb a b = true <-> a = b.
Proof.
  induction a as [|x a IH]; intros [|y b]; cbn [bytes_eqb]; split; intros H; try discriminate; auto.
  - apply andb_prop in H as [H1 H2]. apply Z.eqb_eq in H1. apply IH in H2. congruence.
  - injection H as -> ->. rewrite Z.eqb_refl. cbn. apply IH. reflexivity.
Qed.
Lemma block_contents_match_eq : forall a b, block_contents_match a b = true <-> a = b.
Proof.
  intros a b. unfold block_contents_match. destruct (Z.eqb_spec (hd 0 a) (hd 0 b)) as [E|N]; cbn [negb].
  - apply bytes_eqb_eq.
  - split; [discriminate|]. intros ->. congruence.
Qed.

Lemma block_slice : forall bh hs b, bh_ok bh hs -> 0 <= b < zlen hs ->
  exists blk, slice (bh_source bh) (b * kBlockSize) kBlockSize = Some blk.
Proof.
  intros bh hs b B R. pose proof (bo_count _ _ B). unfold number_of_blocks, kBlockSize in *.
  pose proof (Z.mul_div_le (zlen (bh_source bh)) 16 ltac:(lia)). rewrite slice_some by lia. eauto.
Qed.

(** The first block of the chain [l] that has the wanted content, unless there
    are too many others before it. *)
Lemma skip_ok : forall n bh hs l block, bh_ok bh hs -> linked (bh_next bh) l -> (forall b, In b l -> 0 <= b < zlen hs) ->
  exists r, skip_non_matching n bh (hd (-1) l) block = Some r /\
    (r = -1 \/ exists pre post, l = pre ++ r :: post /\ slice (bh_source bh) (r * kBlockSize) kBlockSize = Some block).
Proof.
  induction n as [|n IH]; intros bh hs l block B L R; destruct l as [|b l]; cbn [hd skip_non_matching].
  - exists (-1). auto.
  - destruct (Z.ltb_spec b 0); [specialize (R b (or_introl eq_refl)); lia|].
    destruct (block_slice bh hs b B (R b (or_introl eq_refl))) as [blk E]. rewrite E.
    destruct (block_contents_match block blk) eqn:M; [|exists (-1); auto]. apply block_contents_match_eq in M as <-.
    exists b. split; [reflexivity|]. right. exists [], l. auto.
  - exists (-1). auto.
  - destruct (Z.ltb_spec b 0); [specialize (R b (or_introl eq_refl)); lia|].
    destruct (block_slice bh hs b B (R b (or_introl eq_refl))) as [blk E]. rewrite E.
    destruct (block_contents_match block blk) eqn:M.
    + apply block_contents_match_eq in M as <-. exists b. split; [reflexivity|]. right. exists [], l. auto.
    + destruct L as [G L]. rewrite G. destruct (IH bh hs l block B L) as (r & -> & C); [intros; apply R; right; assumption|].
      exists r. split; [reflexivity|]. destruct C as [->|(pre & post & -> & S)]; [left; reflexivity|].
      right. exists (b :: pre), post. auto.
Qed.

Lemma linked_suffix : forall next pre l, linked next (pre ++ l) -> linked next l.
Proof. induction pre as [|a pre IH]; intros l H; [exact H|]. apply IH. apply H. Qed.

(** Pointwise equality of two ranges. *)
Definition same_range (a : list Z) (i : Z) (b : list Z) (j n : Z) : Prop :=
  0 <= i /\ 0 <= j /\ 0 <= n /\ i + n <= zlen a /\ j + n <= zlen b /\
  forall k, 0 <= k < n -> get a (i + k) = get b (j + k).

Lemma same_range_slice : forall a i b j n s, slice a i n = Some s -> slice b j n = Some s -> same_range a i b j n.
Proof.
  intros a i b j n s S1 S2. destruct (slice_inv _ _ _ _ _ S1) as (A1 & A2 & A3 & A4 & A5). destruct (slice_inv _ _ _ _ _ S2) as (B1 & B2 & B3 & B4 & B5).
  split; [lia|]. split; [lia|]. split; [lia|]. split; [lia|]. split; [lia|]. intros k K.
  rewrite <- (get_zdrop _ a i k), <- (get_zdrop _ b j k) by lia. rewrite <- (get_ztake _ (zdrop i a) n k), <- (get_ztake _ (zdrop j b) n k) by lia. congruence.
Qed.
Lemma same_range_eq : forall a i b j n, same_range a i b j n -> slice a i n = slice b j n.
Proof.
  intros a i b j n (A1 & A2 & A3 & A4 & A5 & A6). rewrite !slice_some by lia. f_equal. apply get_ext. intros k K.
  destruct (Z.lt_ge_cases k n) as [LT|GE].
  - rewrite !get_ztake by lia. rewrite !get_zdrop by lia. apply A6. lia.
  - assert (forall (l : list Z) o, 0 <= o -> get (ztake n (zdrop o l)) k = None) as G.
    { intros l o O. apply get_none. rewrite zlen_ztake by lia. lia. }
    rewrite !G by lia. reflexivity.
Qed.
Lemma same_range_join : forall a i b j n m, same_range a i b j n -> same_range a (i + n) b (j + n) m -> same_range a i b j (n + m).
Proof.
  intros a i b j n m (A1 & A2 & A3 & A4 & A5 & A6) (B1 & B2 & B3 & B4 & B5 & B6).
  split; [lia|]. split; [lia|]. split; [lia|]. split; [lia|]. split; [lia|]. intros k K.
  destruct (Z.lt_ge_cases k n) as [LT|GE]; [apply A6; lia|]. specialize (B6 (k - n) ltac:(lia)).
  replace (i + n + (k - n)) with (i + k) in B6 by lia. replace (j + n + (k - n)) with (j + k) in B6 by lia. exact B6.
Qed.

Lemma matching_left_ok : forall n source s target t, Z.of_nat n <= s <= zlen source -> Z.of_nat n <= t <= zlen target ->
  exists k, matching_left n source s target t = Some k /\ 0 <= k <= Z.of_nat n /\ same_range source (s - k) target (t - k) k.
Proof.
  induction n as [|n IH]; intros source s target t S T; cbn [matching_left].
  - exists 0. split; [reflexivity|]. split; [lia|]. rewrite !Z.sub_0_r. unfold same_range. repeat split; try lia; intros k K; lia.
  - destruct (get_some _ source (s - 1)) as [a GA]; [lia|]. destruct (get_some _ target (t - 1)) as [b GB]; [lia|]. rewrite GA, GB.
    destruct (Z.eqb_spec a b) as [->|N]; cbn [negb].
    + destruct (IH source (s - 1) target (t - 1)) as (k & -> & K & R); [lia|lia|].
      exists (1 + k). split; [reflexivity|]. split; [lia|].
      replace (s - (1 + k)) with (s - 1 - k) by lia. replace (t - (1 + k)) with (t - 1 - k) by lia. rewrite (Z.add_comm 1 k).
      apply same_range_join; [exact R|]. replace (s - 1 - k + k) with (s - 1) by lia. replace (t - 1 - k + k) with (t - 1) by lia.
      unfold same_range. repeat split; try lia. intros q Q. assert (q = 0) as -> by lia. rewrite !Z.add_0_r. congruence.
    + exists 0. split; [reflexivity|]. split; [lia|]. rewrite !Z.sub_0_r. unfold same_range. repeat split; try lia; intros k K; lia.
Qed.
Lemma matching_right_ok : forall n source s target t, 0 <= s -> s + Z.of_nat n <= zlen source -> 0 <= t -> t + Z.of_nat n <= zlen target ->
  exists k, matching_right n source s target t = Some k /\ 0 <= k <= Z.of_nat n /\ same_range source s target t k /\
    (same_range source s target t (Z.of_nat n) -> k = Z.of_nat n).
Proof.
  induction n as [|n IH]; intros source s target t S1 S2 T1 T2; cbn [matching_right].
  - exists 0. split; [reflexivity|]. split; [lia|]. split; [|auto]. unfold same_range. repeat split; try lia; intros k K; lia.
  - destruct (get_some _ source s) as [a GA]; [lia|]. destruct (get_some _ target t) as [b GB]; [lia|]. rewrite GA, GB.
    destruct (Z.eqb_spec a b) as [->|N].
    + destruct (IH source (s + 1) target (t + 1)) as (k & -> & K & R & F); [lia|lia|lia|lia|].
      exists (1 + k). split; [reflexivity|]. split; [lia|]. split.
      * apply same_range_join; [|exact R].
        unfold same_range. repeat split; try lia. intros q Q. assert (q = 0) as -> by lia. rewrite !Z.add_0_r. congruence.
      * intros (A1 & A2 & A3 & A4 & A5 & A6). enough (k = Z.of_nat n) by lia. apply F.
        unfold same_range. repeat split; try lia. intros q Q. specialize (A6 (1 + q) ltac:(lia)). rewrite !Z.add_assoc in A6. exact A6.
    + exists 0. split; [reflexivity|]. split; [lia|]. split; [unfold same_range; repeat split; try lia; intros k K; lia|].
      intros (A1 & A2 & A3 & A4 & A5 & A6). specialize (A6 0 ltac:(lia)). rewrite !Z.add_0_r in A6. congruence.
Qed.

(** A genuine match around the candidate block: it starts at [m_target] in the
    unencoded data, at or before the candidate, contains the candidate block,
    and comes from block [r] of the index. *)
Definition genuine (bh : blockhash) (hs target : list Z) (cand start : Z) (m : match_) : Prop :=
  exists r, 0 <= r < zlen hs /\ 0 <= m_target m <= cand - start /\
    cand + kBlockSize <= start + m_target m + m_size m /\
    m_source m = bh_start bh + r * kBlockSize - (cand - start - m_target m) /\
    same_range (bh_source bh) (m_source m - bh_start bh) target (start + m_target m) (m_size m).

Lemma extend_match_ok : forall bh hs r target cand start best block,
  bh_ok bh hs -> 0 <= r < zlen hs -> 0 <= start <= cand -> zlen target <= int32_max ->
  slice target cand kBlockSize = Some block -> slice (bh_source bh) (r * kBlockSize) kBlockSize = Some block ->
  exists m', extend_match bh r target cand start (zlen target - start) best = Some (replace_if_better best (m_size m') (m_source m') (m_target m')) /\
    genuine bh hs target cand start m' /\
    (forall n, cand = start -> same_range (bh_source bh) (r * kBlockSize) target start n ->
       n = Z.min (zlen (bh_source bh) - r * kBlockSize) (zlen target - start) -> n <= m_size m').
Proof.
  intros bh hs r target cand start best block B R ST LT S1 S2.
  destruct (slice_inv _ _ _ _ _ S1) as (_ & _ & A3 & _ & _). destruct (slice_inv _ _ _ _ _ S2) as (B1 & _ & B3 & _ & _).
  pose proof (bo_size _ _ B) as BS. pose proof (zlen_nonneg _ target). pose proof (zlen_nonneg _ (bh_source bh)).
  unfold kBlockSize in *. unfold extend_match, kBlockSize. cbv zeta.
  rewrite (to_int32_id (cand - start)) by (unfold int32_max in *; lia).
  replace (start + (cand - start)) with cand by lia.
  destruct (matching_left_ok (Z.to_nat (Z.min (r * 16) (cand - start))) (bh_source bh) (r * 16) target cand) as (k & -> & K & RL); [lia|lia|].
  rewrite !to_size_id by (unfold size_max, int32_max in *; lia).
  rewrite to_int32_id by (unfold int32_max in *; lia).
  replace (start + (cand - start + 16)) with (cand + 16) by lia.
  set (lim := Z.min _ _).
  assert (0 <= lim /\ r * 16 + 16 + lim <= zlen (bh_source bh) /\ cand + 16 + lim <= zlen target) as (L1 & L2 & L3) by lia.
  destruct (matching_right_ok (Z.to_nat lim) (bh_source bh) (r * 16 + 16) target (cand + 16)) as (k2 & -> & K2 & RR & FULL); [lia|lia|lia|lia|].
  rewrite Z2Nat.id in FULL, K2 by lia.
  exists {| m_size := 16 + k + k2; m_source := r * 16 - k + bh_start bh; m_target := cand - start - k |}.
  cbn [m_size m_source m_target]. split; [reflexivity|]. split.
  - exists r. cbn [m_size m_source m_target]. unfold kBlockSize.
    split; [exact R|]. split; [lia|]. split; [lia|]. split; [lia|].
    replace (r * 16 - k + bh_start bh - bh_start bh) with (r * 16 - k) by lia. replace (start + (cand - start - k)) with (cand - k) by lia.
    replace (16 + k + k2) with (k + 16 + k2) by lia.
    apply same_range_join; [apply same_range_join; [exact RL|]|].
    + replace (r * 16 - k + k) with (r * 16) by lia. replace (cand - k + k) with cand by lia. eapply same_range_slice; eauto.
    + replace (r * 16 - k + (k + 16)) with (r * 16 + 16) by lia. replace (cand - k + (k + 16)) with (cand + 16) by lia. exact RR.
  - intros n -> (N1 & N2 & N3 & N4 & N5 & N6) EN. enough (k2 = lim) by lia. apply FULL. split; [lia|]. split; [lia|]. split; [lia|]. split; [lia|]. split; [lia|].
    intros q Q. specialize (N6 (16 + q) ltac:(lia)). rewrite !Z.add_assoc in N6. exact N6.
Qed.

Lemma replace_better : forall best s a b, let m := replace_if_better best s a b in
  (m = best \/ (m_size best < s /\ m_size m = s /\ m_source m = a /\ m_target m = b)) /\ s <= m_size m /\ m_size best <= m_size m.
Proof.
  intros best s a b. cbv zeta. unfold replace_if_better. destruct (Z.ltb_spec (m_size best) s); cbn [m_size m_source m_target].
  - split; [right; auto|]. lia.
  - split; [left; reflexivity|]. lia.
Qed.

Definition better (bh : blockhash) (hs target : list Z) (cand start : Z) (best m : match_) : Prop :=
  m = best \/ (m_size best < m_size m /\ genuine bh hs target cand start m).

Lemma better_trans : forall bh hs target cand start a b c, better bh hs target cand start a b -> better bh hs target cand start b c ->
  better bh hs target cand start a c.
Proof. intros bh hs target cand start a b c [->|[H1 H2]] [->|[H3 H4]]; unfold better; auto. right. split; [lia|auto]. Qed.

Lemma genuine_replace : forall bh hs target cand start best m', genuine bh hs target cand start m' ->
  better bh hs target cand start best (replace_if_better best (m_size m') (m_source m') (m_target m')).
Proof.
  intros bh hs target cand start best m' G. destruct (replace_better best (m_size m') (m_source m') (m_target m')) as [[-> |(L & E1 & E2 & E3)] _]; [left; reflexivity|].
  right. split; [lia|]. destruct G as (r & R & G). exists r. rewrite E1, E2, E3. auto.
Qed.

Lemma find_loop_ok : forall n bh hs l i target cand start best block,
  bh_ok bh hs -> (exists pre, bucket (bh_mask bh) hs i = pre ++ l) -> 0 <= start <= cand -> zlen target <= int32_max ->
  slice target cand kBlockSize = Some block ->
  (forall r, hd_error l = Some r -> slice (bh_source bh) (r * kBlockSize) kBlockSize = Some block) ->
  exists m, find_loop n bh (hd (-1) l) block target cand start (zlen target - start) best = Some m /\
    better bh hs target cand start best m /\ m_size best <= m_size m /\
    (forall r k, n <> O -> hd_error l = Some r -> cand = start -> same_range (bh_source bh) (r * kBlockSize) target start k ->
       k = Z.min (zlen (bh_source bh) - r * kBlockSize) (zlen target - start) -> k <= m_size m).
Proof.
  induction n as [|n IH]; intros bh hs l i target cand start best block B (pre & EB) ST LT S1 S2; cbn [find_loop].
  - destruct l as [|r l]; cbn [hd].
    + exists best. split; [reflexivity|]. split; [left; reflexivity|]. split; [lia|]. intros; congruence.
    + exists best. assert (0 <= r < zlen hs) by (apply (bucket_range _ (bh_mask bh) i); rewrite EB; apply in_or_app; right; left; reflexivity).
      destruct (Z.ltb_spec r 0); [lia|]. split; [reflexivity|]. split; [left; reflexivity|]. split; [lia|]. intros; congruence.
  - destruct l as [|r l]; cbn [hd].
    + exists best. split; [reflexivity|]. split; [left; reflexivity|]. split; [lia|]. intros; discriminate.
    + assert (forall b, In b (r :: l) -> 0 <= b < zlen hs) as RA.
      { intros b I. apply (bucket_range _ (bh_mask bh) i). rewrite EB. apply in_or_app. right. exact I. }
      pose proof (RA r (or_introl eq_refl)) as RR. destruct (Z.ltb_spec r 0); [lia|].
      destruct (extend_match_ok bh hs r target cand start best block B RR ST LT S1 (S2 r eq_refl)) as (m' & -> & G & FULL).
      unfold next_matching_block. pose proof (bo_count _ _ B). pose proof (number_of_blocks_range _ _ B).
      rewrite to_size_id by (unfold size_max, int32_max in *; lia). destruct (Z.leb_spec (number_of_blocks bh) r); [lia|].
      pose proof (bo_linked _ _ B i) as LK. rewrite EB in LK. apply linked_suffix in LK. destruct LK as [GN LK]. rewrite GN.
      destruct (skip_ok kMaxProbes bh hs l block B LK) as (r' & -> & C); [intros; apply RA; right; assumption|].
      set (best' := replace_if_better best (m_size m') (m_source m') (m_target m')).
      pose proof (genuine_replace bh hs target cand start best m' G) as BT. fold best' in BT.
      pose proof (replace_better best (m_size m') (m_source m') (m_target m')) as (_ & Q1 & Q2). fold best' in Q1, Q2.
      assert (exists l', r' = hd (-1) l' /\ (exists pre, bucket (bh_mask bh) hs i = pre ++ l') /\
                (forall r, hd_error l' = Some r -> slice (bh_source bh) (r * kBlockSize) kBlockSize = Some block)) as (l' & E' & P' & S').
      { destruct C as [-> |(p & q & El & Sl)].
        - exists []. split; [reflexivity|]. split; [exists (pre ++ r :: l); rewrite app_nil_r; exact EB|]. intros; discriminate.
        - exists (r' :: q). split; [reflexivity|]. split; [exists (pre ++ r :: p); rewrite EB, El, <- app_assoc; reflexivity|].
          intros r0 Hr. injection Hr as <-. exact Sl. }
      subst r'. destruct (IH bh hs l' i target cand start best' block B P' ST LT S1 S') as (m & -> & BM & SM & _).
      exists m. split; [reflexivity|]. split; [eapply better_trans; eauto|]. split; [lia|].
      intros r0 k _ Hr Ec SR EN. injection Hr as <-. specialize (FULL k Ec SR EN). lia.
Qed.

Lemma find_best_match_ok : forall bh hs h target cand start best,
  bh_ok bh hs -> 0 <= h -> 0 <= start <= cand -> cand + kBlockSize <= zlen target -> zlen target <= int32_max ->
  exists m, find_best_match bh h target cand start (zlen target - start) best = Some m /\
    better bh hs target cand start best m /\
    (forall r block l k, slice target cand kBlockSize = Some block -> bucket (bh_mask bh) hs (hash_table_index bh h) = r :: l ->
       slice (bh_source bh) (r * kBlockSize) kBlockSize = Some block -> cand = start ->
       same_range (bh_source bh) (r * kBlockSize) target start k ->
       k = Z.min (zlen (bh_source bh) - r * kBlockSize) (zlen target - start) -> k <= m_size m).
Proof.
  intros bh hs h target cand start best B H ST CL LT. unfold find_best_match.
  destruct (slice target cand kBlockSize) as [block|] eqn:S.
  2: { rewrite slice_some in S by (unfold kBlockSize in *; lia). discriminate. }
  unfold first_matching_block. rewrite (bo_table _ _ B) by (eapply index_range; eauto).
  set (i := hash_table_index bh h).
  destruct (skip_ok kMaxProbes bh hs (bucket (bh_mask bh) hs i) block B (bo_linked _ _ B i)) as (r' & ES & C); [apply bucket_range|].
  rewrite ES.
  assert (exists l', r' = hd (-1) l' /\ (exists pre, bucket (bh_mask bh) hs i = pre ++ l') /\
            (forall r, hd_error l' = Some r -> slice (bh_source bh) (r * kBlockSize) kBlockSize = Some block)) as (l' & E' & P' & S').
  { destruct C as [-> |(p & q & El & Sl)].
    - exists []. split; [reflexivity|]. split; [exists (bucket (bh_mask bh) hs i); rewrite app_nil_r; reflexivity|]. intros; discriminate.
    - exists (r' :: q). split; [reflexivity|]. split; [exists p; exact El|]. intros r0 Hr. injection Hr as <-. exact Sl. }
  destruct (find_loop_ok kMaxMatchesToCheck bh hs l' i target cand start best block B P' ST LT S S') as (m & EM & BM & SM & FULL).
  rewrite <- E' in EM. exists m. split; [exact EM|]. split; [exact BM|].
  intros r block' l k Hb EB SB Ec SR EN. injection Hb as <-.
  assert (r' = r) as ->.
  { rewrite EB in ES. cbn [hd kMaxProbes skip_non_matching] in ES. assert (0 <= r < zlen hs) by (apply (bucket_range _ (bh_mask bh) i); rewrite EB; left; reflexivity).
    destruct (Z.ltb_spec r 0); [lia|]. rewrite SB in ES. assert (block_contents_match block block = true) as X by (apply block_contents_match_eq; reflexivity).
    rewrite X in ES. congruence. }
  assert (0 <= r < zlen hs) by (apply (bucket_range _ (bh_mask bh) i); rewrite EB; left; reflexivity).
  destruct l' as [|r0 l'']; cbn [hd] in E'; [lia|]. subst r0.
  eapply FULL; eauto; [discriminate|reflexivity].
Qed.
