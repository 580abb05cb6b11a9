(** The block index after any sequence of calls that add blocks. *)

From Verif Require Import Base ListFacts RollingHash RollingHashFacts BlockHash BlockHashFacts.
From Coq Require Import ZifyBool ZifyNat Sorting.Sorted.

(** The calls of blockhash.h 179-183 and blockhash.cc 203-238. *)
Inductive index_call := AddOne (index hash : Z) | AddThrough (end_index : Z).
Definition do_index_call (bh : blockhash) (c : index_call) : option blockhash :=
  match c with
  | AddOne i h => add_one_index_hash bh i h
  | AddThrough e => add_all_blocks_through_index bh e
  end.
Fixpoint do_index_calls (bh : blockhash) (l : list index_call) : option blockhash :=
  match l with
  | [] => Some bh
  | c :: tl => match do_index_call bh c with Some bh' => do_index_calls bh' tl | None => None end
  end.

(** The hash value passed is that of the block at the index, if there is one. *)
Definition call_right (source : list Z) (c : index_call) : Prop :=
  match c with
  | AddOne i h => 0 <= i /\ 0 <= h /\ (i + kBlockSize <= zlen source -> hash_direct kBlockSize (zdrop i source) = Some h)
  | AddThrough e => 0 <= e
  end.

Lemma hash_direct_drop : forall n l i blk, 0 <= n -> slice l i n = Some blk -> hash_direct n (zdrop i l) = hash_direct n blk.
Proof.
  intros n l i blk N S. destruct (slice_inv _ _ _ _ _ S) as (A1 & A2 & A3 & A4 & A5). unfold hash_direct.
  assert (slice (zdrop i l) 0 n = Some blk) as ->. { rewrite slice_some by (rewrite ?zlen_zdrop by lia; lia). rewrite zdrop_0. congruence. }
  pose proof (slice_whole _ blk) as W. rewrite A5 in W. rewrite W. reflexivity.
Qed.

Lemma index_call_ok : forall source start c bh hs, bytes_ok source -> bh_ok bh hs -> bh_source bh = source -> bh_start bh = start -> true_hashes source hs -> call_right source c ->
  exists bh' hs', do_index_call bh c = Some bh' /\ bh_ok bh' hs' /\ same_source bh bh' /\ true_hashes source hs' /\ zlen hs <= zlen hs'.
Proof.
  intros source start [i h|e] bh hs BS B ES SS T R; cbn [do_index_call call_right] in *.
  - unfold add_one_index_hash, next_index_to_add. rewrite (bo_last _ _ B). replace (zlen hs - 1 + 1) with (zlen hs) by lia.
    assert (exists bh' hs', Some bh = Some bh' /\ bh_ok bh' hs' /\ same_source bh bh' /\ true_hashes source hs' /\ zlen hs <= zlen hs') as SAME.
    { exists bh, hs. split; [reflexivity|]. split; [exact B|]. split; [repeat split|]. split; [exact T|lia]. }
    destruct (Z.eqb_spec i (zlen hs * kBlockSize)) as [-> |]; [|exact SAME].
    pose proof (bo_count _ _ B) as BC. assert (zlen hs < number_of_blocks bh \/ zlen hs = number_of_blocks bh) as [LT|EQ] by lia.
    + destruct R as (_ & H0 & R). unfold number_of_blocks in LT. rewrite ES in LT. unfold kBlockSize in *.
      pose proof (Z.mul_div_le (zlen source) 16 ltac:(lia)). specialize (R ltac:(lia)).
      destruct (add_block_ok bh hs h B) as (bh' & -> & B' & S'); [unfold number_of_blocks; rewrite ES; exact LT|exact H0|].
      exists bh', (hs ++ [h]). split; [reflexivity|]. split; [exact B'|]. split; [exact S'|].
      rewrite zlen_app, zlen_cons, zlen_nil. split; [|lia].
      assert (exists blk, slice source (zlen hs * 16) 16 = Some blk) as (blk & SB) by (rewrite slice_some by (pose proof (zlen_nonneg _ hs); lia); eauto).
      apply true_hashes_snoc with (blk := blk); auto. rewrite (hash_direct_drop 16 source _ blk) in R by (auto; lia). exact R.
    + unfold add_block. destruct (bh_table bh) as [|t tt]; [exact SAME|]. cbv zeta. rewrite (bo_last _ _ B).
      pose proof (number_of_blocks_range _ _ B). rewrite to_int32_id by (unfold int32_max in *; lia).
      destruct (Z.leb_spec (number_of_blocks bh) (zlen hs - 1 + 1)); [exact SAME|lia].
  - assert (exists bh' hs', Some bh = Some bh' /\ bh_ok bh' hs' /\ same_source bh bh' /\ true_hashes source hs' /\ zlen hs <= zlen hs') as SAME.
    { exists bh, hs. split; [reflexivity|]. split; [exact B|]. split; [repeat split|]. split; [exact T|lia]. }
    pose proof (bo_size _ _ B). pose proof (zlen_nonneg _ (bh_source bh)).
    destruct (Z.lt_ge_cases (zlen (bh_source bh)) e) as [GT|LE1].
    { unfold add_all_blocks_through_index. cbv zeta. rewrite to_int32_id by (unfold int32_max in *; lia).
      destruct (Z.ltb_spec (zlen (bh_source bh)) e); [exact SAME|lia]. }
    destruct (Z.le_gt_cases e ((zlen hs - 1) * kBlockSize)) as [LE|GT].
    { unfold add_all_blocks_through_index. cbv zeta. rewrite to_int32_id by (unfold int32_max in *; lia).
      destruct (Z.ltb_spec (zlen (bh_source bh)) e); [lia|]. rewrite (bo_last _ _ B).
      destruct (Z.leb_spec e ((zlen hs - 1) * kBlockSize)); [exact SAME|lia]. }
    subst source. destruct (add_all_ok bh hs e BS B T) as (bh' & more & -> & B' & T' & S' & _); [lia|].
    exists bh', (hs ++ more). split; [reflexivity|]. split; [exact B'|]. split; [exact S'|]. split; [exact T'|].
    rewrite zlen_app. pose proof (zlen_nonneg _ more). lia.
Qed.

Lemma index_calls_ok : forall source start l bh hs, bytes_ok source -> bh_ok bh hs -> bh_source bh = source -> bh_start bh = start -> true_hashes source hs -> Forall (call_right source) l ->
  exists bh' hs', do_index_calls bh l = Some bh' /\ bh_ok bh' hs' /\ same_source bh bh' /\ true_hashes source hs' /\ zlen hs <= zlen hs'.
Proof.
  induction l as [|c l IH]; intros bh hs BS B ES SS T F; cbn [do_index_calls].
  - exists bh, hs. split; [reflexivity|]. split; [exact B|]. split; [repeat split|]. split; [exact T|lia].
  - inversion F as [|? ? C F']; subst.
    destruct (index_call_ok _ _ c bh hs BS B eq_refl eq_refl T C) as (bh1 & hs1 & -> & B1 & (E1 & E2 & E3) & T1 & L1).
    destruct (IH bh1 hs1 BS B1 E1 E2 T1 F') as (bh2 & hs2 & -> & B2 & (G1 & G2 & G3) & T2 & L2).
    exists bh2, hs2. split; [reflexivity|]. split; [exact B2|]. split; [split; [congruence|split; congruence]|]. split; [exact T2|lia].
Qed.

(** From the block [b], the pointers in [next] lead through exactly the blocks [l]. *)
Fixpoint follows (next : list Z) (b : Z) (l : list Z) : Prop :=
  match l with
  | [] => b = -1
  | x :: tl => b = x /\ exists nx, get next x = Some nx /\ follows next nx tl
  end.
Lemma linked_follows : forall next l, linked next l -> follows next (hd (-1) l) l.
Proof.
  induction l as [|x l IH]; cbn [linked follows hd]; [auto|]. intros [G L]. split; [reflexivity|]. exists (hd (-1) l). split; [exact G|apply IH; exact L].
Qed.

(** The index of the first [n] blocks. *)
Definition indexes (source : list Z) (bh : blockhash) (n : Z) : Prop :=
  0 <= n <= zlen source / kBlockSize /\ bh_last bh = n - 1 /\
  forall h, 0 <= h -> exists first l,
    get (bh_table bh) (Z.land h (bh_mask bh)) = Some first /\ follows (bh_next bh) first l /\ StronglySorted Z.lt l /\
    forall b, In b l <-> 0 <= b < n /\ exists hb, hash_direct kBlockSize (zdrop (b * kBlockSize) source) = Some hb /\
                          Z.land hb (bh_mask bh) = Z.land h (bh_mask bh).

Lemma bh_ok_indexes : forall source bh hs, bh_ok bh hs -> bh_source bh = source -> true_hashes source hs -> indexes source bh (zlen hs).
Proof.
  intros source bh hs B ES T. split; [split; [apply zlen_nonneg|rewrite <- ES; apply (bo_count _ _ B)]|]. split; [apply (bo_last _ _ B)|].
  intros h H. pose proof (index_range _ _ h B H) as IR. unfold hash_table_index in IR.
  exists (hd (-1) (bucket (bh_mask bh) hs (Z.land h (bh_mask bh)))), (bucket (bh_mask bh) hs (Z.land h (bh_mask bh))).
  split; [apply (bo_table _ _ B); exact IR|]. split; [apply linked_follows; apply (bo_linked _ _ B)|].
  split; [apply bucket_from_sorted|]. intros b. rewrite bucket_in. split.
  - intros (hb & G & L). pose proof (get_range _ _ _ _ G). split; [lia|]. exists hb. split; [|exact L].
    destruct (T b hb G) as (blk & S & HD). rewrite (hash_direct_drop kBlockSize source _ blk); [exact HD|unfold kBlockSize; lia|exact S].
  - intros (R & hb & HD & L). destruct (get_some _ hs b R) as [x G]. exists x. split; [exact G|].
    destruct (T b x G) as (blk & S & HD'). rewrite (hash_direct_drop kBlockSize source _ blk) in HD; [|unfold kBlockSize; lia|exact S]. congruence.
Qed.

Lemma index_history : forall source start l, bytes_ok source -> zlen source <= int32_max -> Forall (call_right source) l ->
  exists bh0 bh n, bh_init source start false = Some (Some bh0) /\ do_index_calls bh0 l = Some bh /\ indexes source bh n.
Proof.
  intros source start l B L F. destruct (bh_init_eq source start false L) as (k & K & OK & E).
  destruct (index_calls_ok source start l (empty_bh source start k) [] B OK eq_refl eq_refl) as (bh & hs & E2 & B2 & (S1 & _) & T2 & _); [|exact F|].
  { intros b h G. rewrite (proj2 (get_none _ _ _)) in G by (rewrite zlen_nil; lia). discriminate. }
  exists (empty_bh source start k), bh, (zlen hs). split; [exact E|]. split; [exact E2|]. apply bh_ok_indexes; auto.
Qed.

Lemma index_complete : forall source start, bytes_ok source -> zlen source <= int32_max ->
  exists bh, bh_init source start true = Some (Some bh) /\ indexes source bh (zlen source / kBlockSize).
Proof.
  intros source start B L. destruct (bh_init_eq source start true L) as (k & K & OK & E).
  assert (true_hashes source []) as T0 by (intros b h G; rewrite (proj2 (get_none _ _ _)) in G by (rewrite zlen_nil; lia); discriminate).
  destruct (add_all_ok (empty_bh source start k) [] (zlen source) B OK T0) as (bh' & more & E2 & A2 & A3 & (S1 & S2 & S3) & A4 & A5).
  { cbn [bh_source empty_bh]. rewrite zlen_nil. pose proof (zlen_nonneg _ source). unfold kBlockSize. lia. }
  rewrite E, E2. exists bh'. split; [reflexivity|]. cbn [app] in *. pose proof (bh_ok_indexes source bh' more A2 S1 A3) as I.
  replace (zlen source / kBlockSize) with (zlen more); [exact I|].
  pose proof (bo_count _ _ A2) as C. unfold number_of_blocks in C, A5. rewrite S1 in C. cbn [empty_bh bh_source] in C, A5. rewrite zlen_nil in A5. cbn [Z.add] in A5.
  pose proof (zlen_nonneg _ more). destruct (Z.lt_ge_cases (zlen more) (zlen source / kBlockSize)); [|lia].
  specialize (A5 (zlen more) ltac:(lia)). unfold kBlockSize in *. pose proof (Z.mul_div_le (zlen source) 16 ltac:(lia)). lia.
Qed.
