(** The rolling hash computes the polynomial hash of each window. *)

From Verif Require Import Base ListFacts RollingHash.
From Coq Require Import ZifyBool ZifyNat.

(** The hash of a window, as a polynomial in 257 modulo 2^23. *)
Definition poly (l : list Z) : Z := fold_left (fun h b => h * 257 + b) l 0.

Lemma mod_base_mod : forall x, mod_base x = x mod kBase.
Proof. intros x. unfold mod_base, kBase. change (8388608 - 1) with (Z.ones 23). rewrite Z.land_ones by lia. reflexivity. Qed.

Lemma u32_mod : forall x, to_uint32 x mod kBase = x mod kBase.
Proof.
  intros x. unfold to_uint32, kBase. symmetry. apply Znumtheory.Zmod_div_mod; [lia|lia|].
  exists 512. reflexivity.
Qed.

Ltac zm := repeat (rewrite ?mod_base_mod, ?u32_mod).

Lemma hash_step_mod : forall h b, hash_step h b = (h * 257 + b) mod kBase.
Proof.
  intros h b. unfold hash_step, kMult. rewrite mod_base_mod, u32_mod.
  rewrite Z.add_mod, u32_mod, <- Z.add_mod by (unfold kBase; lia). reflexivity.
Qed.

Lemma fold_hash : forall l h, (fold_left hash_step l h) mod kBase = (fold_left (fun h b => h * 257 + b) l h) mod kBase.
Proof.
  assert (forall l h h', h mod kBase = h' mod kBase ->
    (fold_left hash_step l h) mod kBase = (fold_left (fun h b => h * 257 + b) l h') mod kBase) as K.
  { induction l as [|b l IH]; intros h h' E; cbn [fold_left]; [exact E|]. apply IH. rewrite hash_step_mod.
    rewrite Z.mod_mod by (unfold kBase; lia).
    rewrite <- (Z.add_mod_idemp_l (h * 257)), <- (Z.mul_mod_idemp_l h), E, Z.mul_mod_idemp_l, Z.add_mod_idemp_l by (unfold kBase; lia). reflexivity. }
  intros l h. apply K. reflexivity.
Qed.

Lemma fold_hash_small : forall l h, 0 <= h < kBase -> fold_left hash_step l h = (fold_left (fun h b => h * 257 + b) l h) mod kBase.
Proof.
  intros l h H. rewrite <- fold_hash. symmetry. apply Z.mod_small.
  revert h H. induction l as [|b l IH]; intros h H; cbn [fold_left]; [exact H|]. apply IH.
  rewrite hash_step_mod. apply Z.mod_pos_bound. unfold kBase; lia.
Qed.

Lemma hash_direct_poly : forall n d l, 2 <= n -> bytes_ok l -> slice d 0 n = Some l -> hash_direct n d = Some (poly l mod kBase).
Proof.
  intros n d l N B S. unfold hash_direct. rewrite S. destruct (slice_inv _ _ _ _ _ S) as (_ & _ & _ & _ & L).
  destruct l as [|p0 [|p1 l]]; [rewrite zlen_nil in L; lia|rewrite zlen_cons, zlen_nil in L; lia|].
  inversion B as [|? ? B0 B']; subst. inversion B' as [|? ? B1 B2]; subst. unfold byte_ok in B0, B1. unfold kMult.
  assert (to_uint32 (to_uint32 (p0 * 257) + p1) = p0 * 257 + p1) as ->.
  { unfold to_uint32. rewrite (Z.mod_small (p0 * 257)) by lia. rewrite Z.mod_small by lia. reflexivity. }
  rewrite fold_hash_small by (unfold kBase; lia). reflexivity.
Qed.

Lemma fold_poly : forall l h, fold_left (fun h b => h * 257 + b) l h = h * 257 ^ (zlen l) + poly l.
Proof.
  intros l. unfold poly. induction l as [|b l IH] using rev_ind; intros h; [cbn; rewrite zlen_nil; cbn; lia|].
  rewrite !fold_left_app. cbn [fold_left]. rewrite IH, zlen_app, zlen_cons, zlen_nil.
  pose proof (zlen_nonneg _ l). rewrite Z.pow_add_r by lia. change (257 ^ (1 + 0)) with 257. ring.
Qed.

Lemma multiplier_mod : forall n, 2 <= n -> multiplier n = (257 ^ (n - 1)) mod kBase.
Proof.
  assert (forall k m, 0 <= m < kBase -> multiplier_loop k m = (m * 257 ^ (Z.of_nat k)) mod kBase) as K.
  { induction k as [|k IH]; intros m M; cbn [multiplier_loop].
    - change (Z.of_nat 0) with 0. rewrite Z.pow_0_r, Z.mul_1_r, Z.mod_small by lia. reflexivity.
    - rewrite mod_base_mod, u32_mod. rewrite IH by (apply Z.mod_pos_bound; unfold kBase; lia). unfold kMult.
      rewrite Z.mul_mod_idemp_l by (unfold kBase; lia). f_equal. rewrite Nat2Z.inj_succ, Z.pow_succ_r by lia. ring. }
  intros n N. unfold multiplier. rewrite K by (unfold kBase; lia). rewrite Z2Nat.id by lia. f_equal. ring.
Qed.

Lemma table_loop_get : forall n m x b, 0 <= b < Z.of_nat n ->
  get (table_loop n m x) b = Some ((- (x + b * m)) mod kBase).
Proof.
  induction n as [|n IH]; intros m x b B; [lia|]. cbn [table_loop].
  assert (b = 0 \/ 0 < b) as [-> | P] by lia.
  - Local Transparent get. unfold get. Local Opaque get. cbn [Z.ltb Z.compare Z.to_nat nth_error].
    unfold find_mod_base_inverse. rewrite mod_base_mod, u32_mod. do 2 f_equal. ring.
  - assert (get (find_mod_base_inverse x :: table_loop n m (mod_base (to_uint32 (x + m)))) b =
            get (table_loop n m (mod_base (to_uint32 (x + m)))) (b - 1)) as ->.
    { Local Transparent get. unfold get. Local Opaque get. destruct (Z.ltb_spec b 0); [lia|]. destruct (Z.ltb_spec (b - 1) 0); [lia|].
      destruct (Z.to_nat b) as [|k] eqn:E; [lia|]. assert (Z.to_nat (b - 1) = k) as -> by lia. reflexivity. }
    rewrite IH by lia. f_equal. rewrite mod_base_mod, u32_mod.
    rewrite <- (Z.sub_0_l (_ + _)), <- Zminus_mod_idemp_r, Z.add_mod_idemp_l, Zminus_mod_idemp_r by (unfold kBase; lia).
    f_equal. ring.
Qed.

Lemma update_hash_ok : forall n a m b, 2 <= n -> zlen m = n - 1 -> byte_ok a -> byte_ok b ->
  update_hash (remove_table n) (poly (a :: m) mod kBase) a b = Some (poly (m ++ [b]) mod kBase).
Proof.
  intros n a m b N L A B. unfold update_hash, remove_table. unfold byte_ok in *. rewrite table_loop_get by lia. f_equal.
  rewrite hash_step_mod, mod_base_mod, u32_mod, multiplier_mod by lia.
  unfold poly at 1. cbn [fold_left]. change (0 * 257 + a) with a. rewrite fold_poly, L.
  unfold poly at 2. rewrite fold_left_app. cbn [fold_left]. fold (poly m).
  assert (forall x, exists q, x mod kBase = x - kBase * q) as Q.
  { intros x. exists (x / kBase). apply Z.mod_eq. unfold kBase; lia. }
  set (W := 257 ^ (n - 1)).
  destruct (Q W) as [q2 ->]. destruct (Q (a * W + poly m)) as [q1 ->].
  destruct (Q (- (0 + a * (W - kBase * q2)))) as [q3 ->].
  destruct (Q (a * W + poly m - kBase * q1 + (- (0 + a * (W - kBase * q2)) - kBase * q3))) as [q4 ->].
  replace ((a * W + poly m - kBase * q1 + (- (0 + a * (W - kBase * q2)) - kBase * q3) - kBase * q4) * 257 + b)
    with (poly m * 257 + b + (257 * (- q1 + a * q2 - q3 - q4)) * kBase) by ring.
  apply Z_mod_plus_full.
Qed.

(** Following the data with UpdateHash. *)
Fixpoint roll (rt : list Z) (n : Z) (h : Z) (data : list Z) (steps : nat) {struct steps} : option Z :=
  match steps with
  | O => Some h
  | S k =>
      match data with
      | a :: tl =>
          match get data n with
          | Some b => match update_hash rt h a b with Some h' => roll rt n h' tl k | None => None end
          | None => None
          end
      | [] => None
      end
  end.

Lemma roll_ok : forall k n data h, 2 <= n -> bytes_ok data -> n + Z.of_nat k <= zlen data ->
  hash_direct n data = Some h -> roll (remove_table n) n h data k = hash_direct n (zdrop (Z.of_nat k) data).
Proof.
  induction k as [|k IH]; intros n data h N B L H; cbn [roll].
  - change (Z.of_nat 0) with 0. rewrite zdrop_0. symmetry; exact H.
  - destruct data as [|a data]; [rewrite zlen_nil in L; lia|]. rewrite zlen_cons in L.
    inversion B as [|? ? BA BD]; subst.
    destruct (get_some _ (a :: data) n) as [b GB]; [rewrite zlen_cons; lia|]. rewrite GB.
    assert (slice (a :: data) 0 n = Some (a :: ztake (n - 1) data)) as S1.
    { rewrite slice_some by (rewrite ?zlen_cons; lia). rewrite zdrop_0. rewrite ztake_cons by lia. reflexivity. }
    assert (slice data 0 n = Some (ztake (n - 1) data ++ [b])) as S2.
    { rewrite slice_some by lia. rewrite zdrop_0. f_equal.
      assert (get data (n - 1) = Some b) as GB' by (rewrite get_cons in GB by lia; exact GB).
      replace n with (n - 1 + 1) at 1 by lia. rewrite (ztake_snoc _ data (n - 1) b GB'). reflexivity. }
    assert (bytes_ok (a :: ztake (n - 1) data) /\ byte_ok b) as [B1 B2].
    { split; [constructor; [exact BA|apply bytes_ok_ztake; exact BD]|]. exact (bytes_ok_get _ _ _ B GB). }
    rewrite (hash_direct_poly n (a :: data) _ N B1 S1) in H. injection H as <-.
    rewrite update_hash_ok; auto; [|rewrite zlen_ztake by lia; lia].
    rewrite (IH n data); auto; [|lia|].
    + f_equal. rewrite Nat2Z.inj_succ. rewrite zdrop_cons by lia. f_equal. lia.
    + apply hash_direct_poly; auto. apply bytes_ok_app. split; [apply bytes_ok_ztake; exact BD|]. constructor; auto.
Qed.
