(** Facts about the Adler-32 code: nothing wraps, and the result is the
    mathematical one. *)

From Verif Require Import Base Spec Adler.
From Coq Require Import ZifyBool ZifyNat.

Lemma byte_sum_app : forall a b, byte_sum (a ++ b) = byte_sum a + byte_sum b.
Proof. induction a as [|x a IH]; intros b; cbn [byte_sum app]; [lia|]. rewrite IH. lia. Qed.
Lemma weighted_sum_app : forall a b,
  weighted_sum (a ++ b) = weighted_sum a + zlen b * byte_sum a + weighted_sum b.
Proof.
  induction a as [|x a IH]; intros b; cbn [byte_sum weighted_sum app]; [lia|].
  rewrite IH, !zlen_cons, zlen_app. nia.
Qed.

Lemma byte_sum_bound : forall l, bytes_ok l -> 0 <= byte_sum l <= 255 * zlen l.
Proof.
  induction 1 as [|b l B F IH]; cbn [byte_sum]; [rewrite zlen_nil; lia|].
  rewrite zlen_cons. unfold byte_ok in B. lia.
Qed.
Lemma weighted_sum_bound : forall l, bytes_ok l -> 0 <= 2 * weighted_sum l <= 255 * (zlen l * (zlen l + 1)).
Proof.
  induction 1 as [|b l B F IH]; cbn [weighted_sum]; [rewrite zlen_nil; lia|].
  rewrite zlen_cons. unfold byte_ok in B. pose proof (zlen_nonneg _ l). nia.
Qed.

Lemma do_bytes_ok : forall l a s, bytes_ok l -> 0 <= a -> 0 <= s ->
  a + 255 * zlen l < 4294967296 ->
  2 * s + 2 * zlen l * a + 255 * (zlen l * (zlen l + 1)) < 2 * 4294967296 ->
  do_bytes l a s = (a + byte_sum l, s + zlen l * a + weighted_sum l).
Proof.
  induction l as [|b l IH]; intros a s B A S L1 L2; cbn [do_bytes byte_sum weighted_sum].
  - rewrite zlen_nil. f_equal; lia.
  - apply bytes_ok_cons in B as [Bb B]. unfold byte_ok in Bb. rewrite zlen_cons in *.
    pose proof (zlen_nonneg _ l). set (n := zlen l) in *.
    assert (ul (a + b) = a + b) as E1 by (unfold ul, to_uint32; apply Z.mod_small; lia).
    rewrite E1.
    assert (s + (a + b) < 4294967296) by nia.
    assert (ul (s + (a + b)) = s + (a + b)) as E2 by (unfold ul, to_uint32; apply Z.mod_small; lia).
    rewrite E2. rewrite IH; auto; try lia; [|nia].
    fold n. f_equal; nia.
Qed.

(** The sums started from [(a0, s0)]. *)
Definition sum_a (a0 : Z) (l : list Z) : Z := (a0 + byte_sum l) mod BASE.
Definition sum_s (a0 s0 : Z) (l : list Z) : Z := (s0 + a0 * zlen l + weighted_sum l) mod BASE.

Lemma sum_a_range : forall a l, 0 <= sum_a a l < BASE.
Proof. intros. unfold sum_a. apply Z.mod_pos_bound. reflexivity. Qed.
Lemma sum_s_range : forall a s l, 0 <= sum_s a s l < BASE.
Proof. intros. unfold sum_s. apply Z.mod_pos_bound. reflexivity. Qed.

Lemma sum_a_app : forall a x y, sum_a (sum_a a x) y = sum_a a (x ++ y).
Proof.
  intros. unfold sum_a. rewrite byte_sum_app. rewrite Zplus_mod_idemp_l. f_equal. lia.
Qed.
Lemma sum_s_app : forall a s x y, sum_s (sum_a a x) (sum_s a s x) y = sum_s a s (x ++ y).
Proof.
  intros. unfold sum_s, sum_a. rewrite weighted_sum_app, zlen_app.
  rewrite <- Z.add_assoc. rewrite Zplus_mod_idemp_l.
  rewrite (Z.add_comm (_ * zlen y)). rewrite !Z.add_assoc.
  rewrite Z.add_mod by (unfold BASE; lia). rewrite Zmult_mod_idemp_l.
  rewrite <- Z.add_mod by (unfold BASE; lia). f_equal. lia.
Qed.

Lemma small_blocks : forall l a s, bytes_ok l -> zlen l <= NMAX -> 0 <= a < BASE -> 0 <= s < BASE ->
  do_bytes l a s = (a + byte_sum l, s + zlen l * a + weighted_sum l).
Proof.
  intros l a s B L A S. pose proof (zlen_nonneg _ l). unfold NMAX, BASE in *.
  assert (zlen l * (zlen l + 1) <= 5552 * 5553) by nia.
  assert (zlen l * a <= 5552 * 65520) by nia.
  apply do_bytes_ok; auto; nia.
Qed.

Lemma adler_blocks_ok : forall fuel l a s, bytes_ok l -> (length l < fuel)%nat ->
  0 <= a < BASE -> 0 <= s < BASE ->
  adler_blocks fuel l a s = Some (sum_a a l, sum_s a s l).
Proof.
  induction fuel as [|fuel IH]; intros l a s B F A S; [lia|]. cbn [adler_blocks].
  destruct (Z.leb_spec NMAX (zlen l)) as [L|L].
  - assert (zlen (ztake NMAX l) = NMAX) as ZL by (rewrite zlen_ztake by (unfold NMAX; lia); lia).
    rewrite small_blocks; auto; [|apply bytes_ok_ztake; auto|lia].
    rewrite IH; auto.
    + assert (sum_a a l = sum_a (sum_a a (ztake NMAX l)) (zdrop NMAX l)) as ->
        by (rewrite sum_a_app, ztake_zdrop; reflexivity).
      assert (sum_s a s l = sum_s (sum_a a (ztake NMAX l)) (sum_s a s (ztake NMAX l)) (zdrop NMAX l)) as ->
        by (rewrite sum_s_app, ztake_zdrop; reflexivity).
      assert ((s + zlen (ztake NMAX l) * a + weighted_sum (ztake NMAX l)) mod BASE = sum_s a s (ztake NMAX l)) as ->
        by (unfold sum_s; rewrite (Z.mul_comm a); reflexivity).
      reflexivity.
    + apply bytes_ok_zdrop; auto.
    + pose proof (ztake_zdrop _ NMAX l) as E. rewrite <- E in F. rewrite app_length in F.
      change (zlen (ztake NMAX l)) with (zlen (ztake NMAX l)) in ZL.
      assert (length (ztake NMAX l) <> 0%nat).
      { intros E0. destruct (ztake NMAX l); [rewrite zlen_nil in ZL; unfold NMAX in ZL; lia|discriminate]. }
      lia.
    + apply Z.mod_pos_bound. reflexivity.
    + apply Z.mod_pos_bound. reflexivity.
  - destruct l as [|b l].
    + unfold sum_a, sum_s. cbn [byte_sum weighted_sum]. rewrite zlen_nil.
      rewrite !Z.mul_0_r, !Z.add_0_r. rewrite !Z.mod_small by lia. reflexivity.
    + rewrite small_blocks; auto; [|lia]. unfold sum_a, sum_s. rewrite (Z.mul_comm a). reflexivity.
Qed.

Lemma lor_halves : forall a s, 0 <= a < 65536 -> 0 <= s < 65536 -> Z.lor a (ul (s * 65536)) = s * 65536 + a.
Proof.
  intros a s A S. unfold ul, to_uint32. rewrite Z.mod_small by lia.
  assert (Z.land a (s * 65536) = 0) as E.
  { apply Z.bits_inj'. intros n N. rewrite Z.land_spec, Z.bits_0.
    change 65536 with (2 ^ 16). destruct (Z.ltb_spec n 16).
    - rewrite Z.mul_pow2_bits_low by lia. apply andb_false_r.
    - replace a with (a mod 2 ^ 16) by (apply Z.mod_small; lia).
      rewrite Z.mod_pow2_bits_high by lia. reflexivity. }
  rewrite <- Z.lxor_lor by exact E. rewrite <- Z.add_nocarry_lxor by exact E. lia.
Qed.

(** The implementation computes the two sums, whatever it is started from. *)
Lemma adler32_ok : forall a s l, bytes_ok l -> 0 <= a < BASE -> 0 <= s < BASE ->
  adler32 (s * 65536 + a) l = Some (sum_s a s l * 65536 + sum_a a l).
Proof.
  intros a s l B A S. unfold adler32.
  assert (((s * 65536 + a) / 65536) mod 65536 = s) as E1 by (unfold BASE in *; lia).
  assert ((s * 65536 + a) mod 65536 = a) as E2 by (unfold BASE in *; lia).
  rewrite E1, E2. clear E1 E2.
  pose proof (sum_a_range a l) as RA. pose proof (sum_s_range a s l) as RS.
  destruct (Z.eqb_spec (zlen l) 1) as [L1|L1].
  - destruct l as [|b [|c l]]; [rewrite zlen_nil in L1; lia| |rewrite !zlen_cons in L1; pose proof (zlen_nonneg _ l); lia].
    cbn [hd]. apply bytes_ok_cons in B as [Bb _]. unfold byte_ok in Bb.
    assert (ul (a + b) = a + b) as E1 by (unfold ul, to_uint32, BASE in *; apply Z.mod_small; lia). rewrite E1.
    assert ((if BASE <=? a + b then a + b - BASE else a + b) = sum_a a [b]) as E3.
    { unfold sum_a. cbn [byte_sum]. unfold BASE in *. destruct (Z.leb_spec 65521 (a + b)); lia. }
    rewrite E3. clear E1.
    assert (ul (s + sum_a a [b]) = s + sum_a a [b]) as E1 by (unfold ul, to_uint32, BASE in *; apply Z.mod_small; lia). rewrite E1.
    assert ((if BASE <=? s + sum_a a [b] then s + sum_a a [b] - BASE else s + sum_a a [b]) = sum_s a s [b]) as E4.
    { unfold sum_s. cbn [weighted_sum]. rewrite !zlen_cons, zlen_nil.
      replace (s + a * (1 + 0) + ((1 + 0) * b + 0)) with (s + (a + b)) by lia.
      transitivity ((s + sum_a a [b]) mod BASE).
      - unfold BASE in *. destruct (Z.leb_spec 65521 (s + sum_a a [b])); lia.
      - unfold sum_a. cbn [byte_sum]. rewrite Zplus_mod_idemp_r. f_equal. lia. }
    rewrite E4. f_equal. apply lor_halves; unfold BASE in *; lia.
  - destruct (Z.ltb_spec (zlen l) 16) as [L2|L2].
    + rewrite small_blocks by (auto; unfold NMAX; lia).
      pose proof (byte_sum_bound l B).
      assert ((if BASE <=? a + byte_sum l then a + byte_sum l - BASE else a + byte_sum l) = sum_a a l) as E3.
      { unfold sum_a. unfold BASE in *. destruct (Z.leb_spec 65521 (a + byte_sum l)); lia. }
      rewrite E3. rewrite (Z.mul_comm (zlen l)). fold (sum_s a s l).
      f_equal. apply lor_halves; unfold BASE in *; lia.
    + rewrite adler_blocks_ok by (auto; lia). f_equal. apply lor_halves; unfold BASE in *; lia.
Qed.

Lemma compute_adler32_ok : forall l, bytes_ok l -> compute_adler32 l = adler_sum 0 l.
Proof.
  intros l B. unfold compute_adler32. rewrite (adler32_ok 0 0) by (auto; unfold BASE; lia).
  unfold adler_sum, sum_a, sum_s, BASE. f_equal. 
Qed.

Lemma adler_sum_range : forall a l, 0 <= adler_sum a l < 4294967296.
Proof.
  intros. unfold adler_sum.
  pose proof (Z.mod_pos_bound (a * zlen l + weighted_sum l) 65521 ltac:(lia)).
  pose proof (Z.mod_pos_bound (a + byte_sum l) 65521 ltac:(lia)). lia.
Qed.
