(** C69: checksums of pieces.  [adler_sum a0 l] (Spec.v) is the checksum of [l] whose
    first sum starts from [a0]: 1 in RFC 1950 and zlib, 0 in checksum.h. *)

From Verif Require Import Base ListFacts Spec Adler AdlerFacts AdlerMore.
From Coq Require Import ZifyBool ZifyNat.

(** UpdateAdler32 of the checksum so far and the next piece is the checksum of all;
    for any pieces in a row. *)
Theorem C69_update : forall a0 pieces, 0 <= a0 < 65521 -> Forall bytes_ok pieces ->
  fold_left update_adler32 pieces a0 = adler_sum a0 (concat pieces).
Proof.
  intros a0 pieces A F.
  assert (forall l s a, 0 <= a < BASE -> 0 <= s < BASE -> Forall bytes_ok l ->
    fold_left update_adler32 l (s * 65536 + a) = sum_s a s (concat l) * 65536 + sum_a a (concat l)) as G.
  { induction l as [|x l IH]; intros s a HA HS FL.
    - cbn [fold_left concat]. unfold sum_a, sum_s. cbn [byte_sum weighted_sum]. rewrite zlen_nil, !Z.mul_0_r, !Z.add_0_r, !Z.mod_small by lia. reflexivity.
    - inversion FL as [|? ? BX FL']; subst. cbn [fold_left concat]. unfold update_adler32 at 2. rewrite adler32_ok by auto.
      rewrite IH by (auto using sum_a_range, sum_s_range). rewrite sum_a_app, sum_s_app. reflexivity. }
  specialize (G pieces 0 a0 A ltac:(unfold BASE; lia) F). exact G.
Qed.
Print Assumptions C69_update.

(** The use that zlib.h documents for adler32: start with what it returns for a null
    buffer, then pass the pieces; the result is the checksum of RFC 1950. *)
Theorem C69_initial : forall x pieces, Forall bytes_ok pieces ->
  fold_left (fun o p => match o with Some a => adler32_null a (Some p) | None => None end) pieces (adler32_null x None) =
  Some (adler_sum 1 (concat pieces)).
Proof.
  intros x pieces F.
  assert (forall l s a, 0 <= a < BASE -> 0 <= s < BASE -> Forall bytes_ok l ->
    fold_left (fun o p => match o with Some a => adler32_null a (Some p) | None => None end) l (Some (s * 65536 + a)) =
    Some (sum_s a s (concat l) * 65536 + sum_a a (concat l))) as G.
  { induction l as [|y l IH]; intros s a HA HS FL.
    - cbn [fold_left concat]. unfold sum_a, sum_s. cbn [byte_sum weighted_sum]. rewrite zlen_nil, !Z.mul_0_r, !Z.add_0_r, !Z.mod_small by lia. reflexivity.
    - inversion FL as [|? ? BX FL']; subst. cbn [fold_left concat]. unfold adler32_null at 2. rewrite adler32_ok by auto.
      rewrite IH by (auto using sum_a_range, sum_s_range). rewrite sum_a_app, sum_s_app. reflexivity. }
  specialize (G pieces 0 1 ltac:(unfold BASE; lia) ltac:(unfold BASE; lia) F). exact G.
Qed.
Print Assumptions C69_initial.

(** zlib.h 1292-1299, for checksums that start from 1: the checksum of the
    concatenation from those of the parts and the length of the second. *)
Lemma sub_twice : forall x, 0 <= x < 3 * BASE ->
  (if BASE <=? (if BASE <=? x then x - BASE else x) then (if BASE <=? x then x - BASE else x) - BASE else (if BASE <=? x then x - BASE else x)) = x mod BASE.
Proof. intros x H. unfold BASE in *. destruct (Z.leb_spec 65521 x); [destruct (Z.leb_spec 65521 (x - 65521))|destruct (Z.leb_spec 65521 x)]; lia. Qed.
Lemma sub_thrice : forall x, 0 <= x < 4 * BASE ->
  (if BASE <=? (if BASE * 2 <=? x then x - BASE * 2 else x) then (if BASE * 2 <=? x then x - BASE * 2 else x) - BASE else (if BASE * 2 <=? x then x - BASE * 2 else x)) = x mod BASE.
Proof. intros x H. unfold BASE in *. destruct (Z.leb_spec (65521 * 2) x); [destruct (Z.leb_spec 65521 (x - 65521 * 2))|destruct (Z.leb_spec 65521 x)]; lia. Qed.

Lemma combine_ok : forall a1 s1 a2 s2 n, 0 <= a1 < BASE -> 0 <= s1 < BASE -> 0 <= a2 < BASE -> 0 <= s2 < BASE -> 0 <= n ->
  adler32_combine (s1 * 65536 + a1) (s2 * 65536 + a2) n =
  ((s1 + s2 + n * (a1 - 1)) mod BASE) * 65536 + (a1 + a2 - 1) mod BASE.
Proof.
  intros a1 s1 a2 s2 n A1 S1 A2 S2 N. unfold adler32_combine.
  assert (forall a s, 0 <= a < BASE -> 0 <= s < BASE -> ((s * 65536 + a) / 65536) mod 65536 = s /\ (s * 65536 + a) mod 65536 = a) as D by (unfold BASE; lia).
  destruct (D _ _ A1 S1) as [-> ->]. destruct (D _ _ A2 S2) as [-> ->]. clear D.
  set (r := n mod BASE). assert (0 <= r < BASE) as R by (apply Z.mod_pos_bound; reflexivity).
  assert (forall x, 0 <= x < 4294967296 -> ul x = x) as U by (intros x X; apply Z.mod_small; exact X).
  assert (to_uint32 r = r) as -> by (apply (U r); unfold BASE in *; lia).
  assert (0 <= r * a1 < 4294967296) as RA by (unfold BASE in *; nia).
  rewrite (U (r * a1) RA). set (m := (r * a1) mod BASE). assert (0 <= m < BASE) as M by (apply Z.mod_pos_bound; reflexivity).
  rewrite (U (a2 + BASE)) by (unfold BASE in *; lia). rewrite (U (a2 + BASE - 1)) by (unfold BASE in *; lia).
  rewrite (U (a1 + (a2 + BASE - 1))) by (unfold BASE in *; lia). rewrite (U (a1 + (a2 + BASE - 1))) by (unfold BASE in *; lia).
  rewrite (U (s1 + s2)) by (unfold BASE in *; lia). rewrite (U (s1 + s2 + BASE)) by (unfold BASE in *; lia).
  rewrite (U (s1 + s2 + BASE - r)) by (unfold BASE in *; lia). rewrite (U (m + (s1 + s2 + BASE - r))) by (unfold BASE in *; lia).
  rewrite sub_twice by (unfold BASE in *; lia). rewrite sub_thrice by (unfold BASE in *; lia).
  assert ((a1 + (a2 + BASE - 1)) mod BASE = (a1 + a2 - 1) mod BASE) as ->.
  { replace (a1 + (a2 + BASE - 1)) with (a1 + a2 - 1 + 1 * BASE) by lia. apply Z.mod_add. discriminate. }
  assert ((m + (s1 + s2 + BASE - r)) mod BASE = (s1 + s2 + n * (a1 - 1)) mod BASE) as ->.
  { unfold m. rewrite Zplus_mod_idemp_l. unfold r.
    pose proof (Z.div_mod n BASE ltac:(discriminate)) as DM. set (q := n / BASE) in *. set (k := n mod BASE) in *. clearbody q k.
    replace (s1 + s2 + n * (a1 - 1)) with (k * a1 + (s1 + s2 + BASE - k) + (q * (a1 - 1) - 1) * BASE) by nia.
    symmetry. apply Z.mod_add. discriminate. }
  apply lor_halves; [pose proof (Z.mod_pos_bound (a1 + a2 - 1) BASE eq_refl)|pose proof (Z.mod_pos_bound (s1 + s2 + n * (a1 - 1)) BASE eq_refl)]; unfold BASE in *; lia.
Qed.

Theorem C69_combine : forall x y, bytes_ok x -> bytes_ok y ->
  adler32_combine (adler_sum 1 x) (adler_sum 1 y) (zlen y) = adler_sum 1 (x ++ y).
Proof.
  intros x y BX BY. unfold adler_sum.
  rewrite combine_ok by (try apply Z.mod_pos_bound; try reflexivity; apply zlen_nonneg). fold BASE.
  rewrite byte_sum_app, weighted_sum_app, zlen_app. f_equal; [f_equal|].
  - change 65521 with BASE. rewrite (Z.mod_eq (1 * zlen x + weighted_sum x)), (Z.mod_eq (1 * zlen y + weighted_sum y)), (Z.mod_eq (1 + byte_sum x)) by discriminate.
    set (q1 := _ / BASE). set (q2 := _ / BASE). set (q3 := _ / BASE).
    rewrite <- (Z.mod_add _ (q1 + q2 + zlen y * q3)) by discriminate. f_equal. ring.
  - change 65521 with BASE. rewrite (Z.mod_eq (1 + byte_sum x)), (Z.mod_eq (1 + byte_sum y)) by discriminate.
    set (q1 := _ / BASE). set (q2 := _ / BASE).
    rewrite <- (Z.mod_add _ (q1 + q2)) by discriminate. f_equal. ring.
Qed.
Print Assumptions C69_combine.

(** The checksums that the library computes start from 0: for them adler32_combine
    does not give the checksum of the concatenation. *)
Theorem C69_combine_library_refuted : exists x y, bytes_ok x /\ bytes_ok y /\
  adler32_combine (compute_adler32 x) (compute_adler32 y) (zlen y) <> compute_adler32 (x ++ y).
Proof. exists [97], [98]. split; [apply bytes_okb_ok; reflexivity|]. split; [apply bytes_okb_ok; reflexivity|]. vm_compute. discriminate. Qed.
Print Assumptions C69_combine_library_refuted.

(** Every checksum is in the range that adler32_range announces, and its two halves
    are below 65521. *)
Theorem C69_range : forall a0 l, 0 <= a0 < 65521 -> bytes_ok l ->
  exists c, adler32 a0 l = Some c /\ fst adler32_range <= c <= snd adler32_range /\ 0 <= c mod 65536 < 65521 /\ 0 <= c / 65536 < 65521.
Proof.
  intros a0 l A B. exists (adler_sum a0 l). pose proof (adler32_ok a0 0 l B A ltac:(unfold BASE; lia)) as E. split; [exact E|].
  unfold adler_sum. pose proof (Z.mod_pos_bound (a0 * zlen l + weighted_sum l) 65521 ltac:(lia)). pose proof (Z.mod_pos_bound (a0 + byte_sum l) 65521 ltac:(lia)).
  change adler32_range with (0, 4293984240). cbn [fst snd]. lia.
Qed.
Print Assumptions C69_range.

(** RFC 1950: "Wikipedia" has the Adler-32 checksum 0x11E60398. *)
Example C69_case : adler32_null 0 None = Some 1 /\
  update_adler32 1 [87;105;107;105;112;101;100;105;97] = 300286872 /\
  fold_left update_adler32 [[87;105;107;105]; []; [112]; [101;100;105;97]] 1 = 300286872 /\
  adler32_combine (adler_sum 1 [87;105;107;105]) (adler_sum 1 [112;101;100;105;97]) 5 = 300286872.
Proof. vm_compute. auto. Qed.
