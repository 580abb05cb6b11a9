(** The address encoding chosen by EncodeAddress is the shortest. *)

From Coq Require Import ZifyBool ZifyNat.
From Verif Require Import Base Spec Varint VarintFacts AddrCache AddrCacheFacts.

(** A canonical varint is no longer than any varint of a value that is not smaller. *)
Lemma canonical_mono : forall l l' v v', varint l v -> varint l' v' -> hd 0 l <> 128 -> v <= v' -> zlen l <= zlen l'.
Proof.
  intros l l' v v' [V <-] [V' <-] H L.
  destruct l as [|b l]; [destruct V as (x & y & E & _); destruct x; discriminate|].
  pose proof (value_upper l' V') as U. rewrite zlen_cons. pose proof (zlen_nonneg _ l').
  destruct l as [|b2 l].
  - rewrite zlen_nil. destruct l' as [|z l']; [destruct V' as (x & y & E & _); destruct x; discriminate|].
    rewrite zlen_cons. pose proof (zlen_nonneg _ l'). lia.
  - cbn [hd] in H. pose proof (value_lower (b2 :: l) b V H ltac:(discriminate)) as W.
    destruct (Z.le_gt_cases (1 + zlen (b2 :: l)) (zlen l')) as [Q|Q]; [exact Q|].
    assert (128 ^ zlen l' <= 128 ^ zlen (b2 :: l)) by (apply Z.pow_le_mono_r; lia).
    change (value_from 0 (b :: b2 :: l)) with (varint_value (b :: b2 :: l)) in *.
    change (value_from 0 l') with (varint_value l') in *. lia.
Qed.

Lemma same_slot_mod : forall ss hist j, same_slot ss hist j = 0 \/ same_slot ss hist j mod (ss * 256) = j.
Proof.
  induction hist as [|a hist IH]; intros j; cbn [same_slot]; [auto|]. destruct (Z.eqb_spec (a mod (ss * 256)) j); [right; auto|apply IH].
Qed.

Lemma near_min : forall c hist address k i best, cache_rep c hist -> 0 <= i -> i + Z.of_nat k = near_size c ->
  forall best', encode_near_loop c address k i best = Some best' -> 
    snd best' <= snd best /\ (forall j, i <= j < near_size c -> 0 <= address - near_slot (near_size c) hist j ->
        snd best' <= address - near_slot (near_size c) hist j).
Proof.
  intros c hist address k i best R I K best' E.
  destruct (encode_near_loop_ok c hist address k i best R I K) as (b & E' & _ & A & B). rewrite E in E'. injection E' as <-. auto.
Qed.

Lemma shortest_address : forall c hist a here mode e c',
  cache_rep c hist -> 0 <= a < here -> here <= int32_max -> encode_address c a here = Some (mode, e, c') ->
  forall m q, addr_code (near_size c) (same_size c) hist here m q a -> zlen (addr_bytes c mode e) <= zlen q.
Proof.
  intros c hist a here mode e c' R A H E m q Q.
  destruct (encode_address_ok c hist a here R A H) as (mode2 & e2 & c2 & E2 & M2 & R2 & AC & _).
  rewrite E in E2. injection E2 as <- <- <-.
  destruct (addr_code_nonempty _ _ _ _ _ _ _ Q) as (x & y & EQ).
  assert (1 <= zlen q) as L1 by (rewrite EQ, zlen_cons; pose proof (zlen_nonneg _ y); lia). clear EQ.
  unfold addr_bytes. destruct (write_as_varint c mode) eqn:W; [|rewrite zlen_cons, zlen_nil; lia].
  assert (is_same_mode c mode = false) as NS by (unfold write_as_varint in W; destruct (is_same_mode c mode); [discriminate|reflexivity]).
  unfold encode_address in E. destruct (Z.ltb_spec a 0); [lia|]. destruct (Z.leb_spec here a); [lia|]. cbn [orb] in E.
  pose proof (cr_ns c hist R). pose proof (cr_ss c hist R). pose proof (cr_sum c hist R).
  assert (forall v' q', varint q' v' -> e <= v' -> zlen (encode_bytes I32 e) <= zlen q') as CM.
  { intros v' q' V' L. unfold encode_bytes. destruct (encode_total I32 e) as (l & -> & V & _ & HD); [left; reflexivity|exact R2|].
    eapply canonical_mono; eauto. }
  assert ((0 < same_size c -> same_slot (same_size c) hist (a mod (same_size c * 256)) <> a) /\
    exists best2, encode_near_loop c a (Z.to_nat (near_size c)) 0 (if here - a <? snd (0, a) then (1, here - a) else (0, a)) = Some best2 /\ e = snd best2) as (NSA & b2 & EL & ->).
  { destruct (Z.ltb_spec 0 (same_size c)) as [P|P].
    - assert (0 <= a mod (same_size c * 256) < same_size c * 256) as MB by (apply Z.mod_pos_bound; lia).
      rewrite (cr_same c hist R) in E by exact MB.
      destruct (Z.eqb_spec (same_slot (same_size c) hist (a mod (same_size c * 256))) a) as [ES|ES].
      + exfalso. cbv zeta in E. destruct (update_cache c a); [|discriminate]. injection E as EM _ _.
        rewrite (first_same_mode_id c hist R) in EM.
        assert (0 <= a mod (same_size c * 256) / 256 < same_size c) by (split; [apply Z.div_pos; lia|apply Z.div_lt_upper_bound; lia]).
        rewrite (to_uchar_id (_ / 256)) in EM by lia. rewrite to_uchar_id in EM by lia.
        assert (is_same_mode c mode = true) by (apply (is_same_mode_iff c hist); auto; lia). congruence.
      + split; [auto|]. destruct (encode_near_loop _ _ _ _ _) as [b|]; [|discriminate].
        destruct (update_cache c a); [|discriminate]. exists b. split; [reflexivity|]. congruence.
    - split; [lia|]. destruct (encode_near_loop _ _ _ _ _) as [b|]; [|discriminate].
      destruct (update_cache c a); [|discriminate]. exists b. split; [reflexivity|]. congruence. }
  apply (near_min c hist) in EL; [|exact R|lia|lia]. destruct EL as [L0 LN].
  assert (snd b2 <= a /\ snd b2 <= here - a) as (LA & LH).
  { cbn [snd] in L0. destruct (Z.ltb_spec (here - a) a); cbn [snd] in L0; lia. }
  inversion Q; subst.
  - eapply CM; eauto.
  - eapply CM; [eassumption|]. lia.
  - eapply CM; [eassumption|]. match goal with X : varint q _ |- _ => pose proof (varint_nonneg _ _ X) end.
    match goal with X : 0 <= i < near_size c |- _ => specialize (LN i X) end. lia.
  - destruct (same_slot_mod (same_size c) hist (k * 256 + b)) as [Z0|Z0].
    + eapply Z.le_trans; [apply (CM 0 [0]); [|lia]|rewrite !zlen_cons, zlen_nil; lia].
      split; [|reflexivity]. apply is_varint_one. lia.
    + exfalso. apply NSA; [lia|]. rewrite Z0. reflexivity.
Qed.
