(** Lemmas about the address cache model. *)
From Coq Require Import ZifyBool ZifyNat.
From Verif Require Import Base Spec Varint VarintFacts AddrCache.
Ltac Zify.zify_post_hook ::= Z.div_mod_to_equations.

(** [c] is the cache after the addresses [hist] (most recent first).  Sizes 254
    and 0 pass Init but are excluded: FirstSameMode then wraps to 0 and LastMode
    to 255, so that every mode is taken for a SAME mode (see
    [near_254_decode_ub] below). *)
Record cache_rep (c : cache) (hist : list Z) : Prop := {
  cr_ns : 0 <= near_size c;
  cr_ss : 0 <= same_size c;
  cr_sum : near_size c + same_size c <= 254;
  cr_n253 : near_size c <= 253;
  cr_nlen : zlen (near_a c) = near_size c;
  cr_slen : zlen (same_a c) = same_size c * 256;
  cr_next : 0 < near_size c -> next_slot c = zlen hist mod near_size c;
  cr_next0 : near_size c = 0 -> next_slot c = 0;
  cr_near : forall i, 0 <= i < near_size c ->
              get (near_a c) i = Some (near_slot (near_size c) hist i);
  cr_same : forall j, 0 <= j < same_size c * 256 ->
              get (same_a c) j = Some (same_slot (same_size c) hist j);
  cr_hist : Forall (fun a => 0 <= a <= int32_max) hist
}.

Lemma near_slot_range : forall k hist i, Forall (fun a => 0 <= a <= int32_max) hist ->
  0 <= near_slot k hist i <= int32_max.
Proof.
  induction hist; intros i F; cbn [near_slot]; [unfold int32_max; lia|].
  inversion F; subst. destruct (_ =? _); auto.
Qed.
Lemma same_slot_range : forall k hist i, Forall (fun a => 0 <= a <= int32_max) hist ->
  0 <= same_slot k hist i <= int32_max.
Proof.
  induction hist; intros i F; cbn [same_slot]; [unfold int32_max; lia|].
  inversion F; subst. destruct (_ =? _); auto.
Qed.

Lemma get_zrepeat : forall (x n i : Z), 0 <= i < n -> get (zrepeat x n) i = Some x.
Proof.
  intros. destruct (get_some _ (zrepeat x n) i) as [y Hy].
  - rewrite zlen_zrepeat; lia.
  - rewrite Hy. f_equal. assert (Forall (fun z => z = x) (zrepeat x n)) as F.
    { unfold zrepeat. apply Forall_forall. intros z Hz. apply repeat_spec in Hz. auto. }
    apply (Forall_get _ _ _ _ _ F Hy).
Qed.

Lemma cache_init_rep : forall ns ss c, 0 <= ns <= 253 -> 0 <= ss -> cache_init ns ss = Some c ->
  cache_rep c [] /\ near_size c = ns /\ same_size c = ss.
Proof.
  intros ns ss c N S H. unfold cache_init in H. destruct (Z.ltb_spec 254 (ns + ss)); [discriminate|].
  injection H as <-. split; [|split; reflexivity]. constructor; cbn [near_size same_size next_slot near_a same_a]; try lia.
  - apply zlen_zrepeat; lia.
  - apply zlen_zrepeat; lia.
  - intros. rewrite zlen_nil. rewrite Z.mod_0_l; lia.
  - intros. cbn. apply get_zrepeat; lia.
  - intros. cbn. apply get_zrepeat; lia.
  - constructor.
Qed.

Lemma cache_init_some : forall ns ss, 0 <= ns -> 0 <= ss -> ns + ss <= 254 -> exists c, cache_init ns ss = Some c.
Proof. intros. unfold cache_init. destruct (Z.ltb_spec 254 (ns + ss)); [lia|]. eauto. Qed.

Lemma next_slot_step : forall n k, 0 < k -> 0 <= n -> (n mod k + 1) mod k = (1 + n) mod k.
Proof. intros. rewrite Z.add_mod_idemp_l by lia. f_equal. lia. Qed.

Lemma update_rep : forall c hist a, cache_rep c hist -> 0 <= a <= int32_max ->
  exists c', update_cache c a = Some c' /\ cache_rep c' (a :: hist) /\
    near_size c' = near_size c /\ same_size c' = same_size c.
Proof.
  intros c hist a R A. destruct R. unfold update_cache.
  assert (exists near' slot',
    (if 0 <? near_size c
         then match put (near_a c) (next_slot c) a with
              | Some l => Some (l, (next_slot c + 1) mod near_size c)
              | None => None
              end
         else Some (near_a c, next_slot c)) = Some (near', slot') /\
    zlen near' = near_size c /\
    (0 < near_size c -> slot' = zlen (a :: hist) mod near_size c) /\
    (near_size c = 0 -> slot' = 0) /\
    (forall i, 0 <= i < near_size c ->
              get near' i = Some (near_slot (near_size c) (a :: hist) i))) as HN.
  { destruct (Z.ltb_spec 0 (near_size c)) as [P|P].
    - destruct (put_some _ (near_a c) (next_slot c) a) as [l Hl].
      { rewrite cr_nlen0. rewrite (cr_next1 P). apply Z.mod_pos_bound. lia. }
      rewrite Hl. apply put_inv in Hl as (HR & HL & HG & HO).
      eexists _, _. split; [reflexivity|]. split; [lia|]. split; [|split].
      + intros _. rewrite (cr_next1 P). rewrite zlen_cons. apply next_slot_step; auto. apply zlen_nonneg.
      + lia.
      + intros i I. cbn [near_slot]. destruct (Z.eqb_spec (zlen hist mod near_size c) i) as [E|E].
        * rewrite (cr_next1 P) in HG. rewrite <- E. exact HG.
        * rewrite HO. apply cr_near0; lia. rewrite (cr_next1 P). congruence.
    - eexists _, _. split; [reflexivity|]. split; [lia|]. split; [lia|]. split; [intros; auto|]. intros i I. lia. }
  assert (exists same',
     (if 0 <? same_size c
             then put (same_a c) (a mod (same_size c * 256)) a
             else Some (same_a c)) = Some same' /\
     zlen same' = same_size c * 256 /\
     (forall j, 0 <= j < same_size c * 256 ->
              get same' j = Some (same_slot (same_size c) (a :: hist) j))) as HS.
  { destruct (Z.ltb_spec 0 (same_size c)) as [P|P].
    - destruct (put_some _ (same_a c) (a mod (same_size c * 256)) a) as [l Hl].
      { rewrite cr_slen0. apply Z.mod_pos_bound. lia. }
      rewrite Hl. apply put_inv in Hl as (HR & HL & HG & HO).
      eexists. split; [reflexivity|]. split; [lia|].
      intros j J. cbn [same_slot]. destruct (Z.eqb_spec (a mod (same_size c * 256)) j) as [E|E].
      + rewrite <- E. exact HG.
      + rewrite HO by congruence. apply cr_same0; lia.
    - eexists. split; [reflexivity|]. split; [lia|]. intros; lia. }
  destruct HN as (near' & slot' & -> & N1 & N2 & N3 & N4).
  destruct HS as (same' & -> & S1 & S2).
  eexists. split; [reflexivity|]. cbn [near_size same_size]. split; [|auto].
  constructor; cbn [near_size same_size next_slot near_a same_a]; auto.
Qed.

Lemma first_same_mode_id : forall c hist, cache_rep c hist -> first_same_mode (near_size c) = 2 + near_size c.
Proof. intros c hist []. unfold first_same_mode. apply to_uchar_id. lia. Qed.
Lemma is_same_mode_iff : forall c hist mode, cache_rep c hist ->
  is_same_mode c mode = true <-> (2 + near_size c <= mode < 2 + near_size c + same_size c).
Proof.
  intros c hist mode R. unfold is_same_mode, last_mode. rewrite (first_same_mode_id c hist R). destruct R.
  unfold to_uchar. rewrite Z.mod_small by lia. lia.
Qed.
Lemma is_near_mode_iff : forall c hist mode, cache_rep c hist ->
  is_near_mode c mode = true <-> (2 <= mode < 2 + near_size c).
Proof.
  intros c hist mode R. unfold is_near_mode. rewrite (first_same_mode_id c hist R). lia.
Qed.

Lemma finish_ok : forall c hist here a (rest : list Z) (r : res (Z * list Z * cache)),
  cache_rep c hist -> here <= int32_max -> 
  r = (if decoded_address_valid a here then
        match update_cache c a with
        | Some c' => Ok (a, rest, c')
        | None => UB
        end
      else Err) ->
  (0 <= a < here /\ exists c', r = Ok (a, rest, c') /\ cache_rep c' (a :: hist) /\
     near_size c' = near_size c /\ same_size c' = same_size c) \/ (~ (0 <= a < here) /\ r = Err).
Proof.
  intros c hist here a rest r R H ->. unfold decoded_address_valid.
  destruct (Z.leb_spec 0 a); cbn [andb]; [|right; split; [lia|reflexivity]].
  destruct (Z.ltb_spec a here); [|right; split; [lia|reflexivity]].
  left. split; [lia|]. destruct (update_rep c hist a R) as (c' & -> & R'); [lia|]. eauto.
Qed.

Lemma to_int32_over : forall x, int32_max < x <= 2 * int32_max -> to_int32 x < 0.
Proof. unfold to_int32, int32_max. intros. lia. Qed.

Definition addr_spec (c : cache) (hist : list Z) (here mode : Z) (stream : list Z) (r : res (Z * list Z * cache)) : Prop :=
  match r with
  | Ok (a, rest, c') =>
      exists p, stream = p ++ rest /\ addr_code (near_size c) (same_size c) hist here mode p a /\
        cache_rep c' (a :: hist) /\ near_size c' = near_size c /\ same_size c' = same_size c
  | UB => False
  | _ => True
  end.

Lemma decode_address_sound : forall c hist here mode stream,
  cache_rep c hist -> bytes_ok stream -> here <= int32_max ->
  addr_spec c hist here mode stream (decode_address c here mode stream).
Proof.
  intros c hist here mode stream R B H. unfold decode_address.
  destruct (Z.ltb_spec here 0); [exact I|].
  destruct stream as [|b tl]; [exact I|].
  apply bytes_ok_cons in B as B'. destruct B' as [Bb Bt].
  destruct (is_same_mode c mode) eqn:SM.
  - apply (is_same_mode_iff c hist) in SM; auto. rewrite (first_same_mode_id c hist R).
    pose proof (cr_same c hist R ((mode - (2 + near_size c)) * 256 + b)) as G.
    unfold byte_ok in Bb. rewrite G by nia.
    match goal with |- addr_spec _ _ _ _ _ ?r => remember r as r0 eqn:E end.
    apply finish_ok with (hist := hist) in E; auto. destruct E as [(V & c' & -> & R' & S1 & S2)|(V & ->)]; cbn; [|exact I].
    exists [b]. split; [reflexivity|]. split; [|auto].
    replace mode with (2 + near_size c + (mode - (2 + near_size c))) at 1 by lia.
    apply addr_same; auto; try lia.
  - destruct (parse I32 (b :: tl)) as [[e rest]| | |] eqn:P; try exact I.
    2: { exfalso. exact (parse_not_ub _ _ P). }
    apply parse_inv in P as (p & E & V & W); auto; [|left; reflexivity].
    destruct (Z.eqb_spec mode 0) as [->|M0].
    { match goal with |- addr_spec _ _ _ _ _ ?r => remember r as r0 eqn:E0 end.
      apply finish_ok with (hist := hist) in E0; auto. destruct E0 as [(V0 & c' & -> & R' & S1 & S2)|(V0 & ->)]; cbn; [|exact I].
      exists p. rewrite E. split; [reflexivity|]. split; [|auto]. apply addr_self; auto. }
    destruct (Z.eqb_spec mode 1) as [->|M1].
    { match goal with |- addr_spec _ _ _ _ _ ?r => remember r as r0 eqn:E0 end.
      apply finish_ok with (hist := hist) in E0; auto. destruct E0 as [(V0 & c' & -> & R' & S1 & S2)|(V0 & ->)]; cbn; [|exact I].
      exists p. rewrite E. split; [reflexivity|]. split; [|auto]. eapply addr_here; eauto. }
    destruct (is_near_mode c mode) eqn:NM; [|exact I].
    apply (is_near_mode_iff c hist) in NM; auto.
    rewrite (cr_near c hist R) by lia.
    set (na := near_slot (near_size c) hist (mode - 2)).
    assert (0 <= na <= int32_max) as NR by (apply near_slot_range; destruct R; auto).
    match goal with |- addr_spec _ _ _ _ _ ?r => remember r as r0 eqn:E0 end.
    apply finish_ok with (hist := hist) in E0; auto. destruct E0 as [(V0 & c' & -> & R' & S1 & S2)|(V0 & ->)]; cbn; [|exact I].
    change (kMaxVal I32) with int32_max in W.
    assert (na + e <= int32_max).
    { destruct (Z.le_gt_cases (na + e) int32_max); auto. pose proof (to_int32_over (na + e)). lia. }
    rewrite to_int32_id in * by lia.
    exists p. rewrite E. split; [reflexivity|]. split; [|auto].
    replace mode with (2 + (mode - 2)) at 1 by lia.
    eapply addr_near; eauto. lia.
Qed.

Lemma parse_nonempty : forall p a, varint p a -> exists b tl, p = b :: tl.
Proof. intros p a [V _]. destruct p; [exfalso; eapply is_varint_nil; eauto|]. eauto. Qed.

Lemma addr_code_nonempty : forall ns ss hist here mode p a, addr_code ns ss hist here mode p a -> exists b tl, p = b :: tl.
Proof. intros. destruct H; eauto using parse_nonempty. Qed.

Lemma varint_nonneg : forall p v, varint p v -> 0 <= v.
Proof. intros p v [_ <-]. pose proof (value_from_ge p 0). unfold value_from in *. unfold varint_value. lia. Qed.

Lemma decode_address_complete : forall c hist here mode p a rest,
  cache_rep c hist -> 0 <= here <= int32_max ->
  addr_code (near_size c) (same_size c) hist here mode p a ->
  exists c', decode_address c here mode (p ++ rest) = Ok (a, rest, c') /\ cache_rep c' (a :: hist) /\
    near_size c' = near_size c /\ same_size c' = same_size c.
Proof.
  intros c hist here mode p a rest R H A.
  destruct (addr_code_nonempty _ _ _ _ _ _ _ A) as (b & tl & Ep).
  assert (forall a : Z, 0 <= a < here -> exists c',
     (if decoded_address_valid a here then
        match update_cache c a with
        | Some c' => Ok (a, rest, c')
        | None => UB
        end
      else Err) = Ok (a, rest, c') /\ cache_rep c' (a :: hist) /\ near_size c' = near_size c /\ same_size c' = same_size c) as FIN.
  { intros x X. unfold decoded_address_valid. destruct (update_rep c hist x R) as (c' & -> & R' & S); [lia|].
    exists c'. destruct (Z.leb_spec 0 x); [|lia]. destruct (Z.ltb_spec x here); [|lia]. cbn. auto. }
  unfold decode_address. destruct (Z.ltb_spec here 0); [lia|].
  assert (forall q v (c0 : Z) l, varint q v -> v <= int32_max -> q ++ rest = c0 :: l -> parse I32 (c0 :: l) = Ok (v, rest)) as PK.
  { intros q v c0 l V L E. rewrite <- E. apply parse_ok; auto. left; reflexivity. }
  destruct A as [q a V RA|q e a V -> RA|i q e a I V -> RA|k b0 a K BK -> RA].
  - replace (is_same_mode c 0) with false.
    2: { symmetry. apply not_true_is_false. rewrite (is_same_mode_iff c hist); auto. destruct R; lia. }
    subst q. cbn [app]. erewrite PK; eauto; [|lia]. apply FIN; auto.
  - pose proof (varint_nonneg _ _ V).
    replace (is_same_mode c 1) with false.
    2: { symmetry. apply not_true_is_false. rewrite (is_same_mode_iff c hist); auto. destruct R; lia. }
    subst q. cbn [app]. erewrite PK; eauto; [|lia]. cbn [Z.eqb]. apply FIN; auto.
  - pose proof (varint_nonneg _ _ V).
    assert (0 <= near_slot (near_size c) hist i <= int32_max) as NR by (apply near_slot_range; destruct R; auto).
    replace (is_same_mode c (2 + i)) with false.
    2: { symmetry. apply not_true_is_false. rewrite (is_same_mode_iff c hist); auto. lia. }
    subst q. cbn [app]. erewrite PK; eauto; [|lia].
    destruct (Z.eqb_spec (2 + i) 0); [lia|]. destruct (Z.eqb_spec (2 + i) 1); [lia|].
    replace (is_near_mode c (2 + i)) with true.
    2: { symmetry. rewrite (is_near_mode_iff c hist); auto. lia. }
    replace (2 + i - 2) with i by lia. rewrite (cr_near c hist R) by lia.
    rewrite to_int32_id by lia. apply FIN; auto.
  - replace (is_same_mode c (2 + near_size c + k)) with true.
    2: { symmetry. rewrite (is_same_mode_iff c hist); auto. lia. }
    injection Ep as <- <-. cbn [app]. rewrite (first_same_mode_id c hist R).
    replace (2 + near_size c + k - (2 + near_size c)) with k by lia.
    unfold byte_ok in BK. rewrite (cr_same c hist R) by nia. apply FIN; auto.
Qed.

(** Appending data to the stream does not change any result but Eod. *)
Lemma decode_address_app : forall c here mode s t,
  decode_address c here mode s <> Eod ->
  decode_address c here mode (s ++ t) =
  match decode_address c here mode s with Ok (a, rest, c') => Ok (a, rest ++ t, c') | x => x end.
Proof.
  intros c here mode s t N. unfold decode_address in *.
  destruct (here <? 0); [reflexivity|].
  destruct s as [|b tl]; [congruence|]. cbn [app].
  assert (forall a r, 
     (if decoded_address_valid a here then
        match update_cache c a with
        | Some c' => Ok (a, r ++ t, c')
        | None => UB
        end
      else Err) = match (if decoded_address_valid a here then
        match update_cache c a with
        | Some c' => Ok (a, r, c')
        | None => UB
        end
      else Err) with  Ok (a, rest, c') => Ok (a, rest ++ t, c') | x => x end) as FIN.
  { intros. destruct (decoded_address_valid a here); [|reflexivity]. destruct (update_cache c a); reflexivity. }
  destruct (is_same_mode c mode).
  - destruct (get _ _); [|reflexivity]. apply FIN.
  - destruct (parse I32 (b :: tl)) as [[e rest]| | |] eqn:P; [| congruence | |].
    + change (b :: tl ++ t) with ((b :: tl) ++ t). rewrite (parse_app _ _ t _ P) by discriminate.
      destruct (mode =? 0); [apply FIN|]. destruct (mode =? 1); [apply FIN|].
      destruct (is_near_mode c mode); [|reflexivity]. destruct (get _ _); [|reflexivity]. apply FIN.
    + change (b :: tl ++ t) with ((b :: tl) ++ t). rewrite (parse_app _ _ t _ P) by discriminate. reflexivity.
    + exfalso. exact (parse_not_ub _ _ P).
Qed.

(** *** Encoding *)

Lemma encode_near_loop_ok : forall c hist address k i best,
  cache_rep c hist -> 0 <= i -> i + Z.of_nat k = near_size c -> 
  exists best', encode_near_loop c address k i best = Some best' /\
    (best' = best \/ exists j, i <= j < near_size c /\ fst best' = 2 + j /\
       snd best' = address - near_slot (near_size c) hist j /\ 0 <= snd best') /\
    snd best' <= snd best /\
    (forall j, i <= j < near_size c -> 0 <= address - near_slot (near_size c) hist j ->
        snd best' <= address - near_slot (near_size c) hist j).
Proof.
  intros c hist address k. induction k as [|k IH]; intros i best R I K; cbn [encode_near_loop].
  - exists best. split; [reflexivity|]. split; [auto|]. split; [lia|]. intros; lia.
  - rewrite (cr_near c hist R) by lia.
    set (e := address - near_slot (near_size c) hist i).
    destruct (IH (i + 1) (if (0 <=? e) && (e <? snd best) then (to_uchar (2 + i), e) else best) R) as (best' & -> & C & L & M); [lia|lia|].
    exists best'. split; [reflexivity|].
    destruct R.
    destruct ((0 <=? e) && (e <? snd best)) eqn:Q.
    + cbn [snd] in *. rewrite to_uchar_id in * by lia. split; [|split].
      * destruct C as [->|(j & J1 & J2 & J3)].
        -- right. exists i. cbn. repeat split; lia.
        -- right. exists j. repeat split; try tauto; lia.
      * lia.
      * intros j J P. destruct (Z.eq_dec i j) as [<-|NE]; [exact L|]. apply M; lia.
    + split; [|split; [lia|]].
      * destruct C as [->|(j & J1 & J2 & J3)]; [auto|]. right. exists j. repeat split; try tauto; lia.
      * intros j J P. destruct (Z.eq_dec i j) as [<-|NE]; [lia|]. apply M; lia.
Qed.

Lemma write_as_varint_false : forall c hist mode, cache_rep c hist -> write_as_varint c mode = false -> 
  2 + near_size c <= mode < 2 + near_size c + same_size c.
Proof. intros c hist mode R W. unfold write_as_varint in W. apply (is_same_mode_iff c hist); auto. destruct (is_same_mode c mode); auto. Qed.
Lemma write_as_varint_true : forall c hist mode, cache_rep c hist -> mode < 2 + near_size c -> write_as_varint c mode = true.
Proof. intros c hist mode R W. unfold write_as_varint. destruct (is_same_mode c mode) eqn:E; auto. apply (is_same_mode_iff c hist) in E; auto. lia. Qed.

Lemma encode_address_ok : forall c hist a here,
  cache_rep c hist -> 0 <= a < here -> here <= int32_max ->
  exists mode e c', encode_address c a here = Some (mode, e, c') /\
    0 <= mode < 2 + near_size c + same_size c /\ 0 <= e <= int32_max /\
    addr_code (near_size c) (same_size c) hist here mode (addr_bytes c mode e) a /\
    cache_rep c' (a :: hist) /\ near_size c' = near_size c /\ same_size c' = same_size c.
Proof.
  intros c hist a here R A H. unfold encode_address.
  destruct (Z.ltb_spec a 0); [lia|]. destruct (Z.leb_spec here a); [lia|]. cbn [orb].
  destruct (update_rep c hist a R) as (c' & U & R' & S1 & S2); [lia|]. rewrite U.
  pose proof (cr_ns c hist R). pose proof (cr_ss c hist R). pose proof (cr_sum c hist R).
  assert (exists mode e,
     match encode_near_loop c a (Z.to_nat (near_size c)) 0 
        (if here - a <? snd (0, a) then (1, here - a) else (0,a)) with
        | Some best2 => Some (fst best2, snd best2, c')
        | None => None
        end = Some (mode, e, c') /\ 0 <= mode < 2 + near_size c + same_size c /\ 0 <= e <= int32_max /\ 
        addr_code (near_size c) (same_size c) hist here mode (addr_bytes c mode e) a) as NS.
  { destruct (encode_near_loop_ok c hist a (Z.to_nat (near_size c)) 0 
        (if here - a <? snd (0, a) then (1, here - a) else (0,a)) R) as (b' & -> & C & L & M); [lia|lia|].
    exists (fst b'), (snd b'). split; [reflexivity|].
    assert (snd b' <= a) as LA. { destruct (Z.ltb_spec (here - a) (snd (0,a))); cbn [snd] in *; lia. }
    assert (forall e, 0 <= e <= int32_max -> varint (encode_bytes I32 e) e) as EB.
    { intros. apply encode_bytes_ok; [left; reflexivity|exact H5]. }
    destruct C as [->|(j & J1 & J2 & J3 & J4)].
    - destruct (Z.ltb_spec (here - a) (snd (0,a))); cbn [fst snd] in *.
      + split; [lia|]. split; [lia|]. unfold addr_bytes. rewrite (write_as_varint_true c hist) by (auto; lia).
        eapply addr_here with (e := here - a); try lia. apply EB. lia.
      + split; [lia|]. split; [lia|]. unfold addr_bytes. rewrite (write_as_varint_true c hist) by (auto; lia).
        apply addr_self; try lia. apply EB. lia.
    - rewrite J2. split; [lia|]. split; [lia|]. unfold addr_bytes. rewrite (write_as_varint_true c hist) by (auto; lia).
      eapply addr_near with (e := snd b'); try lia. apply EB. lia. }
  destruct (Z.ltb_spec 0 (same_size c)) as [P|P].
  - assert (0 <= a mod (same_size c * 256) < same_size c * 256) as MB by (apply Z.mod_pos_bound; lia).
    rewrite (cr_same c hist R) by exact MB.
    destruct (Z.eqb_spec (same_slot (same_size c) hist (a mod (same_size c * 256))) a) as [E|E].
    + set (pos := a mod (same_size c * 256)) in *. 
      assert (0 <= pos / 256 < same_size c) by (split; [apply Z.div_pos; lia|apply Z.div_lt_upper_bound; lia]).
      assert (0 <= pos mod 256 < 256) by (apply Z.mod_pos_bound; lia).
      rewrite (first_same_mode_id c hist R). rewrite (to_uchar_id (pos / 256)) by lia. rewrite to_uchar_id by lia.
      eexists _, _, c'. split; [reflexivity|]. split; [lia|]. split; [unfold int32_max; lia|]. split; [|auto].
      unfold addr_bytes, write_as_varint.
      replace (is_same_mode c (2 + near_size c + pos / 256)) with true.
      2: { symmetry. apply (is_same_mode_iff c hist); auto. lia. }
      cbn [negb]. rewrite to_uchar_id by lia. apply addr_same; auto; try lia.
      replace (pos / 256 * 256 + pos mod 256) with pos by (pose proof (Z.div_mod pos 256); lia). auto.
    + destruct NS as (mode & e & -> & N1 & N2 & N3). exists mode, e, c'. auto 8.
  - destruct NS as (mode & e & -> & N1 & N2 & N3). exists mode, e, c'. auto 8.
Qed.

(** With cache sizes 254 and 0, which Init accepts, decoding any address reads
    outside the (empty) SAME vector. *)
Lemma near_254_decode_ub : forall c here mode b tl,
  cache_init 254 0 = Some c -> 0 <= here -> 0 <= mode < 256 ->
  decode_address c here mode (b :: tl) = UB.
Proof.
  intros c here mode b tl H HE M. injection H as <-. unfold decode_address.
  destruct (Z.ltb_spec here 0); [lia|].
  unfold is_same_mode, last_mode, first_same_mode. cbn [near_size same_size same_a].
  change (to_uchar (2 + 254)) with 0. change (to_uchar (0 + 0 - 1)) with 255.
  destruct (Z.leb_spec 0 mode); [|lia]. destruct (Z.leb_spec mode 255); [|lia]. cbn [andb].
  change (zrepeat 0 0) with (@nil Z).
  replace (get (@nil Z) ((mode - 0) * 256 + b)) with (@None Z); [reflexivity|].
  symmetry. apply get_none. rewrite zlen_nil. lia.
Qed.

(** A cache with these sizes.  [cache_like] is what holds of every cache that Init
    accepts. *)
Definition cache_bad (c : cache) : Prop := near_size c = 254 /\ same_size c = 0 /\ same_a c = [].
Definition cache_like (c : cache) (hist : list Z) : Prop := cache_rep c hist \/ cache_bad c.

Lemma cache_init_like : forall ns ss c, 0 <= ns -> 0 <= ss -> cache_init ns ss = Some c ->
  cache_like c [] /\ near_size c = ns /\ same_size c = ss.
Proof.
  intros ns ss c N S H. destruct (Z_le_gt_dec ns 253) as [L|G].
  - destruct (cache_init_rep ns ss c (conj N L) S H) as (R & E1 & E2). split; [left; exact R|]. auto.
  - unfold cache_init in H. destruct (Z.ltb_spec 254 (ns + ss)); [discriminate|]. assert (ns = 254 /\ ss = 0) as [-> ->] by lia.
    injection H as <-. split; [right; split; [reflexivity|]; split; reflexivity|]. split; reflexivity.
Qed.

Lemma cache_like_rep : forall c hist, cache_like c hist -> near_size c <= 253 -> cache_rep c hist.
Proof. intros c hist [R|[B _]] L; [exact R|lia]. Qed.

Lemma cache_like_bad : forall c hist c', cache_like c hist -> near_size c' = near_size c -> cache_bad c' -> cache_bad c.
Proof. intros c hist c' [R|B] E (N & _); [|exact B]. pose proof (cr_n253 _ _ R). lia. Qed.

Lemma bad_decode : forall c here mode l, cache_bad c -> 0 <= mode < 256 ->
  match decode_address c here mode l with Ok _ => False | _ => True end.
Proof.
  intros c here mode l (N & S & A) M. unfold decode_address.
  destruct (here <? 0); [exact I|]. destruct l as [|b tl]; [exact I|].
  unfold is_same_mode, last_mode, first_same_mode. rewrite N, S, A.
  change (to_uchar (2 + 254)) with 0. change (to_uchar (0 + 0 - 1)) with 255.
  destruct (Z.leb_spec 0 mode); [|lia]. destruct (Z.leb_spec mode 255); [|lia]. cbn [andb].
  destruct (get (@nil Z) ((mode - 0) * 256 + b)) eqn:G; [|exact I].
  exfalso. Local Transparent get. unfold get in G. Local Opaque get.
  destruct (_ <? 0) in G; [discriminate|]. destruct (Z.to_nat _) in G; discriminate.
Qed.

(** The representation determines the cache. *)
Lemma cache_rep_unique : forall c c' hist, cache_rep c hist -> cache_rep c' hist ->
  near_size c' = near_size c -> same_size c' = same_size c -> c' = c.
Proof.
  intros c c' hist R R' N S.
  assert (near_a c' = near_a c) as NA.
  { apply get_ext. intros i I. destruct (Z.ltb_spec i (near_size c)).
    - rewrite (cr_near c hist R) by lia. rewrite (cr_near c' hist R') by lia. rewrite N. reflexivity.
    - transitivity (@None Z); [|symmetry]; apply get_none.
      + rewrite (cr_nlen c' hist R'). lia.
      + rewrite (cr_nlen c hist R). lia. }
  assert (same_a c' = same_a c) as SA.
  { apply get_ext. intros i I. destruct (Z.ltb_spec i (same_size c * 256)).
    - rewrite (cr_same c hist R) by lia. rewrite (cr_same c' hist R') by lia. rewrite S. reflexivity.
    - transitivity (@None Z); [|symmetry]; apply get_none.
      + rewrite (cr_slen c' hist R'). lia.
      + rewrite (cr_slen c hist R). lia. }
  assert (next_slot c' = next_slot c) as NS.
  { destruct (Z.eq_dec (near_size c) 0) as [Z0|Z0].
    - rewrite (cr_next0 c hist R Z0), (cr_next0 c' hist R'); lia.
    - pose proof (cr_ns c hist R). rewrite (cr_next c hist R), (cr_next c' hist R') by lia. rewrite N. reflexivity. }
  destruct c, c'; cbn in *; congruence.
Qed.
