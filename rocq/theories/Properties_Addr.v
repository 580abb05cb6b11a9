(** C19, C20: the address cache. *)

From Verif Require Import Base Spec Varint VarintFacts AddrCache AddrCacheFacts.
From Coq Require Import ZifyBool ZifyNat.

(** Encoding the addresses [addrs] (each with the address of its instruction)
    one after the other: the mode and bytes of each, and the final cache. *)
Fixpoint encode_all (c : cache) (addrs : list (Z * Z)) : option (list (Z * list Z) * cache) :=
  match addrs with
  | [] => Some ([], c)
  | (a, here) :: tl =>
      match encode_address c a here with
      | None => None
      | Some (mode, e, c') =>
          match encode_all c' tl with
          | None => None
          | Some (codes, c'') => Some ((mode, addr_bytes c mode e) :: codes, c'')
          end
      end
  end.

(** Decoding as many addresses as there are modes from a stream. *)
Fixpoint decode_all (c : cache) (modes : list (Z * Z)) (stream : list Z)
  : res (list Z * list Z * cache) :=
  match modes with
  | [] => Ok ([], stream, c)
  | (mode, here) :: tl =>
      match decode_address c here mode stream with
      | Ok (a, rest, c') =>
          match decode_all c' tl rest with
          | Ok (l, rest', c'') => Ok (a :: l, rest', c'')
          | x => x
          end
      | Eod => Eod | Err => Err | UB => UB
      end
  end.

Lemma sync_lemma : forall addrs c hist rest, cache_rep c hist ->
  Forall (fun ah => 0 <= fst ah < snd ah /\ snd ah <= 2147483647) addrs ->
  exists codes c',
    encode_all c addrs = Some (codes, c') /\
    length codes = length addrs /\
    Forall (fun mb => 0 <= fst mb < 2 + near_size c + same_size c) codes /\
    decode_all c (combine (map fst codes) (map snd addrs)) (concat (map snd codes) ++ rest)
      = Ok (map fst addrs, rest, c').
Proof.
  induction addrs as [|[a here] tl IH]; intros c hist rest R F.
  - exists [], c. repeat split; constructor.
  - inversion F as [|x y [H1 H2] F']; subst. cbn [fst snd] in *.
    destruct (encode_address_ok c hist a here R H1) as (mode & e & c1 & E & M & _ & AC & R1 & N1 & S1);
      [unfold int32_max; lia|].
    destruct (IH c1 (a :: hist) rest R1 F') as (codes & c' & E' & L & FM & D).
    destruct (decode_address_complete c hist here mode (addr_bytes c mode e) a (concat (map snd codes) ++ rest) R) as (c2 & D2 & R2 & N2 & S2);
      [unfold int32_max; lia|exact AC|].
    assert (c2 = c1) by (eapply cache_rep_unique; eauto; lia). subst c2.
    exists ((mode, addr_bytes c mode e) :: codes), c'.
    cbn [encode_all]. rewrite E, E'. split; [reflexivity|]. split; [cbn [length]; congruence|]. split.
    { constructor; [cbn [fst]; lia|]. eapply Forall_impl; [|exact FM]. cbv beta. intros mb Q. lia. }
    cbn [map combine concat fst snd decode_all]. rewrite <- app_assoc. rewrite D2, D. reflexivity.
Qed.

Lemma sync_init : forall near same c addrs rest,
  0 <= near <= 253 -> 0 <= same <= 254 -> near + same <= 254 -> cache_init near same = Some c ->
  Forall (fun ah => 0 <= fst ah < snd ah /\ snd ah <= 2147483647) addrs ->
  exists codes c',
    encode_all c addrs = Some (codes, c') /\
    length codes = length addrs /\
    Forall (fun mb => 0 <= fst mb < 2 + near + same) codes /\
    decode_all c (combine (map fst codes) (map snd addrs)) (concat (map snd codes) ++ rest)
      = Ok (map fst addrs, rest, c').
Proof.
  intros near same c addrs rest N S T I F.
  destruct (cache_init_rep near same c) as (R & <- & <-); auto; try lia.
  exact (sync_lemma addrs c [] rest R F).
Qed.

(** C19.  For all cache sizes that Init accepts except near = 254 (see
    [C19_near_254_refuted]), and any sequence of (address, here) pairs with the
    address before here: encoding them all and decoding the written modes and
    bytes, whatever follows in the stream, gives back the addresses, stops at
    the end of the written bytes, and leaves the same cache as the encoder's.
    All modes written exist for these cache sizes. *)
Theorem C19_caches_synchronised_partial : forall near same c addrs rest,
  0 <= near <= 253 -> 0 <= same <= 254 -> near + same <= 254 -> cache_init near same = Some c ->
  Forall (fun ah => 0 <= fst ah < snd ah /\ snd ah <= 2147483647) addrs ->
  exists codes c',
    encode_all c addrs = Some (codes, c') /\
    length codes = length addrs /\
    Forall (fun mb => 0 <= fst mb < 2 + near + same) codes /\
    decode_all c (combine (map fst codes) (map snd addrs)) (concat (map snd codes) ++ rest)
      = Ok (map fst addrs, rest, c').
Proof. exact sync_init. Qed.
Print Assumptions C19_caches_synchronised_partial.

Example C19_example :
  exists c codes c',
    cache_init 4 3 = Some c /\
    encode_all c [(700, 1000); (700, 1010); (710, 1020); (5, 1030); (1039, 1040)] = Some (codes, c') /\
    map fst codes = [1; 8; 2; 0; 1].
Proof. eexists _, _, _. split; [reflexivity|]. split; [vm_compute; reflexivity|reflexivity]. Qed.

(** Near cache size 254 (same size 0) passes Init, but then decoding an address
    in any mode reads outside the same_addresses_ vector.  So the property
    fails for this size. *)
Theorem C19_near_254_refuted : exists c,
  cache_init 254 0 = Some c /\
  forall here mode b tl, 0 <= here -> 0 <= mode < 256 -> decode_address c here mode (b :: tl) = UB.
Proof.
  eexists. split; [reflexivity|]. intros. apply near_254_decode_ub; auto.
Qed.
Print Assumptions C19_near_254_refuted.

(** The caches that can arise: initialised, then updated with any addresses. *)
Inductive cache_after (near same : Z) : list Z -> cache -> Prop :=
| after_init : forall c, cache_init near same = Some c -> cache_after near same [] c
| after_update : forall hist c a c',
    cache_after near same hist c -> 0 <= a <= 2147483647 -> update_cache c a = Some c' ->
    cache_after near same (a :: hist) c'.

Lemma cache_after_rep : forall near same hist c, 0 <= near <= 253 -> 0 <= same ->
  cache_after near same hist c -> cache_rep c hist /\ near_size c = near /\ same_size c = same.
Proof.
  intros near same hist c N S H. induction H as [c I|hist c a c' H IH A U].
  - eapply cache_init_rep; eauto.
  - destruct IH as (R & <- & <-).
    destruct (update_rep c hist a R A) as (c2 & U2 & R2 & N2 & S2). rewrite U in U2. injection U2 as <-. auto.
Qed.

Lemma decode_char : forall near same hist c here mode stream,
  0 <= near <= 253 -> 0 <= same -> cache_after near same hist c ->
  0 <= here <= 2147483647 -> bytes_ok stream ->
  match decode_address c here mode stream with
  | Ok (a, rest, c') =>
      0 <= a < here /\ cache_after near same (a :: hist) c' /\
      exists p, stream = p ++ rest /\ addr_code near same hist here mode p a
  | Eod | Err => forall p rest a, stream = p ++ rest -> ~ addr_code near same hist here mode p a
  | UB => False
  end.
Proof.
  intros near same hist c here mode stream N S AC H B.
  destruct (cache_after_rep near same hist c N S AC) as (R & N1 & S1).
  pose proof (decode_address_sound c hist here mode stream R B) as D. unfold int32_max in D.
  specialize (D (proj2 H)).
  assert (forall p rest a, stream = p ++ rest -> addr_code near same hist here mode p a ->
     exists c', decode_address c here mode stream = Ok (a, rest, c')) as CO.
  { intros p rest a -> A. destruct (decode_address_complete c hist here mode p a rest R) as (c' & D' & _); eauto.
    rewrite N1, S1. exact A. }
  destruct (decode_address c here mode stream) as [[[a rest] c']| | |] eqn:E; cbn [addr_spec] in D; try rewrite N1, S1 in D.
  - destruct D as (p & E1 & A & R' & N2 & S2).
    assert (0 <= a < here) as RA by (inversion A; subst; auto). split; [exact RA|]. split.
    + destruct (update_rep c hist a R) as (c2 & U2 & R2 & N3 & S3); [unfold int32_max; lia|].
      assert (c' = c2) by (eapply cache_rep_unique; eauto; lia). subst c2.
      econstructor; eauto. lia.
    + exists p. auto.
  - intros p rest a E1 A. destruct (CO p rest a E1 A) as [c' Q]. discriminate.
  - intros p rest a E1 A. destruct (CO p rest a E1 A) as [c' Q]. discriminate.
  - exact D.
Qed.

(** C20.  For every cache history and stream content, and all cache sizes but near = 254, DecodeAddress either
    returns an address in [0, here) that the consumed bytes denote (RFC section
    5.3), with the cache that recording this address gives; or returns
    end-of-data or error when no prefix of the stream denotes an address.  In
    these two cases the model returns neither a new cache nor a new position. *)
Theorem C20_decoded_address_in_range_partial : forall near same hist c here mode stream,
  0 <= near <= 253 -> 0 <= same -> cache_after near same hist c ->
  0 <= here <= 2147483647 -> bytes_ok stream ->
  match decode_address c here mode stream with
  | Ok (a, rest, c') =>
      0 <= a < here /\ cache_after near same (a :: hist) c' /\
      exists p, stream = p ++ rest /\ addr_code near same hist here mode p a
  | Eod | Err => forall p rest a, stream = p ++ rest -> ~ addr_code near same hist here mode p a
  | UB => False
  end.
Proof. exact decode_char. Qed.
Print Assumptions C20_decoded_address_in_range_partial.

Example C20_example : exists c c' c'',
  cache_after 4 3 [] c /\
  decode_address c 1000 0 [133; 60; 7] = Ok (700, [7], c') /\
  decode_address c' 1010 8 [188] = Ok (700, [], c'') /\
  decode_address c' 700 8 [188] = Err.
Proof.
  eexists _, _, _. split; [apply after_init; reflexivity|].
  split; [vm_compute; reflexivity|]. split; vm_compute; reflexivity || (split; reflexivity).
Qed.

(** The sum computed for a NEAR address can leave the int32_t range: signed
    overflow, undefined behaviour in C++.  (The model lets it wrap, as the
    usual compilers do, and the address is then rejected.) *)
Theorem C20_near_sum_overflow_refuted : exists c stream a rest c' near_address e,
  cache_after 4 3 [] c /\
  decode_address c 10 0 stream = Ok (a, rest, c') /\
  get (near_a c') 0 = Some near_address /\
  parse I32 rest = Ok (e, []) /\
  2147483647 < near_address + e.
Proof.
  eexists _, [1; 135; 255; 255; 255; 127], _, _, _, _, _.
  split; [apply after_init; reflexivity|]. split; [vm_compute; reflexivity|].
  split; [vm_compute; reflexivity|]. split; [vm_compute; reflexivity|reflexivity].
Qed.
Print Assumptions C20_near_sum_overflow_refuted.
