(** C17, C18: variable-length integers. *)

From Verif Require Import Base Spec Varint VarintFacts.
From Coq Require Import ZifyBool ZifyNat.

(** The two instances of VarintBE, their largest value and longest encoding. *)
Definition instance (t : int_type) (max max_bytes : Z) : Prop :=
  (t = I32 /\ max = 2147483647 /\ max_bytes = 5) \/
  (t = I64 /\ max = 9223372036854775807 /\ max_bytes = 9).

Lemma instance_ok : forall t max mb, instance t max mb ->
  type_ok t /\ kMaxVal t = max /\ Z.of_nat (kMaxBytes t) = mb.
Proof.
  intros t max mb [(-> & -> & ->)|(-> & -> & ->)]; (split; [|split; reflexivity]).
  - left; reflexivity.
  - right; reflexivity.
Qed.

Lemma round_trip_lemma : forall t max mb v rest,
  instance t max mb -> 0 <= v <= max ->
  exists l, encode t v = Some l /\ varint l v /\ parse t (l ++ rest) = Ok (v, rest) /\
    varint_length v = zlen l /\ 1 <= zlen l <= mb /\
    (forall l', varint l' v -> zlen l <= zlen l' /\ (zlen l' = zlen l -> l' = l)).
Proof.
  intros t max mb v rest I V. destruct (instance_ok t max mb I) as (T & M & B).
  destruct (encode_total t v T) as (l & E & VL & LB & HD); [lia|].
  exists l. split; [exact E|]. split; [exact VL|]. split; [apply parse_ok; auto; lia|]. split.
  { rewrite (varint_length_ok t v T) by lia. unfold encode_bytes. rewrite E. reflexivity. }
  split. { Transparent zlen. unfold zlen. Opaque zlen. lia. }
  intros l' V'. pose proof (canonical_shortest l l' v VL V' HD). split; [assumption|].
  intros EQ. destruct VL as [I1 W1], V' as [I2 W2].
  destruct (varint_same_length_unique l' l v 0 0) as [_ U]; auto.
Qed.

(** C17.  For either integer type and every value in its range, Encode succeeds
    within its buffer, the bytes denote the value (RFC 3284 section 2), parse
    back whatever follows, have the length Length() announces, and no other
    byte string that denotes the value is as short. *)
Theorem C17_varint_round_trip_minimal : forall t max max_bytes v rest,
  instance t max max_bytes -> 0 <= v <= max ->
  exists l, encode t v = Some l /\ varint l v /\ parse t (l ++ rest) = Ok (v, rest) /\
    varint_length v = zlen l /\ 1 <= zlen l <= max_bytes /\
    (forall l', varint l' v -> zlen l <= zlen l' /\ (zlen l' = zlen l -> l' = l)).
Proof. exact round_trip_lemma. Qed.
Print Assumptions C17_varint_round_trip_minimal.

Example C17_example : encode I32 300 = Some [130; 44] /\ parse I32 [130; 44; 7] = Ok (300, [7]).
Proof. split; reflexivity. Qed.

Lemma parse_loop_eod_bytes : forall t l acc, bytes_ok l -> parse_loop t acc l = Eod ->
  Forall (fun b => 128 <= b < 256) l.
Proof.
  induction l as [|b l IH]; intros acc B H; [constructor|].
  apply bytes_ok_cons in B as [B1 B2]. cbn [parse_loop] in H.
  destruct (Z.ltb_spec b 128); [discriminate|].
  destruct (_ <? _); [discriminate|]. constructor; [unfold byte_ok in B1; lia|eauto].
Qed.

Lemma parse_char : forall t max mb l, instance t max mb -> bytes_ok l ->
  (forall v rest, parse t l = Ok (v, rest) <->
     exists p, l = p ++ rest /\ varint p v /\ v <= max) /\
  (parse t l = Eod <->
     (forall p rest, l = p ++ rest -> ~ is_varint p) /\
     (exists c v, bytes_ok c /\ varint (l ++ c) v /\ v <= max)) /\
  (parse t l = Err <->
     (forall p rest v, l = p ++ rest -> varint p v -> max < v) /\
     (forall c v, bytes_ok c -> varint (l ++ c) v -> max < v)) /\
  parse t l <> UB.
Proof.
  intros t max mb l I B. destruct (instance_ok t max mb I) as (T & M & _). subst max.
  assert (forall v rest, parse t l = Ok (v, rest) <->
     exists p, l = p ++ rest /\ varint p v /\ v <= kMaxVal t) as OK.
  { intros v rest. split.
    - intros H. destruct (parse_inv t l v rest T B H) as (p & E & V & R). exists p. repeat split; auto; try lia; apply V.
    - intros (p & -> & V & L). apply parse_ok; auto. }
  assert (parse t l = Eod ->
     (forall p rest, l = p ++ rest -> ~ is_varint p) /\
     (exists c v, bytes_ok c /\ varint (l ++ c) v /\ v <= kMaxVal t)) as E1.
  { intros H. split.
    - intros p rest E (init & last & -> & _ & L).
      pose proof (parse_loop_eod_bytes t l 0 B H) as F. rewrite E in F.
      rewrite <- app_assoc in F. apply Forall_app in F as [_ F]. inversion F; subst. lia.
    - destruct (parse_eod_cont t l T B H) as (c & v & C & P).
      apply parse_inv in P as (p & E & V & R); auto; [|apply bytes_ok_app; auto].
      rewrite app_nil_r in E. subst p. exists c, v. repeat split; auto; try lia; apply V. }
  assert (parse t l = Err ->
     (forall p rest v, l = p ++ rest -> varint p v -> kMaxVal t < v) /\
     (forall c v, bytes_ok c -> varint (l ++ c) v -> kMaxVal t < v)) as R1.
  { intros H. split.
    - intros p rest v -> V. destruct (Z_lt_le_dec (kMaxVal t) v); auto.
      rewrite (parse_ok t p v rest) in H by auto. discriminate.
    - intros c v C V. destruct (Z_lt_le_dec (kMaxVal t) v); auto.
      pose proof (parse_err_final t l c H) as H'.
      rewrite <- (app_nil_r (l ++ c)) in H'. rewrite (parse_ok t (l ++ c) v []) in H' by auto. discriminate. }
  split; [exact OK|]. split; [|split; [|apply parse_not_ub]].
  - split; [exact E1|]. intros [N (c & v & C & V & L)].
    destruct (parse t l) as [[v' rest]| | |] eqn:P; auto.
    + destruct (proj1 (OK v' rest) eq_refl) as (p & E & [V' _] & _). apply N in E. contradiction.
    + destruct (R1 eq_refl) as [_ R]. specialize (R c v C V). lia.
    + destruct (parse_not_ub t l P).
  - split; [exact R1|]. intros [N1 N2].
    destruct (parse t l) as [[v' rest]| | |] eqn:P; auto.
    + destruct (proj1 (OK v' rest) eq_refl) as (p & E & V & L). apply (N1 p rest v' E) in V. lia.
    + destruct (E1 eq_refl) as [_ (c & v & C & V & L)]. specialize (N2 c v C V). lia.
    + destruct (parse_not_ub t l P).
Qed.

(** C18.  Parse succeeds exactly when the data starts with an integer in range
    (and then leaves exactly what follows it); it asks for more data exactly
    when no integer has ended yet but some continuation is an integer in range;
    it fails exactly when neither the data nor any continuation starts with an
    integer in range.  That the cursor moves only on success and the limit is
    never passed is built into the type of the model. *)
Theorem C18_varint_parse_exact : forall t max mb l, instance t max mb -> bytes_ok l ->
  (forall v rest, parse t l = Ok (v, rest) <->
     exists p, l = p ++ rest /\ varint p v /\ v <= max) /\
  (parse t l = Eod <->
     (forall p rest, l = p ++ rest -> ~ is_varint p) /\
     (exists c v, bytes_ok c /\ varint (l ++ c) v /\ v <= max)) /\
  (parse t l = Err <->
     (forall p rest v, l = p ++ rest -> varint p v -> max < v) /\
     (forall c v, bytes_ok c -> varint (l ++ c) v -> max < v)) /\
  parse t l <> UB.
Proof. exact parse_char. Qed.
Print Assumptions C18_varint_parse_exact.

Example C18_example_ok : parse I32 [128; 129; 5; 9] = Ok (133, [9]).
Proof. reflexivity. Qed.
Example C18_example_eod : parse I32 [135; 255; 255; 255] = Eod.
Proof. reflexivity. Qed.
Example C18_example_err : parse I32 [136; 128; 128; 128] = Err /\ parse I32 [136; 128; 128] = Eod.
Proof. split; reflexivity. Qed.
