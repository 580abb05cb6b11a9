(** Lemmas about the varint model. *)
From Coq Require Import ZifyBool ZifyNat.
From Verif Require Import Base Spec Varint.
Ltac Zify.zify_post_hook ::= Z.div_mod_to_equations.

Definition type_ok (t : int_type) : Prop :=
  (t = I32 \/ t = I64).

Lemma type_ok_max : forall t, type_ok t ->
  127 < kMaxVal t /\ kMaxVal t mod 128 = 127 /\
  kMaxVal t < 128 ^ Z.of_nat (kMaxBytes t) /\ kMaxVal t <= int64_max /\ (1 <= kMaxBytes t)%nat.
Proof.
  intros t [-> | ->]; vm_compute; repeat split; try congruence; lia.
Qed.

Definition value_from (acc : Z) (l : list Z) : Z :=
  fold_left (fun acc b => acc * 128 + b mod 128) l acc.

Lemma value_from_ge : forall l acc, 0 <= acc -> acc * 1 <= value_from acc l.
Proof.
  induction l as [|b l IH]; intros acc H; cbn [value_from fold_left]; [lia|].
  pose proof (IH (acc * 128 + b mod 128)) as K. fold (value_from (acc*128 + b mod 128) l) in *. lia.
Qed.

Lemma value_from_app : forall a b acc, value_from acc (a ++ b) = value_from (value_from acc a) b.
Proof. intros. unfold value_from. apply fold_left_app. Qed.

Lemma is_varint_cons_inv : forall b l, is_varint (b :: l) ->
  (l = [] /\ 0 <= b < 128) \/ (128 <= b < 256 /\ is_varint l).
Proof.
  intros b l (init & last & E & F & L). destruct init as [|x init].
  - injection E as -> ->. left. auto.
  - injection E as -> ->. inversion F; subst. right. split; [auto|].
    exists init, last. auto.
Qed.

Lemma is_varint_nil : ~ is_varint [].
Proof. intros (i & x & E & _). destruct i; discriminate. Qed.

Lemma is_varint_one : forall b, 0 <= b < 128 -> is_varint [b].
Proof. intros. exists [], b. repeat split; auto; lia. Qed.

Lemma is_varint_more : forall b l, 128 <= b < 256 -> is_varint l -> is_varint (b :: l).
Proof.
  intros b l H (i & x & -> & F & L). exists (b :: i), x. repeat split; auto; lia.
Qed.

Lemma is_varint_bytes_ok : forall l, is_varint l -> bytes_ok l.
Proof.
  intros l (i & x & -> & F & L). apply bytes_ok_app. split.
  - eapply Forall_impl; [|exact F]. cbn. unfold byte_ok. lia.
  - constructor; [unfold byte_ok; lia|constructor].
Qed.

Lemma is_varint_prefix_free : forall p q r s,
  is_varint p -> is_varint q -> p ++ r = q ++ s -> p = q /\ r = s.
Proof.
  induction p as [|b p IH]; intros q r s P Q E.
  - exfalso. eapply is_varint_nil; eauto.
  - destruct q as [|c q]; [exfalso; eapply is_varint_nil; eauto|].
    cbn in E. injection E as -> E.
    apply is_varint_cons_inv in P. apply is_varint_cons_inv in Q.
    destruct P as [[-> P]|[P P']], Q as [[-> Q]|[Q Q']]; try lia.
    + auto.
    + destruct (IH q r s P' Q' E) as [-> ->]. auto.
Qed.

(** *** Parse *)

(** [acc] is the accumulator already shifted. *)
Lemma parse_loop_ok : forall t p acc rest,
  type_ok t -> is_varint p -> 0 <= acc -> acc mod 128 = 0 ->
  value_from (acc / 128) p <= kMaxVal t ->
  parse_loop t acc (p ++ rest) = Ok (value_from (acc / 128) p, rest).
Proof.
  intros t p. induction p as [|b p IH]; intros acc rest T P A M V.
  - exfalso. eapply is_varint_nil; eauto.
  - cbn [app parse_loop]. cbn [value_from fold_left] in *.
    fold (value_from (acc / 128 * 128 + b mod 128) p) in *.
    assert (acc / 128 * 128 = acc) as E by lia. rewrite E in *.
    apply is_varint_cons_inv in P. destruct P as [[-> P]|[P P']].
    + destruct (Z.ltb_spec b 128); [|lia]. cbn. reflexivity.
    + destruct (Z.ltb_spec b 128); [lia|].
      pose proof (type_ok_max t T) as (T1 & T2 & T3 & T4 & T5).
      assert ((acc + b mod 128) * 128 <= kMaxVal t).
      { destruct p as [|c p]; [exfalso; eapply is_varint_nil; eauto|].
        cbn [value_from fold_left] in V.
        fold (value_from ((acc + b mod 128) * 128 + c mod 128) p) in V.
        pose proof (value_from_ge p ((acc + b mod 128) * 128 + c mod 128)). lia. }
      destruct (Z.ltb_spec (kMaxVal t / 128) (acc + b mod 128)); [lia|].
      replace (acc + b mod 128) with ((acc + b mod 128) * 128 / 128) at 2 by (rewrite Z.div_mul; lia).
      apply IH; auto; try lia.
      rewrite Z.div_mul by lia. exact V.
Qed.

Lemma parse_ok : forall t p v rest,
  type_ok t -> varint p v -> v <= kMaxVal t -> parse t (p ++ rest) = Ok (v, rest).
Proof.
  intros t p v rest T [P <-] V. unfold parse.
  change (varint_value p) with (value_from (0 / 128) p) in *.
  apply parse_loop_ok; auto; lia.
Qed.

Lemma parse_loop_inv : forall t l acc v rest,
  type_ok t -> bytes_ok l -> 0 <= acc -> acc mod 128 = 0 -> acc <= kMaxVal t ->
  parse_loop t acc l = Ok (v, rest) ->
  exists p, l = p ++ rest /\ is_varint p /\ v = value_from (acc / 128) p /\ v <= kMaxVal t.
Proof.
  intros t l. induction l as [|b l IH]; intros acc v rest T B A M K H; cbn [parse_loop] in H; [discriminate|].
  apply bytes_ok_cons in B as [Bb Bl]. unfold byte_ok in Bb.
  pose proof (type_ok_max t T) as (T1 & T2 & T3 & T4 & T5).
  destruct (Z.ltb_spec b 128).
  - injection H as <- <-. exists [b]. split; [reflexivity|]. split; [apply is_varint_one; lia|].
    cbn. split; lia.
  - destruct (Z.ltb_spec (kMaxVal t / 128) (acc + b mod 128)); [discriminate|].
    apply IH in H; auto; try lia.
    destruct H as (p & -> & P & -> & V). exists (b :: p). repeat split; auto.
    + apply is_varint_more; auto. lia.
    + cbn [value_from fold_left]. rewrite Z.div_mul by lia.
      replace (acc / 128 * 128) with acc by lia. reflexivity.
Qed.

Lemma parse_inv : forall t l v rest,
  type_ok t -> bytes_ok l -> parse t l = Ok (v, rest) ->
  exists p, l = p ++ rest /\ varint p v /\ 0 <= v <= kMaxVal t.
Proof.
  intros t l v rest T B H.
  pose proof (type_ok_max t T) as (T1 & T2 & T3 & T4 & T5).
  apply parse_loop_inv in H; auto; try lia.
  destruct H as (p & E & P & V & M). exists p. split; [exact E|].
  split; [split; [exact P|symmetry; exact V]|]. split; [|exact M].
  subst v. pose proof (value_from_ge p (0/128)). lia.
Qed.

Lemma parse_not_ub : forall t l, parse t l <> UB.
Proof.
  intros t l. unfold parse. generalize 0. induction l; intros acc; cbn [parse_loop]; [discriminate|].
  destruct (a <? 128); [discriminate|]. destruct (_ <? _); [discriminate|]. apply IHl.
Qed.

(** Appending data does not change a result other than Eod. *)
Lemma parse_loop_app : forall t l acc c r,
  parse_loop t acc l = r -> r <> Eod ->
  parse_loop t acc (l ++ c) =
  match r with Ok (v, rest) => Ok (v, rest ++ c) | x => x end.
Proof.
  intros t l. induction l as [|b l IH]; intros acc c r H N; cbn [parse_loop app] in *.
  - congruence.
  - destruct (b <? 128). { subst r. reflexivity. }
    destruct (_ <? _). { subst r. reflexivity. }
    apply IH; auto.
Qed.
Lemma parse_app : forall t l c r, parse t l = r -> r <> Eod ->
  parse t (l ++ c) = match r with Ok (v, rest) => Ok (v, rest ++ c) | x => x end.
Proof. intros. apply parse_loop_app; auto. Qed.

(** Error: no continuation can be a value in range. *)
Lemma parse_err_final : forall t l c, parse t l = Err -> parse t (l ++ c) = Err.
Proof. intros. rewrite (parse_app t l c Err); auto. discriminate. Qed.

Lemma parse_loop_eod_cont : forall t l acc, type_ok t -> bytes_ok l -> 0 <= acc -> acc mod 128 = 0 -> acc <= kMaxVal t ->
  parse_loop t acc l = Eod ->
  exists v, parse_loop t acc (l ++ [0]) = Ok (v, []).
Proof.
  intros t l. induction l as [|b l IH]; intros acc T B A M K H; cbn [parse_loop app] in *.
  - change (0 mod 128) with 0. destruct (Z.ltb_spec 0 128); [|lia]. eauto.
  - apply bytes_ok_cons in B as [Bb Bl]. unfold byte_ok in Bb.
    pose proof (type_ok_max t T) as (T1 & T2 & T3 & T4 & T5).
    destruct (b <? 128); [discriminate|].
    destruct (Z.ltb_spec (kMaxVal t / 128) (acc + b mod 128)); [discriminate|].
    apply IH; auto; lia.
Qed.

Lemma parse_eod_cont : forall t l, type_ok t -> bytes_ok l -> parse t l = Eod ->
  exists c v, bytes_ok c /\ parse t (l ++ c) = Ok (v, []).
Proof.
  intros t l T B H. apply parse_loop_eod_cont in H; auto; try lia.
  - destruct H as [v H]. exists [0], v. split; auto. repeat constructor; lia.
  - pose proof (type_ok_max t T) as (T1 & T2 & T3 & T4 & T5). lia.
Qed.

(** A strict prefix of a varint in range yields Eod. *)
Lemma parse_prefix_eod : forall t p q v, type_ok t -> bytes_ok (p ++ q) -> varint (p ++ q) v -> v <= kMaxVal t ->
  q <> [] -> parse t p = Eod.
Proof.
  intros t p q v T B V M Q.
  destruct (parse t p) as [[v' rest]| | |] eqn:E; auto; exfalso.
  - pose proof (parse_app t p q _ E ltac:(discriminate)) as E'.
    rewrite <- (app_nil_r (p ++ q)) in E'. rewrite (parse_ok t (p ++ q) v [] T V M) in E'.
    injection E' as _ E'. destruct rest; [|discriminate].
    cbn in E'. congruence.
  - pose proof (parse_err_final t p q E) as E'.
    rewrite <- (app_nil_r (p ++ q)) in E'. rewrite (parse_ok t (p ++ q) v [] T V M) in E'. discriminate.
  - exact (parse_not_ub _ _ E).
Qed.

(** *** Encode *)

Lemma value_from_pow : forall l acc,
  value_from acc l = acc * 128 ^ zlen l + value_from 0 l.
Proof.
  induction l as [|b l IH]; intros acc.
  - rewrite zlen_nil. cbn. lia.
  - rewrite zlen_cons. pose proof (zlen_nonneg _ l).
    rewrite Z.pow_add_r by lia. cbn [value_from fold_left].
    fold (value_from (acc * 128 + b mod 128) l).
    fold (value_from (0 * 128 + b mod 128) l).
    rewrite (IH (acc * 128 + b mod 128)), (IH (0 * 128 + b mod 128)). 
    change (128 ^ 1) with 128. ring.
Qed.

Lemma encode_loop_ok : forall slots v acc,
  0 <= v < 128 ^ Z.of_nat slots ->
  is_varint acc ->
  exists l, encode_loop slots v acc = Some l /\ is_varint l /\
    value_from 0 l = v * 128 ^ zlen acc + value_from 0 acc /\
    (v = 0 -> l = acc) /\
    (v > 0 -> exists b tl, l = b :: tl /\ b <> 128 /\ 128 <= b < 256) /\
    zlen acc <= zlen l <= zlen acc + Z.of_nat slots.
Proof.
  induction slots as [|s IH]; intros v acc V A.
  - assert (v = 0) by (change (128 ^ Z.of_nat 0) with 1 in V; lia). subst. cbn.
    exists acc. repeat split; auto; try lia.
  - cbn [encode_loop]. destruct (Z.eqb_spec v 0).
    + exists acc. subst. cbn. repeat split; auto; try lia.
    + assert (128 <= v mod 128 + 128 < 256) as R by lia.
      destruct (IH (v / 128) ((v mod 128 + 128) :: acc)) as (l & E & L & W & Z0 & Z1 & LEN).
      * rewrite Nat2Z.inj_succ, Z.pow_succ_r in V by lia. split; [apply Z.div_pos; lia|].
        apply Z.div_lt_upper_bound; lia.
      * apply is_varint_more; auto.
      * rewrite zlen_cons in *. exists l. split; [exact E|]. split; [exact L|]. split; [|split; [|split]].
        -- rewrite W. cbn [value_from fold_left].
           fold (value_from (0 * 128 + (v mod 128 + 128) mod 128) acc).
           rewrite (value_from_pow acc (0 * 128 + (v mod 128 + 128) mod 128)).
           pose proof (zlen_nonneg _ acc). rewrite Z.pow_add_r by lia. change (128 ^ 1) with 128.
           assert ((v mod 128 + 128) mod 128 = v mod 128) as M by lia. rewrite M.
           pose proof (Z.div_mod v 128 ltac:(lia)) as D. rewrite D at 3. ring.
        -- lia.
        -- intros _. destruct (Z.eq_dec (v / 128) 0) as [Q|Q].
           ++ rewrite (Z0 Q). exists (v mod 128 + 128), acc. repeat split; lia.
           ++ apply Z1. assert (0 <= v / 128) by (apply Z.div_pos; lia). lia.
        -- lia.
Qed.

Lemma encode_total : forall t v, type_ok t -> 0 <= v <= kMaxVal t ->
  exists l, encode t v = Some l /\ varint l v /\
    (1 <= length l <= kMaxBytes t)%nat /\ hd 0 l <> 128.
Proof.
  intros t v T V. pose proof (type_ok_max t T) as (T1 & T2 & T3 & T4 & T5).
  unfold encode. destruct (Z.ltb_spec v 0); [lia|].
  destruct (encode_loop_ok (kMaxBytes t - 1) (v / 128) [v mod 128]) as (l & E & L & W & Z0 & Z1 & LEN).
  - split; [apply Z.div_pos; lia|].
    apply Z.div_lt_upper_bound; [lia|].
    rewrite <- Z.pow_succ_r by lia.
    replace (Z.succ (Z.of_nat (kMaxBytes t - 1))) with (Z.of_nat (kMaxBytes t)) by lia. lia.
  - apply is_varint_one. lia.
  - exists l. split; [exact E|]. split; [|split].
    + split; [exact L|]. unfold varint_value. fold (value_from 0 l). rewrite W.
      change (zlen [v mod 128]) with 1. cbn [value_from fold_left].
      change (128 ^ 1) with 128. rewrite Z.mod_mod by lia.
      pose proof (Z.div_mod v 128 ltac:(lia)). lia.
    + change (zlen [v mod 128]) with 1 in LEN. Transparent zlen. unfold zlen in LEN. Opaque zlen. lia.
    + destruct (Z.eq_dec (v / 128) 0) as [Q|Q].
      * rewrite (Z0 Q). cbn. lia.
      * destruct Z1 as (b & tl & -> & N & _); [assert (0 <= v / 128) by (apply Z.div_pos; lia); lia|]. exact N.
Qed.

Lemma encode_bytes_ok : forall t v, type_ok t -> 0 <= v <= kMaxVal t -> varint (encode_bytes t v) v.
Proof.
  intros t v T V. unfold encode_bytes. destruct (encode_total t v T V) as (l & -> & L & _). exact L.
Qed.

(** Uniqueness of the shortest encoding: no leading 0x80. *)
Lemma value_lower : forall l b, is_varint (b :: l) -> b <> 128 -> l <> [] -> 128 ^ zlen l <= value_from 0 (b :: l).
Proof.
  intros l b V N L. apply is_varint_cons_inv in V as [[-> _]|[V P]]; [congruence|].
  cbn [value_from fold_left]. fold (value_from (0 * 128 + b mod 128) l).
  rewrite value_from_pow.
  assert (1 <= b mod 128) by lia.
  pose proof (value_from_ge l 0). assert (0 < 128 ^ zlen l) by (apply Z.pow_pos_nonneg; [lia|apply zlen_nonneg]).
  nia.
Qed.
Lemma value_upper : forall l, is_varint l -> value_from 0 l < 128 ^ zlen l.
Proof.
  induction l as [|b l IH]; intros V; [exfalso; eapply is_varint_nil; eauto|].
  apply is_varint_cons_inv in V as [[-> V]|[V P]].
  - cbn. rewrite zlen_cons, zlen_nil. change (128 ^ (1+0)) with 128. lia.
  - cbn [value_from fold_left]. fold (value_from (0 * 128 + b mod 128) l).
    rewrite value_from_pow. rewrite zlen_cons. specialize (IH P).
    pose proof (zlen_nonneg _ l). rewrite Z.pow_add_r by lia. change (128 ^ 1) with 128.
    assert (b mod 128 <= 127) by lia.
    assert (0 < 128 ^ zlen l) by (apply Z.pow_pos_nonneg; lia). nia.
Qed.

Lemma canonical_shortest : forall l l' v, varint l v -> varint l' v -> hd 0 l <> 128 -> zlen l <= zlen l'.
Proof.
  intros l l' v [L V] [L' V'] H.
  destruct l as [|b l]; [exfalso; eapply is_varint_nil; eauto|]. cbn in H.
  destruct l as [|c l].
  - destruct l' as [|b' l']; [exfalso; eapply is_varint_nil; eauto|].
    rewrite !zlen_cons, zlen_nil. pose proof (zlen_nonneg _ l'). lia.
  - pose proof (value_lower (c :: l) b L H ltac:(discriminate)).
    pose proof (value_upper l' L').
    change (value_from 0 (b :: c :: l)) with (varint_value (b :: c :: l)) in *.
    change (value_from 0 l') with (varint_value l') in *.
    rewrite V, V' in *.
    destruct (Z.le_gt_cases (zlen (b :: c :: l)) (zlen l')); [assumption|].
    rewrite (zlen_cons _ b) in *.
    assert (128 ^ zlen l' <= 128 ^ zlen (c :: l)) by (apply Z.pow_le_mono_r; lia). lia.
Qed.

Lemma varint_same_length_unique : forall l l' v acc acc',
  is_varint l -> is_varint l' -> zlen l = zlen l' ->
  value_from acc l = v -> value_from acc' l' = v -> acc = acc' /\ l = l'.
Proof.
  induction l as [|b l IH]; intros l' v acc acc' L L' E V V'; [exfalso; eapply is_varint_nil; eauto|].
  destruct l' as [|b' l']; [exfalso; eapply is_varint_nil; eauto|].
  rewrite !zlen_cons in E. cbn [value_from fold_left] in V, V'.
  fold (value_from (acc * 128 + b mod 128) l) in V. fold (value_from (acc' * 128 + b' mod 128) l') in V'.
  apply is_varint_cons_inv in L as [[-> L]|[L P]]; apply is_varint_cons_inv in L' as [[-> L']|[L' P']].
  - cbn in V, V'. assert (acc = acc') by lia. subst acc'. split; [reflexivity|]. f_equal. lia.
  - exfalso. destruct l'; [eapply is_varint_nil; eauto|]. rewrite zlen_cons in E. pose proof (zlen_nonneg _ l'). rewrite zlen_nil in E. lia.
  - exfalso. destruct l; [eapply is_varint_nil; eauto|]. rewrite zlen_cons in E. pose proof (zlen_nonneg _ l). rewrite zlen_nil in E. lia.
  - destruct (IH l' v _ _ P P' ltac:(lia) V V') as [Q ->]. 
    assert (acc = acc') by lia. subst. split; auto. f_equal. lia.
Qed.

Lemma canonical_unique : forall l l' v, varint l v -> varint l' v -> hd 0 l <> 128 -> hd 0 l' <> 128 -> l = l'.
Proof.
  intros l l' v V V' H H'.
  assert (zlen l = zlen l').
  { pose proof (canonical_shortest l l' v V V' H). pose proof (canonical_shortest l' l v V' V H'). lia. }
  destruct V, V'. eapply varint_same_length_unique with (acc := 0) (acc' := 0) in H0; eauto. tauto.
Qed.

(** *** Length *)

Lemma length_loop_ok : forall fuel v len, 0 <= v < 128 ^ Z.of_nat fuel -> (0 < fuel)%nat ->
  exists n, length_loop fuel v len = Some (len + n) /\ 1 <= n <= Z.of_nat fuel /\ v < 128 ^ n /\ (n = 1 \/ 128 ^ (n - 1) <= v).
Proof.
  induction fuel as [|f IH]; intros v len V F; [lia|].
  cbn [length_loop]. destruct (Z.eqb_spec (v / 128) 0) as [Hq|Hq].
  - exists 1. repeat split; lia.
  - assert (0 <= v / 128 < 128 ^ Z.of_nat f) as R.
    { rewrite Nat2Z.inj_succ, Z.pow_succ_r in V by lia. split; [apply Z.div_pos; lia|]. apply Z.div_lt_upper_bound; lia. }
    destruct f as [|f']. { change (128 ^ Z.of_nat 0) with 1 in R. lia. }
    destruct (IH (v / 128) (len + 1) R ltac:(lia)) as (n & E & N & U & L).
    exists (n + 1). rewrite E. split; [f_equal; lia|]. split; [lia|]. split.
    + rewrite Z.pow_add_r by lia. change (128^1) with 128. lia.
    + right. replace (n + 1 - 1) with (n - 1 + 1) by lia. rewrite Z.pow_add_r by lia. change (128 ^ 1) with 128.
      destruct L as [->|L]; [change (128 ^ (1-1)) with 1; lia|]. lia.
Qed.

Lemma varint_length_ok : forall t v, type_ok t -> 0 <= v <= kMaxVal t -> varint_length v = zlen (encode_bytes t v).
Proof.
  intros t v T V. pose proof (type_ok_max t T) as (T1 & T2 & T3 & T4 & T5).
  unfold varint_length, varint_length_opt. destruct (Z.ltb_spec v 0); [lia|].
  destruct (length_loop_ok 10 v 0) as (n & -> & N & U & L).
  { split; [lia|]. unfold int64_max in T4. change (128 ^ Z.of_nat 10) with 1180591620717411303424. lia. }
  { lia. }
  unfold encode_bytes. destruct (encode_total t v T V) as (l & -> & [L1 L2] & L3 & L4).
  destruct l as [|b l]; [exfalso; eapply is_varint_nil; eauto|]. cbn in L4.
  change (varint_value (b :: l)) with (value_from 0 (b :: l)) in L2.
  pose proof (value_upper _ L1) as UP.
  assert (l = [] \/ 128 ^ (zlen (b :: l) - 1) <= v) as LO.
  { destruct l as [|c l]; [auto|]. right. pose proof (value_lower (c :: l) b L1 L4 ltac:(discriminate)).
    rewrite (zlen_cons _ b). replace (1 + zlen (c :: l) - 1) with (zlen (c :: l)) by lia. lia. }
  set (m := zlen (b :: l)) in *.
  assert (1 <= m) by (unfold m; rewrite zlen_cons; pose proof (zlen_nonneg _ l); lia).
  assert (l = [] -> m = 1) by (intros ->; reflexivity).
  destruct (Z.lt_trichotomy n m) as [C|[C|C]]; [|lia|].
  - destruct LO as [->|LO]; [unfold m in *; rewrite zlen_cons, zlen_nil in *; lia|].
    assert (128 ^ n <= 128 ^ (m - 1)) by (apply Z.pow_le_mono_r; lia). lia.
  - destruct L as [->|L]; [lia|].
    assert (128 ^ m <= 128 ^ (n - 1)) by (apply Z.pow_le_mono_r; lia). lia.
Qed.
