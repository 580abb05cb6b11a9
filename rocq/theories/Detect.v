(** Facts for C49: what Adler-32 tells apart, and what two readings of one file
    with different dictionaries have in common. *)

From Coq Require Import ZifyBool ZifyNat Znumtheory.
From Verif Require Import Base Spec VarintFacts AddrCacheFacts BodyFacts Unique.

(** ** Adler-32 *)

(** Two strings of the same length that differ, but only at one or two positions, less
    than 65521 apart. *)
Definition small_error (l l' : list Z) : Prop :=
  zlen l = zlen l' /\ l <> l' /\
  exists i j, i <= j < i + 65521 /\ forall k, get l k <> get l' k -> k = i \/ k = j.

Lemma get_0 : forall (x : Z) l, get (x :: l) 0 = Some x.
Proof. intros. Transparent get. reflexivity. Qed.
Lemma get_S : forall (x : Z) l k, 0 <= k -> get (x :: l) (k + 1) = get l k.
Proof.
  intros x l k K. change (x :: l) with ([x] ++ l). rewrite get_app_r by (rewrite zlen_cons, zlen_nil; lia).
  f_equal. rewrite zlen_cons, zlen_nil. lia.
Qed.
Opaque get.

Lemma tail_differs : forall (x y : Z) l l' k, 0 <= k -> get l k <> get l' k -> get (x :: l) (k + 1) <> get (y :: l') (k + 1).
Proof. intros. rewrite !get_S by lia. assumption. Qed.

Lemma agree_eq : forall l l' : list Z, (forall k, 0 <= k -> ~ get l k <> get l' k) -> l = l'.
Proof.
  intros l l' A. apply get_ext. intros i I. specialize (A i I).
  destruct (get l i) as [x|], (get l' i) as [y|]; try reflexivity; try (exfalso; apply A; discriminate).
  destruct (Z.eq_dec x y) as [-> |N]; [reflexivity|]. exfalso. apply A. congruence.
Qed.

Lemma diff_one : forall l l' i, bytes_ok l -> bytes_ok l' -> zlen l = zlen l' ->
  (forall k, 0 <= k -> get l k <> get l' k -> k = i) ->
  exists d, -256 < d < 256 /\ byte_sum l - byte_sum l' = d /\ weighted_sum l - weighted_sum l' = (zlen l - i) * d /\ (d = 0 -> l = l').
Proof.
  induction l as [|x l IH]; intros [|y l'] i B B' L A.
  - exists 0. split; [lia|]. split; [reflexivity|]. split; [cbn; lia|auto].
  - rewrite zlen_nil, zlen_cons in L. pose proof (zlen_nonneg _ l'). lia.
  - rewrite zlen_nil, zlen_cons in L. pose proof (zlen_nonneg _ l). lia.
  - rewrite !zlen_cons in L. inversion B as [|? ? X BL]; subst. inversion B' as [|? ? Y BL']; subst. unfold byte_ok in X, Y.
    cbn [byte_sum weighted_sum]. rewrite !zlen_cons.
    destruct (Z.eq_dec x y) as [-> |N].
    + destruct (IH l' (i - 1) BL BL') as (d & D & S1 & S2 & Q); [lia| |].
      { intros k K G. pose proof (A (k + 1) ltac:(lia) (tail_differs y y l l' k K G)). lia. }
      exists d. split; [exact D|]. split; [lia|]. split; [|intros Z; f_equal; auto].
      replace (1 + zlen l - i) with (zlen l - (i - 1)) by lia. rewrite <- S2. replace (zlen l') with (zlen l) by lia. lia.
    + assert (0 = i) as <-. { apply A; [lia|]. rewrite !get_0. congruence. }
      assert (l = l') as <-. { apply agree_eq. intros k K G. pose proof (A (k + 1) ltac:(lia) (tail_differs x y l l' k K G)). lia. }
      exists (x - y). split; [lia|]. split; [lia|]. split; [lia|]. intros. lia.
Qed.

Lemma diff_two : forall l l' i j, i < j -> bytes_ok l -> bytes_ok l' -> zlen l = zlen l' ->
  (forall k, 0 <= k -> get l k <> get l' k -> k = i \/ k = j) ->
  exists d e, -256 < d < 256 /\ -256 < e < 256 /\ byte_sum l - byte_sum l' = d + e /\
    weighted_sum l - weighted_sum l' = (zlen l - i) * d + (zlen l - j) * e /\ (d = 0 -> e = 0 -> l = l').
Proof.
  induction l as [|x l IH]; intros [|y l'] i j IJ B B' L A.
  - exists 0, 0. split; [lia|]. split; [lia|]. split; [reflexivity|]. split; [cbn; lia|auto].
  - rewrite zlen_nil, zlen_cons in L. pose proof (zlen_nonneg _ l'). lia.
  - rewrite zlen_nil, zlen_cons in L. pose proof (zlen_nonneg _ l). lia.
  - rewrite !zlen_cons in L. inversion B as [|? ? X BL]; subst. inversion B' as [|? ? Y BL']; subst. unfold byte_ok in X, Y.
    cbn [byte_sum weighted_sum]. rewrite !zlen_cons.
    destruct (Z.eq_dec x y) as [-> |N].
    + destruct (IH l' (i - 1) (j - 1)) as (d & e & D & E & S1 & S2 & Q); auto; [lia|lia| |].
      { intros k K G. pose proof (A (k + 1) ltac:(lia) (tail_differs y y l l' k K G)). lia. }
      exists d, e. split; [exact D|]. split; [exact E|]. split; [lia|]. split; [|intros Z Z'; f_equal; auto].
      replace (1 + zlen l - i) with (zlen l - (i - 1)) by lia. replace (1 + zlen l - j) with (zlen l - (j - 1)) by lia.
      rewrite <- S2. replace (zlen l') with (zlen l) by lia. lia.
    + assert (0 = i \/ 0 = j) as I. { apply A; [lia|]. rewrite !get_0. congruence. }
      destruct (diff_one l l' (i + j - 1)) as (e & E & S1 & S2 & Q); auto; [lia| |].
      { intros k K G. pose proof (A (k + 1) ltac:(lia) (tail_differs x y l l' k K G)). lia. }
      destruct I as [<- | <-].
      * exists (x - y), e. split; [lia|]. split; [lia|]. split; [lia|]. split; [|intros; lia].
        replace (1 + zlen l - j) with (zlen l - (0 + j - 1)) by lia. rewrite <- S2. replace (zlen l') with (zlen l) by lia. lia.
      * assert (e = 0) as ->.
        { destruct (Z.eq_dec e 0) as [Z0|NZ]; [exact Z0|]. exfalso.
          assert (l = l') as ->. { apply agree_eq. intros k K G. pose proof (A (k + 1) ltac:(lia) (tail_differs x y l l' k K G)). lia. }
          lia. }
        exists 0, (x - y). split; [lia|]. split; [lia|]. split; [lia|]. split; [|intros; lia].
        rewrite Z.mul_0_r in S2. replace (zlen l') with (zlen l) by lia. lia.
Qed.

(** 65521 has no divisor below 256. *)
Lemma coprime_65521 : forall d, 0 < d < 256 -> Z.gcd 65521 d = 1.
Proof.
  intros d D. assert (forallb (fun k => Z.gcd 65521 (Z.of_nat k) =? 1) (seq 1 255) = true) as C by (vm_compute; reflexivity).
  rewrite forallb_forall in C. specialize (C (Z.to_nat d)). rewrite Z2Nat.id in C by lia.
  apply Z.eqb_eq. apply C. apply in_seq. lia.
Qed.

Lemma no_multiple : forall m d, 0 < m < 65521 -> -256 < d < 256 -> (65521 | m * d) -> d = 0.
Proof.
  intros m d M D V. destruct (Z.eq_dec d 0) as [Z0|NZ]; [exact Z0|]. exfalso.
  assert (Z.gcd 65521 d = 1) as G.
  { destruct (Z.lt_ge_cases 0 d) as [P|P]; [apply coprime_65521; lia|].
    rewrite <- Z.gcd_opp_r. apply coprime_65521. lia. }
  rewrite Z.mul_comm in V. apply (Z.gauss _ _ _ V) in G. apply Z.divide_pos_le in G; lia.
Qed.

Lemma mod_eq_divide : forall a b, a mod 65521 = b mod 65521 -> (65521 | a - b).
Proof. intros a b E. apply Z.mod_divide; [lia|]. rewrite Zminus_mod, E, Z.sub_diag. reflexivity. Qed.

Lemma adler_sum_parts : forall l l', adler_sum 0 l = adler_sum 0 l' ->
  (65521 | weighted_sum l - weighted_sum l') /\ (65521 | byte_sum l - byte_sum l').
Proof.
  intros l l' E. unfold adler_sum in E. rewrite !Z.mul_0_l, !Z.add_0_l in E.
  pose proof (Z.mod_pos_bound (weighted_sum l) 65521 ltac:(lia)). pose proof (Z.mod_pos_bound (weighted_sum l') 65521 ltac:(lia)).
  pose proof (Z.mod_pos_bound (byte_sum l) 65521 ltac:(lia)). pose proof (Z.mod_pos_bound (byte_sum l') 65521 ltac:(lia)).
  split; apply mod_eq_divide; lia.
Qed.

Lemma small_multiple : forall a, (65521 | a) -> -65521 < a < 65521 -> a = 0.
Proof. intros a [q ->] B. assert (q = 0) as -> by lia. reflexivity. Qed.

Theorem adler_small_error : forall l l', bytes_ok l -> bytes_ok l' -> small_error l l' -> adler_sum 0 l <> adler_sum 0 l'.
Proof.
  intros l l' B B' (L & N & i & j & IJ & A) E. destruct (adler_sum_parts _ _ E) as [W S].
  destruct (Z.eq_dec i j) as [<- |NE].
  - destruct (diff_one l l' i) as (d & D & S1 & S2 & Q); auto.
    { intros k _ G. destruct (A k G); assumption. }
    rewrite S1 in S. apply small_multiple in S; [|lia]. auto.
  - destruct (diff_two l l' i j) as (d & e & D & E' & S1 & S2 & Q); auto; [lia|].
    rewrite S1 in S. apply small_multiple in S; [|lia]. assert (e = - d) as -> by lia.
    rewrite S2 in W. replace ((zlen l - i) * d + (zlen l - j) * - d) with ((j - i) * d) in W by lia.
    apply no_multiple in W; [|lia|lia]. apply N, Q; lia.
Qed.

(** ** One file, two dictionaries *)

(** States that agree in the addresses used and in the number of bytes produced. *)
Definition like (s s' : wstate) : Prop := fst s = fst s' /\ zlen (snd s) = zlen (snd s').

Lemma copy_len : forall n seg T a T', copy_bytewise n seg T a = Some T' -> zlen T' = zlen T + Z.of_nat n.
Proof.
  induction n as [|n IH]; intros seg T a T' E; cbn [copy_bytewise] in E.
  - injection E as <-. lia.
  - destruct (get (seg ++ T) a); [|discriminate]. apply IH in E. rewrite E, zlen_app, zlen_cons, zlen_nil. lia.
Qed.

Lemma half_like : forall ns ss L seg seg' il h p q s s' s1 s2 r r', 0 <= ns -> zlen seg = zlen seg' -> like s s' ->
  half_means ns ss L seg h p s s1 -> half_means ns ss L seg' h q s' s2 ->
  app3 (piece_sec il p) r = app3 (piece_sec il q) r' ->
  p = q /\ like s1 s2 /\ r = r'.
Proof.
  intros ns ss L seg seg' il h p q s s' s1 s2 [[r1 r2] r3] [[q1 q2] q3] NN LS LK A B E.
  assert (p = q /\ like s1 s2) as [-> LK2].
  { inversion A as [s0|k ps n d hist T LT SC DL|k ps n x hist T LT SC|k m ps n pa a hist T T' LT SC AC CB]; subst;
    inversion B as [s0|k' ps' n' d' hist' T1 LT' SC' DL'|k' ps' n' x' hist' T1 LT' SC'|k' m' ps' n' pa' a' hist' T1 T1' LT' SC' AC' CB']; subst; auto;
    destruct LK as [LH LT0]; cbn [fst snd] in LH, LT0; subst hist'.
    - destruct il; cbn in E; unfold piece_bytes in E; cbn in E; injection E as E1 E2 E3; rewrite <- ?app_assoc in *.
      + destruct (size_code_inj _ _ _ _ _ _ _ SC SC' E1) as (-> & Z & E4). cbn in E4.
        destruct (app_len_inj _ _ _ _ Z E4) as (-> & E5). split; [auto|]. split; cbn [fst snd]; [reflexivity|]. rewrite !zlen_app. lia.
      + destruct (size_code_inj _ _ _ _ _ _ _ SC SC' E1) as (-> & Z & E4).
        destruct (app_len_inj _ _ _ _ Z E2) as (-> & E5). split; [auto|]. split; cbn [fst snd]; [reflexivity|]. rewrite !zlen_app. lia.
    - destruct il; cbn in E; unfold piece_bytes in E; cbn in E; injection E as E1 E2 E3; rewrite <- ?app_assoc in *.
      + destruct (size_code_inj _ _ _ _ _ _ _ SC SC' E1) as (-> & -> & E4). cbn in E4. injection E4 as -> E4.
        split; [auto|]. split; cbn [fst snd]; [reflexivity|]. rewrite !zlen_app. lia.
      + subst x'. destruct (size_code_inj _ _ _ _ _ _ _ SC SC' E1) as (-> & -> & E4).
        split; [auto|]. split; cbn [fst snd]; [reflexivity|]. rewrite !zlen_app. lia.
    - rewrite <- LS, <- LT0 in AC'. apply copy_len in CB, CB'.
      destruct il; cbn in E; unfold piece_bytes in E; cbn in E; injection E as E1 E2 E3; rewrite <- ?app_assoc in *.
      + destruct (size_code_inj _ _ _ _ _ _ _ SC SC' E1) as (-> & -> & E4). cbn in E4.
        destruct (addr_inj _ _ _ _ _ _ _ _ _ _ _ NN AC AC' E4) as (-> & -> & E5).
        split; [auto|]. split; cbn [fst snd]; [reflexivity|]. lia.
      + destruct (size_code_inj _ _ _ _ _ _ _ SC SC' E1) as (-> & -> & E4).
        destruct (addr_inj _ _ _ _ _ _ _ _ _ _ _ NN AC AC' E3) as (-> & -> & E5).
        split; [auto|]. split; cbn [fst snd]; [reflexivity|]. lia. }
  split; [auto|]. split; [auto|].
  destruct il; cbn in E; injection E as E1 E2 E3.
  - apply app_inv_head in E1. subst. auto.
  - apply app_inv_head in E1. apply app_inv_head in E2. apply app_inv_head in E3. subst. auto.
Qed.

Lemma items_like : forall drop drop' tbl ns ss L seg seg' il l s s1, 0 <= ns -> zlen seg = zlen seg' ->
  items_mean drop tbl ns ss L seg l s s1 -> zlen (snd s1) = L ->
  forall l' s' s2 r r', like s s' -> items_mean drop' tbl ns ss L seg' l' s' s2 -> zlen (snd s2) = L ->
  app3 (items_sec il l) r = app3 (items_sec il l') r' ->
  l = l' /\ r = r'.
Proof.
  intros drop drop' tbl ns ss L seg seg' il l s s1 NN LS H.
  induction H as [s|i l s s1 s2 s3 BI LT H1 H2 H3 IH|i s s1 D BI LT H1 NP FULL]; intros FU l' s' s2' r r' LK H' FU' E.
  - destruct LK as [LK1 LK2]. apply items_done in H' as [-> ->]; [|lia]. split; [auto|]. eapply app3_inv_head. exact E.
  - inversion H' as [s0|j m s0 t1 t2 t3 BJ LJ J1 J2 J3|j s0 t1 D' BJ LJ J1 NPJ FJ]; subst.
    + destruct LK. lia.
    + rewrite !items_sec_cons, <- !app3_assoc in E. pose proof (op_inj _ _ _ _ _ E) as OP.
      rewrite !item_sec_split, OP, <- !app3_assoc in E. apply app3_inv_head in E.
      rewrite OP in H1, H2.
      destruct (half_like _ _ _ _ _ _ _ _ _ _ _ _ _ _ _ NN LS LK H1 J1 E) as (P1 & LK1 & E1).
      destruct (half_like _ _ _ _ _ _ _ _ _ _ _ _ _ _ _ NN LS LK1 H2 J2 E1) as (P2 & LK2 & E2).
      edestruct IH as (-> & ->); [reflexivity|exact LK2|exact J3|exact FU'|exact E2|].
      rewrite (item_eq i j OP P1 P2). auto.
    + rewrite !items_sec_cons, <- !app3_assoc in E. pose proof (op_inj _ _ _ _ _ E) as OP.
      rewrite !item_sec_split, OP, <- !app3_assoc in E. apply app3_inv_head in E.
      rewrite OP in H1, H2.
      destruct (half_like _ _ _ _ _ _ _ _ _ _ _ _ _ _ _ NN LS LK H1 J1 E) as (P1 & [LK1 LK2] & E1).
      apply second_done in H2 as [P2 ->]; [|lia].
      apply items_done in H3 as [-> ->]; [|lia].
      assert (i = j) as -> by (apply item_eq; congruence).
      split; [auto|]. do 2 apply app3_inv_head in E1. auto.
  - inversion H' as [s0|j m s0 t1 t2 t3 BJ LJ J1 J2 J3|j s0 t1 D' BJ LJ J1 NPJ FJ]; subst.
    + destruct LK. lia.
    + rewrite !items_sec_cons, <- !app3_assoc in E. pose proof (op_inj _ _ _ _ _ E) as OP.
      rewrite !item_sec_split, OP, <- !app3_assoc in E. apply app3_inv_head in E.
      rewrite OP in H1.
      destruct (half_like _ _ _ _ _ _ _ _ _ _ _ _ _ _ _ NN LS LK H1 J1 E) as (P1 & [LK1 LK2] & E1).
      apply second_done in J2 as [P2 ->]; [|lia].
      apply items_done in J3 as [-> ->]; [|lia].
      assert (i = j) as -> by (apply item_eq; congruence).
      split; [auto|]. do 2 apply app3_inv_head in E1. auto.
    + rewrite !items_sec_cons, <- !app3_assoc in E. pose proof (op_inj _ _ _ _ _ E) as OP.
      rewrite !item_sec_split, OP, <- !app3_assoc in E. apply app3_inv_head in E.
      rewrite OP in H1.
      destruct (half_like _ _ _ _ _ _ _ _ _ _ _ _ _ _ _ NN LS LK H1 J1 E) as (P1 & _ & E1).
      assert (i = j) as -> by (apply item_eq; congruence).
      split; [auto|]. do 2 apply app3_inv_head in E1. auto.
Qed.

Lemma segment_like : forall f f' dict dict' prev prev' ind p q s s' r r',
  segment f dict prev ind p s -> segment f' dict' prev' ind q s' -> p ++ r = q ++ r' -> p = q /\ zlen s = zlen s' /\ r = r'.
Proof.
  intros f f' dict dict' prev prev' ind p q s s' r r' A B E.
  inversion A as [Z0 Z1|b1 b2 len pos s0 Z0 Z1 V1 V2 SL|b1 b2 len pos s0 Z0 Z1 FT V1 V2 SL]; subst;
  inversion B as [Y0 Y1|c1 c2 len' pos' s0 Y0 Y1 U1 U2 SL'|c1 c2 len' pos' s0 Y0 Y1 FT' U1 U2 SL']; subst;
    try congruence; auto;
    rewrite <- !app_assoc in E;
    destruct (varint_inj _ _ _ _ _ _ V1 U1 E) as (-> & -> & E');
    destruct (varint_inj _ _ _ _ _ _ V2 U2 E') as (-> & -> & ->);
    split; auto; split; auto; apply slice_inv in SL, SL'; lia.
Qed.

Lemma window_like : forall t t' f f' dict dict' prev prev' w w' T T' y y', same_format f f' ->
  Spec.window t f dict prev w T -> Spec.window t' f' dict' prev' w' T' -> w ++ y = w' ++ y' ->
  w = w' /\ y = y' /\ zlen T = zlen T' /\ (f_ext f = true -> Z.testbit (hd 0 w) 2 = true -> adler_sum 0 T = adler_sum 0 T').
Proof.
  intros t t' f f' dict dict' prev prev' w w' T T' y y' (QE & NN & QN & QS & QT) W W' E.
  inversion W as [ind sb seg bd dl bt di bnd nd bni ni bna na bcks items body hist T1 BI SG VD VT BDI DI VND VNI VNA CF LA DL IM EW ET]; subst w T1.
  inversion W' as [ind' sb' seg' bd' dl' bt' di' bnd' nd' bni' ni' bna' na' bcks' items' body' hist' T1 BI' SG' VD' VT' BDI' DI' VND' VNI' VNA' CF' LA' DL' IM' EW' ET']; subst w' T1.
  clear W W'. rewrite <- !app_assoc in E. cbn [app] in E. injection E as <- E.
  destruct (segment_like _ _ _ _ _ _ _ _ _ _ _ _ _ SG SG' E) as (<- & LS & E1). clear E.
  destruct (varint_inj _ _ _ _ _ _ VD VD' E1) as (<- & <- & E). clear E1.
  destruct (varint_inj _ _ _ _ _ _ VT VT' E) as (<- & TL & E1). clear E. injection E1 as <- E1.
  destruct (varint_inj _ _ _ _ _ _ VND VND' E1) as (<- & <- & E). clear E1.
  destruct (varint_inj _ _ _ _ _ _ VNI VNI' E) as (<- & <- & E1). clear E.
  destruct (varint_inj _ _ _ _ _ _ VNA VNA' E1) as (<- & <- & E). clear E1.
  assert (checksum_field f ind bcks' T') as CF2 by (unfold checksum_field in *; rewrite QE; exact CF').
  destruct (checksum_inj _ _ _ _ _ _ _ _ CF CF2 E) as (<- & E1 & CK). clear E.
  apply (items_mean_table _ _ (f_table f)) in IM'; [|intros; symmetry; auto].
  rewrite <- QN, <- QS, <- TL in IM'.
  assert (interleaved f' nd na <-> interleaved f nd na) as QI by (unfold interleaved; rewrite QE; tauto).
  unfold layout in LA, LA'. rewrite QI in LA'.
  assert (body = body' /\ y = y') as [<- <-].
  { destruct LA as [(IL & BB & _)|(IL & N1 & N2 & N3 & BB)], LA' as [(IL' & BB' & _)|(IL' & N1' & N2' & N3' & BB')]; try tauto.
    - destruct (items_like _ (t_drop t') _ _ _ _ _ _ true items ([], []) (hist, T) NN LS IM eq_refl items' ([], []) (hist', T') (y, [], []) (y', [], [])) as (<- & R); auto.
      { split; reflexivity. }
      { cbn. rewrite BB, BB' in E1. congruence. }
      injection R as ->. rewrite BB, BB'. auto.
    - rewrite BB, BB', <- !app_assoc in E1.
      destruct (app_len_inj _ _ _ _ (eq_trans (eq_sym N1) N1') E1) as [Q1 E2].
      destruct (app_len_inj _ _ _ _ (eq_trans (eq_sym N2) N2') E2) as [Q2 E3].
      destruct (app_len_inj _ _ _ _ (eq_trans (eq_sym N3) N3') E3) as [Q3 E4].
      rewrite BB, BB', Q1, Q2, Q3. auto. }
  split; [auto|]. split; [auto|]. split; [exact TL|]. cbn [app hd]. intros FE TB. apply CK. rewrite FE, TB. reflexivity.
Qed.

Lemma windows_like : forall t tl f dict ok prev ws out, windows t tl f dict ok prev ws out ->
  forall t' tl' f' dict' ok' prev' out', same_format f f' -> zlen prev = zlen prev' -> windows t' tl' f' dict' ok' prev' ws out' -> zlen out = zlen out'.
Proof.
  induction 1 as [prev|prev w T rest out W K R IH]; intros t' tl' f' dict' ok' prev' out' SF LP H'.
  - apply windows_nil in H'. subst. exact LP.
  - remember (w ++ rest) as x. destruct H' as [prev'|prev' w' T' rest' out' W' K' R'].
    + symmetry in Heqx. apply app_eq_nil in Heqx as [-> _]. apply window_ne in W. congruence.
    + destruct (window_like _ _ _ _ _ _ _ _ _ _ _ _ _ _ SF W W' (eq_sym Heqx)) as (-> & -> & LT & _).
      eapply IH; [exact SF| |exact R']. rewrite !zlen_app. lia.
Qed.

Theorem file_like : forall t tl allow ok dict X out t' tl' allow' ok' dict' out',
  vcd_file t tl allow ok dict X out -> vcd_file t' tl' allow' ok' dict' X out' -> zlen out = zlen out'.
Proof.
  intros t tl allow ok dict X out t' tl' allow' ok' dict' out' A B.
  destruct A as [|h v tbl ns ss ws out HD MF WS].
  - remember [] as x. destruct B as [|h' v' tbl' ns' ss' ws' out' HD' MF' WS']; auto.
    inversion HD'; subst; discriminate.
  - remember (h ++ ws) as x. destruct B as [|h' v' tbl' ns' ss' ws' out' HD' MF' WS'].
    + inversion HD; subst; discriminate.
    + destruct (head_inj _ _ _ _ _ _ _ HD _ _ _ _ _ _ _ _ _ HD' (eq_sym Heqx)) as (-> & -> & -> & -> & -> & ->).
      eapply windows_like; [exact WS| |reflexivity|exact WS'].
      pose proof (head_near _ _ _ _ _ _ _ HD). unfold same_format; cbn; auto.
Qed.

(** ** Files made of bytes denote bytes *)

Definition piece_ok (p : piece) : Prop := bytes_ok (p_data p).

Lemma copy_bytes_ok : forall n seg T a T', copy_bytewise n seg T a = Some T' -> bytes_ok seg -> bytes_ok T -> bytes_ok T'.
Proof.
  induction n as [|n IH]; intros seg T a T' E BS BT; cbn [copy_bytewise] in E.
  - injection E as <-. exact BT.
  - destruct (get (seg ++ T) a) as [b|] eqn:G; [|discriminate].
    apply IH in E; [exact E|exact BS|]. apply bytes_ok_app. split; [exact BT|]. constructor; [|constructor].
    eapply Forall_get; [|exact G]. apply bytes_ok_app. auto.
Qed.

Lemma half_bytes : forall ns ss L seg h p s s1, half_means ns ss L seg h p s s1 -> bytes_ok seg -> piece_ok p -> bytes_ok (snd s) -> bytes_ok (snd s1).
Proof.
  intros ns ss L seg h p s s1 H BS BP BT. destruct H as [s|k ps n d hist T LT SC DL|k ps n x hist T LT SC|k m ps n pa a hist T T' LT SC AC CB]; cbn [snd] in *.
  - exact BT.
  - apply bytes_ok_app. auto.
  - apply bytes_ok_app. split; [exact BT|]. unfold piece_ok in BP. cbn [p_data] in BP. inversion BP; subst.
    unfold zrepeat. apply Forall_forall. intros y Y. apply repeat_spec in Y. subst. assumption.
  - eapply copy_bytes_ok; eauto.
Qed.

Lemma items_bytes : forall drop tbl ns ss L seg l s s1, items_mean drop tbl ns ss L seg l s s1 -> bytes_ok seg ->
  Forall (fun i => piece_ok (i_first i) /\ piece_ok (i_second i)) l -> bytes_ok (snd s) -> bytes_ok (snd s1).
Proof.
  intros drop tbl ns ss L seg l s s1 H BS. induction H as [s|i l s s1 s2 s3 BI LT H1 H2 H3 IH|i s s1 D BI LT H1 NP FULL]; intros F BT.
  - exact BT.
  - inversion F as [|? ? [F1 F2] F']; subst. apply IH; [exact F'|]. apply (half_bytes _ _ _ _ _ _ _ _ H2 BS F2). apply (half_bytes _ _ _ _ _ _ _ _ H1 BS F1 BT).
  - inversion F as [|? ? [F1 F2] F']; subst. exact (half_bytes _ _ _ _ _ _ _ _ H1 BS F1 BT).
Qed.

Lemma data_bytes : forall l, bytes_ok (concat (map item_data l)) -> Forall (fun i => piece_ok (i_first i) /\ piece_ok (i_second i)) l.
Proof.
  induction l as [|i l IH]; intros B; constructor; cbn [map concat] in B; apply bytes_ok_app in B as [B1 B2]; auto.
  unfold item_data in B1. apply bytes_ok_app in B1. exact B1.
Qed.
Lemma inter_bytes : forall l, bytes_ok (concat (map item_bytes l)) -> Forall (fun i => piece_ok (i_first i) /\ piece_ok (i_second i)) l.
Proof.
  induction l as [|i l IH]; intros B; constructor; cbn [map concat] in B; apply bytes_ok_app in B as [B1 B2]; auto.
  unfold item_bytes, piece_bytes in B1. rewrite !bytes_ok_app in B1. unfold piece_ok. tauto.
Qed.

Lemma window_bytes : forall t f dict prev w T, Spec.window t f dict prev w T -> bytes_ok w -> bytes_ok dict -> bytes_ok prev -> bytes_ok T.
Proof.
  intros t f dict prev w T W BW BD BP.
  destruct W as [ind sb seg bd dl bt di bnd nd bni ni bna na bcks items body hist T BI SG VD VT BDI DI VND VNI VNA CF LA DL IM].
  rewrite !bytes_ok_app in BW. destruct BW as (_ & _ & _ & _ & _ & _ & _ & _ & _ & BB).
  assert (bytes_ok seg) as BS.
  { destruct SG as [A B|b1 b2 len pos s A B V1 V2 SL|b1 b2 len pos s A B _ V1 V2 SL]; [constructor| |];
      apply slice_inv in SL as (_ & _ & _ & -> & _); apply Forall_ztake, Forall_zdrop; assumption. }
  apply (items_bytes _ _ _ _ _ _ _ _ _ IM BS); [|constructor].
  destruct LA as [(_ & -> & _)|(_ & _ & _ & _ & ->)]; [apply inter_bytes; exact BB|].
  rewrite !bytes_ok_app in BB. apply data_bytes. tauto.
Qed.
