(** The instructions for a target put together from parts of the dictionary. *)

From Verif Require Import Base ListFacts Spec SpecEncode SpecFind SpecMaximal SpecEdits CopyFacts WriterFacts Engine EngineFacts Finds Maximal.
From Coq Require Import ZifyBool ZifyNat.

(** ** Counting new bytes and ends of parts up to a position *)

Fixpoint newb (ps : parts) (t : Z) : Z :=
  match ps with [] => 0 | (k, c) :: tl => (if k then 0 else Z.max 0 (Z.min t (zlen c))) + newb tl (t - zlen c) end.
Fixpoint endsb (ps : parts) (t : Z) : Z :=
  match ps with [] => 0 | (k, c) :: tl => (if zlen c <=? t then 1 else 0) + endsb tl (t - zlen c) end.
Fixpoint insideb (ps : parts) (t : Z) : bool :=
  match ps with [] => false | (k, c) :: tl => (k && (0 <? t) && (t <? zlen c)) || insideb tl (t - zlen c) end.
Definition plen (ps : parts) : Z := zlen (assembled ps).

Lemma plen_cons : forall k c ps, plen ((k, c) :: ps) = zlen c + plen ps.
Proof. intros. unfold plen, assembled. cbn [map snd concat]. apply zlen_app. Qed.
Lemma plen_nonneg : forall ps, 0 <= plen ps.
Proof. intros. apply zlen_nonneg. Qed.

Lemma newb_mono : forall ps t1 t2, t1 <= t2 -> newb ps t1 <= newb ps t2.
Proof.
  induction ps as [|[k c] ps IH]; intros t1 t2 L; cbn [newb]; [lia|]. specialize (IH (t1 - zlen c) (t2 - zlen c) ltac:(lia)).
  pose proof (zlen_nonneg _ c). destruct k; lia.
Qed.
Lemma endsb_mono : forall ps t1 t2, t1 <= t2 -> endsb ps t1 <= endsb ps t2.
Proof.
  induction ps as [|[k c] ps IH]; intros t1 t2 L; cbn [endsb]; [lia|]. specialize (IH (t1 - zlen c) (t2 - zlen c) ltac:(lia)).
  destruct (Z.leb_spec (zlen c) t1), (Z.leb_spec (zlen c) t2); lia.
Qed.
Lemma newb_0 : forall ps t, t <= 0 -> newb ps t = 0.
Proof.
  induction ps as [|[k c] ps IH]; intros t L; cbn [newb]; [reflexivity|]. pose proof (zlen_nonneg _ c). rewrite IH by lia. destruct k; lia.
Qed.
Lemma endsb_neg : forall ps t, t < 0 -> endsb ps t = 0.
Proof.
  induction ps as [|[k c] ps IH]; intros t L; cbn [endsb]; [reflexivity|]. pose proof (zlen_nonneg _ c). rewrite IH by lia.
  destruct (Z.leb_spec (zlen c) t); lia.
Qed.
Lemma endsb_nonneg : forall ps t, 0 <= endsb ps t.
Proof. induction ps as [|[k c] ps IH]; intros t; cbn [endsb]; [lia|]. specialize (IH (t - zlen c)). destruct (_ <=? _); lia. Qed.
Lemma insideb_neg : forall ps t, t <= 0 -> insideb ps t = false.
Proof.
  induction ps as [|[k c] ps IH]; intros t L; cbn [insideb]; [reflexivity|]. pose proof (zlen_nonneg _ c). rewrite IH by lia.
  destruct k; cbn [andb orb]; [|reflexivity]. destruct (Z.ltb_spec 0 t); [lia|reflexivity].
Qed.
Lemma newb_all : forall ps t, plen ps <= t -> newb ps t = new_bytes ps.
Proof.
  induction ps as [|[k c] ps IH]; intros t L; cbn [newb new_bytes]; [reflexivity|]. rewrite plen_cons in L. pose proof (plen_nonneg ps).
  rewrite IH by lia. pose proof (zlen_nonneg _ c). destruct k; lia.
Qed.
Lemma endsb_le : forall ps t, endsb ps t <= zlen ps.
Proof.
  induction ps as [|[k c] ps IH]; intros t; cbn [endsb]; [rewrite zlen_nil; lia|]. rewrite zlen_cons. specialize (IH (t - zlen c)).
  destruct (_ <=? _); lia.
Qed.

Lemma locate : forall ps t, 0 <= t < plen ps -> exists p1 k c p2, ps = p1 ++ (k, c) :: p2 /\ plen p1 <= t < plen p1 + zlen c.
Proof.
  induction ps as [|[k c] ps IH]; intros t L.
  - change (plen []) with (zlen (@nil Z)) in L. rewrite zlen_nil in L. lia.
  - rewrite plen_cons in L. destruct (Z.lt_ge_cases t (zlen c)) as [A|A].
    + exists [], k, c, ps. split; [reflexivity|]. change (plen []) with (zlen (@nil Z)). rewrite zlen_nil. lia.
    + destruct (IH (t - zlen c) ltac:(lia)) as (p1 & k' & c' & p2 & -> & B). exists ((k, c) :: p1), k', c', p2. split; [reflexivity|].
      rewrite plen_cons. lia.
Qed.
Lemma inside_at : forall ps t, insideb ps t = true -> exists p1 c p2, ps = p1 ++ (true, c) :: p2 /\ plen p1 < t < plen p1 + zlen c.
Proof.
  induction ps as [|[k c] ps IH]; intros t H; cbn [insideb] in H; [discriminate|]. apply orb_prop in H as [H|H].
  - destruct k; [|discriminate]. cbn [andb] in H. exists [], c, ps. split; [reflexivity|]. change (plen []) with (zlen (@nil Z)). rewrite zlen_nil. lia.
  - destruct (IH _ H) as (p1 & c' & p2 & -> & B). exists ((k, c) :: p1), c', p2. split; [reflexivity|]. rewrite plen_cons. lia.
Qed.

Lemma ends_step : forall p1 k c p2 t t2, plen p1 <= t < plen p1 + zlen c -> plen p1 + zlen c <= t2 ->
  endsb (p1 ++ (k, c) :: p2) t + 1 <= endsb (p1 ++ (k, c) :: p2) t2.
Proof.
  induction p1 as [|[k0 c0] p1 IH]; intros k c p2 t t2 A B; cbn [app endsb].
  - change (plen []) with (zlen (@nil Z)) in *. rewrite zlen_nil in *. rewrite (endsb_neg p2 (t - zlen c)) by lia.
    pose proof (endsb_nonneg p2 (t2 - zlen c)). destruct (Z.leb_spec (zlen c) t), (Z.leb_spec (zlen c) t2); lia.
  - rewrite plen_cons in *. pose proof (plen_nonneg p1). specialize (IH k c p2 (t - zlen c0) (t2 - zlen c0) ltac:(lia) ltac:(lia)).
    destruct (Z.leb_spec (zlen c0) t), (Z.leb_spec (zlen c0) t2); lia.
Qed.
Lemma new_step : forall p1 c p2 t t2, plen p1 <= t -> t <= t2 <= plen p1 + zlen c ->
  newb (p1 ++ (false, c) :: p2) t2 = newb (p1 ++ (false, c) :: p2) t + (t2 - t).
Proof.
  induction p1 as [|[k0 c0] p1 IH]; intros c p2 t t2 A B; cbn [app newb].
  - change (plen []) with (zlen (@nil Z)) in *. rewrite zlen_nil in *. rewrite !newb_0 by lia. lia.
  - rewrite plen_cons in *. pose proof (plen_nonneg p1). rewrite (IH c p2 (t - zlen c0) (t2 - zlen c0)) by lia.
    pose proof (zlen_nonneg _ c0). destruct k0; lia.
Qed.

(** A range that has at most 46 bytes of every kept part. *)
Lemma add_step : forall ps t1 t2, t1 <= t2 <= plen ps ->
  (forall p1 c p2, ps = p1 ++ (true, c) :: p2 -> Z.min t2 (plen p1 + zlen c) - Z.max t1 (plen p1) <= 46) ->
  Z.max 0 t2 - Z.max 0 t1 <= newb ps t2 - newb ps t1 + 46 * (endsb ps t2 - endsb ps t1) + (if insideb ps t2 then 46 else 0).
Proof.
  induction ps as [|[k c] ps IH]; intros t1 t2 L H.
  - change (plen []) with (zlen (@nil Z)) in L. rewrite zlen_nil in L. cbn [newb endsb insideb]. lia.
  - rewrite plen_cons in L. pose proof (zlen_nonneg _ c). cbn [newb endsb insideb].
    specialize (IH (t1 - zlen c) (t2 - zlen c) ltac:(lia)).
    assert (Z.max 0 (t2 - zlen c) - Z.max 0 (t1 - zlen c) <= newb ps (t2 - zlen c) - newb ps (t1 - zlen c) +
      46 * (endsb ps (t2 - zlen c) - endsb ps (t1 - zlen c)) + (if insideb ps (t2 - zlen c) then 46 else 0)) as IH'.
    { apply IH. intros p1 c' p2 E. specialize (H ((k, c) :: p1) c' p2). rewrite plen_cons in H. rewrite E in H. specialize (H eq_refl). lia. }
    clear IH. pose proof (insideb_neg ps (t2 - zlen c)) as IN.
    destruct k.
    + specialize (H [] c ps eq_refl). change (plen []) with (zlen (@nil Z)) in H. rewrite zlen_nil in H. cbn [andb].
      destruct (Z.ltb_spec 0 t2), (Z.ltb_spec t2 (zlen c)), (Z.leb_spec (zlen c) t1), (Z.leb_spec (zlen c) t2); cbn [andb orb]; try lia;
        try (rewrite IN in IH' by lia; lia).
    + cbn [andb orb]. destruct (Z.leb_spec (zlen c) t1), (Z.leb_spec (zlen c) t2); lia.
Qed.

(** ** Bytes of the target *)

Definition same_bytes (l : list Z) (i : Z) (m : list Z) (j n : Z) : Prop := forall x, 0 <= x < n -> get l (i + x) = get m (j + x).

Lemma slices_same : forall l i m j n, 0 <= n -> 0 <= i -> i + n <= zlen l -> 0 <= j -> j + n <= zlen m -> same_bytes l i m j n ->
  exists s, slice l i n = Some s /\ slice m j n = Some s.
Proof.
  intros l i m j n N I L J M S. rewrite !slice_some by lia. eexists. split; [reflexivity|]. f_equal. apply get_ext. intros x X.
  destruct (Z.lt_ge_cases x n).
  - rewrite !get_ztake, !get_zdrop by lia. symmetry. apply S. lia.
  - transitivity (@None Z); [|symmetry]; apply get_none; rewrite zlen_ztake by lia; lia.
Qed.

Lemma part_bytes : forall dict p1 c p2, kept_parts dict (p1 ++ (true, c) :: p2) ->
  exists i, 0 <= i /\ i + zlen c <= zlen dict /\ same_bytes (assembled (p1 ++ (true, c) :: p2)) (plen p1) dict i (zlen c).
Proof.
  intros dict p1 c p2 K. unfold kept_parts in K. rewrite Forall_app in K. destruct K as [_ K]. inversion K as [|? ? H _]; subst. cbn [fst snd] in H.
  destruct (H eq_refl) as (i & E). apply slice_inv in E as (A & B & C & D & _). exists i. split; [exact A|]. split; [exact C|].
  intros x X. unfold assembled. rewrite map_app, concat_app. cbn [map snd concat]. fold (assembled p1). unfold plen.
  rewrite get_app_r by lia. replace (zlen (assembled p1) + x - zlen (assembled p1)) with x by lia. rewrite get_app_l by lia.
  rewrite D. rewrite get_ztake, get_zdrop by lia. reflexivity.
Qed.

Lemma parts_length : forall p1 k c p2, plen p1 + zlen c <= plen (p1 ++ (k, c) :: p2).
Proof.
  intros. unfold plen, assembled. rewrite map_app, concat_app. cbn [map snd concat]. rewrite !zlen_app.
  pose proof (zlen_nonneg _ (concat (map snd p2))). lia.
Qed.

(** ** The instructions *)

Lemma gp_copy_inv : forall look dict T b a n l T', genuine_plan look dict T b (Copy a n :: l) T' ->
  32 <= n /\ ((0 <= a /\ a + n <= zlen dict) \/ (look = true /\ zlen dict <= a < zlen dict + zlen T)) /\
  exists T1, copy_bytewise (Z.to_nat n) dict T a = Some T1 /\ genuine_plan look dict T1 false l T'.
Proof. intros look dict T b a n l T' G. inversion G; subst. eauto 6. Qed.
Lemma gp_cases : forall look dict T b l T', genuine_plan look dict T b l T' ->
  (l = [] /\ T' = T) \/ (exists d l', l = Add d :: l' /\ genuine_plan look dict (T ++ d) true l' T') \/ (exists a n l', l = Copy a n :: l').
Proof. intros look dict T b l T' G. inversion G; subst; eauto 8. Qed.
Lemma gp_cases_after : forall look dict T l T', genuine_plan look dict T true l T' ->
  (l = [] /\ T' = T) \/ (exists a n l', l = Copy a n :: l').
Proof. intros look dict T l T' G. inversion G; subst; eauto 8. Qed.

Lemma copy_pointwise : forall n seg T a T', copy_bytewise n seg T a = Some T' -> 0 <= a ->
  forall x, 0 <= x < Z.of_nat n -> get T' (zlen T + x) = get (seg ++ T') (a + x).
Proof.
  induction n as [|n IH]; intros seg T a T' H A x X; [lia|]. cbn [copy_bytewise] in H.
  destruct (get (seg ++ T) a) as [y|] eqn:G; [|discriminate]. destruct (Z.eq_dec x 0) as [->|NX].
  - destruct (copy_bytewise_length _ _ _ _ _ H) as (bs & -> & _). rewrite !Z.add_0_r. apply get_range in G as R.
    rewrite <- app_assoc. rewrite (app_assoc seg T), (get_app_l _ (seg ++ T)) by lia. rewrite G.
    rewrite get_app_r by lia. rewrite Z.sub_diag. apply get_0.
  - pose proof (IH _ _ _ _ H ltac:(lia) (x - 1) ltac:(lia)) as E. rewrite zlen_app in E. change (zlen [y]) with 1 in E.
    replace (zlen T + 1 + (x - 1)) with (zlen T + x) in E by lia. replace (a + 1 + (x - 1)) with (a + x) in E by lia. exact E.
Qed.

Section Edit.
Context (dict : list Z) (ps : parts) (en : engine) (l : list instruction) (look : bool).
Let target := assembled ps.
Context (BD : bytes_ok dict) (BT : bytes_ok target) (L : zlen dict + zlen target <= int32_max)
  (U : unique16 dict) (C : uncrowded dict) (K : kept_parts dict ps)
  (EI : engine_init (new_engine dict) = Some (en, true)) (EE : engine_encode en look target = Some (Some l))
  (UT : look = true -> unique16 target).

(** A COPY that starts in a kept part goes at least to its end. *)
Lemma copy_reaches : forall l1 a n l2 T T1 rest p1 c p2, l = l1 ++ Copy a n :: l2 -> execute_all dict [] l1 = Some T ->
  32 <= n -> 0 <= a -> a + n <= zlen dict -> copy_bytewise (Z.to_nat n) dict T a = Some T1 -> target = T1 ++ rest ->
  ps = p1 ++ (true, c) :: p2 -> plen p1 <= zlen T < plen p1 + zlen c -> plen p1 + zlen c <= zlen T + n.
Proof.
  intros l1 a n l2 T T1 rest p1 c p2 EL EX N A AN CB ET EP R.
  destruct (Z.le_gt_cases (plen p1 + zlen c) (zlen T + n)) as [|G]; [assumption|exfalso].
  assert (n <= zlen dict) as ND by lia. pose proof (zlen_nonneg _ T) as NT. pose proof (plen_nonneg p1).
  rewrite copy_bytewise_block in CB by (rewrite ?zlen_app; lia). rewrite Z2Nat.id in CB by lia. assert (T1 = T ++ ztake n (zdrop a (dict ++ T))) as E1 by congruence. clear CB.
  pose proof K as K'. rewrite EP in K'. destruct (part_bytes _ _ _ _ K') as (i & I1 & I2 & S). rewrite <- EP in S. fold target in S.
  pose proof (parts_length p1 true c p2) as PL. rewrite <- EP in PL. change (plen ps) with (zlen target) in PL.
  assert (same_bytes target (zlen T) dict a n) as ST.
  { intros x X. rewrite ET, E1, <- app_assoc. rewrite get_app_r by lia. replace (zlen T + x - zlen T) with x by lia.
    assert (zlen (ztake n (zdrop a (dict ++ T))) = n) as ZN.
    { rewrite zlen_ztake by lia. rewrite zlen_zdrop by lia. rewrite zlen_app. lia. }
    rewrite get_app_l by lia.
    rewrite get_ztake, get_zdrop by lia. rewrite get_app_l by lia. reflexivity. }
  set (t := zlen T) in *. set (s := plen p1) in *.
  assert (a = i + (t - s)) as ->.
  { destruct (slices_same dict (i + (t - s)) dict a 16) as (u & U1 & U2); try lia.
    - intros x X. rewrite <- ST by lia. replace (i + (t - s) + x) with (i + (t - s + x)) by lia. rewrite <- S by lia. f_equal. lia.
    - exact (U _ _ _ U2 U1). }
  destruct (copies_maximal dict look target en l l1 (i + (t - s)) n l2 T BD BT L EI EE EL EX) as [MX _]. apply MX.
  unfold extends_right, source_of. replace (i + (t - s) <? zlen dict) with true by lia. split; [lia|]. split; [unfold t in *; lia|].
  fold t. replace (i + (t - s) + n) with (i + (t - s + n)) by lia. rewrite <- S by lia. f_equal. lia.
Qed.

(** An ADD has at most 46 bytes of a kept part. *)
Lemma add_short : forall l1 d l2 T rest p1 c p2, l = l1 ++ Add d :: l2 -> execute_all dict [] l1 = Some T -> target = (T ++ d) ++ rest ->
  ps = p1 ++ (true, c) :: p2 -> Z.min (zlen T + zlen d) (plen p1 + zlen c) - Z.max (zlen T) (plen p1) <= 46.
Proof.
  intros l1 d l2 T rest p1 c p2 EL EX ET EP. pose proof K as K'. rewrite EP in K'. destruct (part_bytes _ _ _ _ K') as (i & I1 & I2 & S). rewrite <- EP in S. fold target in S.
  pose proof (zlen_nonneg _ T). pose proof (plen_nonneg p1). pose proof (zlen_nonneg _ d).
  set (t := zlen T) in *. set (s := plen p1) in *. set (m := Z.max t s). set (e := Z.min (t + zlen d) (s + zlen c)).
  destruct (Z.le_gt_cases (e - m) 46) as [|G]; [assumption|exfalso].
  destruct (slices_same dict (i + (m - s)) d (m - t) 47) as (u & U1 & U2); try lia.
  { intros x X. transitivity (get target (m + x)).
    - replace (i + (m - s) + x) with (i + (m - s + x)) by lia. rewrite <- S by lia. f_equal. lia.
    - rewrite ET, get_app_l by (rewrite zlen_app; fold t; lia). rewrite get_app_r by (fold t; lia). fold t. f_equal. lia. }
  set (q := i + (m - s)) in *. set (b := (q + 15) / 16).
  assert (16 * b <= q + 15 < 16 * b + 16) as BB.
  { unfold b. pose proof (Z.div_mod (q + 15) 16 ltac:(lia)). pose proof (Z.mod_pos_bound (q + 15) 16 ltac:(lia)). lia. }
  clearbody b. assert (0 <= q /\ q + 47 <= zlen dict) as [Q1 Q2] by (unfold q; lia).
  assert (16 < crowd (zlen dict) dict b) as CR.
  { eapply (found_dict dict look target en l l1 d l2 T q (m - t) 47 b); eauto; [|lia]. split; [exists u; auto|]. split; lia. }
  specialize (C b ltac:(lia) ltac:(lia)). lia.
Qed.

Lemma edit_costs : forall k l2 l1 T b, (length l2 <= k)%nat -> l = l1 ++ l2 -> execute_all dict [] l1 = Some T ->
  genuine_plan look dict T b l2 target ->
  costs l2 <= newb ps (zlen target) - newb ps (zlen T) + 109 * (endsb ps (zlen target) - endsb ps (zlen T)) + 6.
Proof.
  induction k as [|k IH]; intros l2 l1 T b LK EL EX GP.
  { destruct l2; [|cbn in LK; lia]. destruct (gp_cases _ _ _ _ _ _ GP) as [[_ E]|[(? & ? & ? & _)|(? & ? & ? & ?)]]; try discriminate. rewrite E. cbn [costs]. lia. }
  assert (forall l0 l1 b0 a n l2 T0 b1, l = l1 ++ Copy a n :: l2 -> execute_all dict [] l1 = Some T0 -> l0 = Copy a n :: l2 ->
    genuine_plan look dict T0 b0 l0 target -> b1 = b0 ->
    exists T1, execute dict T0 (Copy a n) = Some T1 /\ genuine_plan look dict T1 false l2 target /\ zlen T0 <= zlen T1 /\ zlen T1 = zlen T0 + n /\ 32 <= n /\
      (endsb ps (zlen T0) + 1 <= endsb ps (zlen T1) \/ (insideb ps (zlen T0) = false /\ newb ps (zlen T1) = newb ps (zlen T0) + n))) as COPY.
  { clear - EI EE BD BT L U K UT. intros l0 l1 b0 a n l2 T0 b1 EL EX E0 GP _. subst l0.
    destruct (gp_copy_inv _ _ _ _ _ _ _ _ GP) as (N & AD & T1 & CB & GP1).
    destruct (genuine_plan_grows _ _ _ _ _ _ GP1) as (rest & ET).
    destruct (copy_bytewise_length _ _ _ _ _ CB) as (bs & EB & LB).
    assert (zlen T1 = zlen T0 + n) as LT1 by (rewrite EB, zlen_app; lia). clear EB.
    assert (0 <= a /\ a + n <= zlen dict) as [A AN].
    { destruct AD as [AD|[LK AD]]; [exact AD|exfalso]. pose proof (zlen_nonneg _ dict). pose proof (zlen_nonneg _ rest).
      assert (zlen target = zlen T1 + zlen rest) as ZT by (rewrite ET; apply zlen_app).
      destruct (slices_same target (zlen T0) target (a - zlen dict) 16) as (u & U1 & U2); try lia.
      - intros x X. rewrite ET, !get_app_l by lia. rewrite (copy_pointwise _ _ _ _ _ CB) by lia. rewrite get_app_r by lia. f_equal. lia.
      - specialize (UT LK _ _ _ U1 U2). lia. }
    exists T1. split.
    { cbn [execute]. replace ((0 <=? a) && (a <? zlen dict + zlen T0)) with true by (pose proof (zlen_nonneg _ T0); lia). exact CB. }
    split; [exact GP1|]. split; [lia|]. split; [exact LT1|]. split; [exact N|].
    assert (zlen T1 <= plen ps) as LP.
    { unfold plen. fold target. rewrite ET, zlen_app. pose proof (zlen_nonneg _ rest). lia. }
    pose proof (zlen_nonneg _ T0).
    destruct (insideb ps (zlen T0)) eqn:IN.
    - left. destruct (inside_at _ _ IN) as (p1 & c & p2 & EP & R).
      pose proof (copy_reaches l1 a n l2 T0 T1 rest p1 c p2 EL EX N A AN CB ET EP ltac:(lia)) as RE.
      rewrite EP. apply ends_step; lia.
    - destruct (locate ps (zlen T0)) as (p1 & k & c & p2 & EP & R); [lia|]. destruct k.
      + left. pose proof (copy_reaches l1 a n l2 T0 T1 rest p1 c p2 EL EX N A AN CB ET EP ltac:(lia)) as RE.
        rewrite EP. apply ends_step; lia.
      + destruct (Z.le_gt_cases (plen p1 + zlen c) (zlen T1)).
        * left. rewrite EP. apply ends_step; lia.
        * right. split; [reflexivity|]. rewrite EP. rewrite (new_step p1 c p2 (zlen T0) (zlen T1)); lia. }
  destruct (gp_cases _ _ _ _ _ _ GP) as [[E2 E]|[(d & l3 & E2 & GP1)|(a & n & l3 & E2)]]; rewrite E2 in *; clear E2 l2; cbn [costs cost].
  - rewrite E. lia.
  - destruct (genuine_plan_grows _ _ _ _ _ _ GP1) as (rest & ET).
    assert (execute_all dict [] (l1 ++ [Add d]) = Some (T ++ d)) as EX1.
    { clear - EX. revert EX. generalize (@nil Z). induction l1 as [|x l1 IH]; intros T0 EX; cbn [app execute_all] in *.
      - injection EX as ->. reflexivity.
      - destruct (execute dict T0 x); [|discriminate]. apply IH. exact EX. }
    assert (zlen T + zlen d <= plen ps) as LP.
    { unfold plen. fold target. rewrite ET, !zlen_app. pose proof (zlen_nonneg _ rest). lia. }
    pose proof (zlen_nonneg _ T). pose proof (zlen_nonneg _ d).
    pose proof (add_step ps (zlen T) (zlen T + zlen d) ltac:(lia)) as AS.
    specialize (AS (fun p1 c p2 EP => add_short l1 d l3 T rest p1 c p2 EL EX ET EP)).
    assert (l = (l1 ++ [Add d]) ++ l3) as EL1 by (rewrite <- app_assoc; exact EL).
    pose proof (newb_mono ps (zlen T) (zlen T + zlen d) ltac:(lia)) as M1. pose proof (endsb_mono ps (zlen T) (zlen T + zlen d) ltac:(lia)) as M2.
    destruct (gp_cases_after _ _ _ _ _ GP1) as [[E3 E]|(a & n & l4 & E3)]; rewrite E3 in *; clear E3 l3.
    + (* the ADD is the last *) cbn [costs].
      assert (insideb ps (zlen T + zlen d) = false) as IN.
      { destruct (insideb ps (zlen T + zlen d)) eqn:IN; [|reflexivity]. destruct (inside_at _ _ IN) as (p1 & c & p2 & EP & R).
        pose proof (parts_length p1 true c p2) as PL. rewrite <- EP in PL.
        assert (plen ps = zlen T + zlen d) as PE by (unfold plen; fold target; rewrite <- zlen_app; congruence). lia. }
      rewrite IN in AS. assert (zlen target = zlen T + zlen d) as PE by (rewrite <- zlen_app; congruence). rewrite PE. lia.
    + destruct (COPY (Copy a n :: l4) (l1 ++ [Add d]) true a n l4 (T ++ d) true EL1 EX1 eq_refl GP1 eq_refl) as (T2 & X2 & GP3 & LE & LT & N32 & CASE).
      rewrite zlen_app in *.
      assert (execute_all dict [] ((l1 ++ [Add d]) ++ [Copy a n]) = Some T2) as EX2.
      { clear - EX1 X2. revert EX1. generalize (@nil Z). generalize (l1 ++ [Add d]). intros q. induction q as [|x q IH]; intros T0 EX1; cbn [app execute_all] in *.
        - injection EX1 as ->. rewrite X2. reflexivity.
        - destruct (execute dict T0 x); [|discriminate]. apply IH. exact EX1. }
      assert (costs l4 <= newb ps (zlen target) - newb ps (zlen T2) + 109 * (endsb ps (zlen target) - endsb ps (zlen T2)) + 6) as R.
      { apply (IH l4 ((l1 ++ [Add d]) ++ [Copy a n]) T2 false); auto.
        - cbn [length] in LK. lia.
        - rewrite <- !app_assoc. exact EL. }
      cbn [costs cost]. pose proof (newb_mono ps (zlen T + zlen d) (zlen T2) ltac:(lia)) as M3. pose proof (endsb_mono ps (zlen T + zlen d) (zlen T2) ltac:(lia)) as M4.
      destruct CASE as [CASE|[IN CASE]].
      * destruct (insideb ps (zlen T + zlen d)); lia.
      * rewrite IN in AS. lia.
  - destruct (COPY (Copy a n :: l3) l1 b a n l3 T b EL EX eq_refl GP eq_refl) as (T2 & X2 & GP3 & LE & LT & N32 & CASE).
    assert (execute_all dict [] (l1 ++ [Copy a n]) = Some T2) as EX2.
    { clear - EX X2. revert EX. generalize (@nil Z). induction l1 as [|x q IH]; intros T0 EX1; cbn [app execute_all] in *.
      - injection EX1 as ->. rewrite X2. reflexivity.
      - destruct (execute dict T0 x); [|discriminate]. apply IH. exact EX1. }
    assert (costs l3 <= newb ps (zlen target) - newb ps (zlen T2) + 109 * (endsb ps (zlen target) - endsb ps (zlen T2)) + 6) as R.
    { apply (IH l3 (l1 ++ [Copy a n]) T2 false); auto.
      - cbn [length] in LK. lia.
      - rewrite <- !app_assoc. exact EL. }
    pose proof (newb_mono ps (zlen T) (zlen T2) ltac:(lia)) as M3. pose proof (endsb_mono ps (zlen T) (zlen T2) ltac:(lia)) as M4.
    destruct CASE as [CASE|[IN CASE]]; lia.
Qed.

End Edit.
