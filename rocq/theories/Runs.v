(** Facts for C51: repetitive data. *)

From Verif Require Import Base ListFacts Spec SpecEncode SpecFind SpecMaximal CopyFacts WriterFacts RollingHash BlockHash BlockHashFacts Engine EngineFacts Finds Maximal.
From Coq Require Import ZifyBool ZifyNat.

Lemma periodic_mult : forall p l k, 0 <= p -> periodic p l -> 0 <= k -> forall i, 0 <= i -> i + k * p < zlen l -> get l (i + k * p) = get l i.
Proof.
  intros p l k P PE K. pattern k. apply natlike_ind; [| |exact K].
  - intros i I L. f_equal. lia.
  - clear k K. intros k K IH i I L. rewrite <- (IH i I) by nia. rewrite <- (PE (i + k * p)); [f_equal; lia|nia|nia].
Qed.

Lemma block0_easy : forall l, 16 <= zlen l -> easy (zlen l) l 0.
Proof. intros l L. split; [lia|]. split; [lia|]. pose proof (crowd_le (zlen l) l 0 ltac:(lia)). lia. Qed.

(** The data at a multiple of the period repeats the beginning of the target. *)
Lemma periodic_around : forall p l k start, 0 < p -> periodic p l -> 0 <= k -> start <= k * p -> k * p + 16 <= zlen l ->
  around l 0 l (k * p) start 0 (zlen l - k * p - 16).
Proof.
  intros p l k start P PE K ST L. split; [lia|]. split; [lia|]. split; [lia|]. split; [nia|]. split; [lia|]. split; [nia|]. split; [lia|].
  intros i I. replace (0 * 16 - 0 + i) with i by lia. replace (k * p - 0 + i) with (i + k * p) by lia. symmetry. apply periodic_mult; [lia|exact PE|lia|lia|lia].
Qed.
Lemma periodic_hit : forall p l k start, 0 < p -> periodic p l -> 0 < k -> start <= k * p -> k * p + 32 <= zlen l -> hit l l (k * p) start (k * p).
Proof.
  intros p l k start P PE K ST L. exists 0, 0, (zlen l - k * p - 16). split; [apply block0_easy; nia|]. split; [nia|]. split; [lia|].
  apply periodic_around; auto; lia.
Qed.

(** A COPY from the target, at least as long as the period, goes to the end. *)
Lemma target_copy_end : forall p dict target look ne mt n a, 0 < p <= 32 -> periodic p target ->
  good_copy dict target look ne mt n a -> zlen dict <= a -> ne + mt + n = zlen target.
Proof.
  intros p dict target look ne mt n a P PE (N0 & MT & N32 & LE & WH & XR & _ & SR & _) A.
  destruct WH as [WH|[_ WH]]; [lia|].
  unfold extends_right in XR. unfold source_of in XR, SR. destruct (Z.ltb_spec a (zlen dict)) as [X|_]; [lia|]. cbv zeta in XR, SR.
  set (s := a - zlen dict) in *. assert (0 <= s < ne + mt) as SP by (unfold s; lia). clearbody s. clear WH A.
  set (t := ne + mt) in *. assert (0 <= t) by (unfold t; lia). clearbody t.
  destruct SR as (S1 & S2 & _ & S3 & S4 & S5).
  destruct (Z.lt_ge_cases (t + n) (zlen target)) as [LT|GE]; [|lia]. exfalso. apply XR. split; [lia|]. split; [exact LT|].
  (* T[t+n] = T[t+n-p] = T[s+n-p] = T[s+n] *)
  pose proof (PE (s + n - p) ltac:(lia) ltac:(lia)) as E1. replace (s + n - p + p) with (s + n) in E1 by lia.
  pose proof (PE (t + n - p) ltac:(lia) ltac:(lia)) as E2. replace (t + n - p + p) with (t + n) in E2 by lia.
  pose proof (S5 (n - p) ltac:(lia)) as E3. replace (s + (n - p)) with (s + n - p) in E3 by lia. replace (t + (n - p)) with (t + n - p) in E3 by lia.
  congruence.
Qed.

Lemma steps_end : forall dict target look l e, steps (emitted dict target look) (zlen target) l e -> l = [] /\ e = zlen target.
Proof.
  intros dict target look l e S. inversion S as [|p k c l' e' (mt & n & a & _ & _ & (N0 & MT & N32 & LE & _)) S']; subst; [auto|lia].
Qed.

(** What the engine emits, in one form for both theorems. *)
Lemma engine_parts : forall dict look target en l,
  bytes_ok dict -> bytes_ok target -> zlen dict + zlen target <= int32_max ->
  engine_init (new_engine dict) = Some (en, true) -> engine_encode en look target = Some (Some l) ->
  exists ls e, steps (emitted dict target look) 0 ls e /\ e <= zlen target /\ quiet dict target look e (zlen target) /\
    costs l <= costs ls + (6 + (zlen target - e)).
Proof.
  intros dict look target en l BD BT L EI EE. pose proof (zlen_nonneg _ target). pose proof (zlen_nonneg _ dict).
  destruct (engine_init_full dict BD) as (dh & dhs & EI2 & F); [lia|]. rewrite EI in EI2. injection EI2 as ->.
  destruct (engine_in_steps dict dh dhs look target l F BT L EE) as (ls & e & S & Q & C).
  exists ls, e. split; [apply (steps_mono _ (emitted dict target look)) in S; [exact S|intros; eapply found_emitted; eauto; lia]|].
  destruct C as [[-> ->]|(d & -> & SL & LD)].
  - split; [lia|]. split; [exact Q|]. lia.
  - pose proof (zlen_nonneg _ d). split; [lia|]. split; [exact Q|].
    assert (forall a b, costs (a ++ b) = costs a + costs b) as CA by (induction a; intros; cbn [app costs]; [lia|rewrite IHa; lia]).
    rewrite CA. cbn [costs cost]. lia.
Qed.

Lemma costs_step : forall mt ne target a n l, 0 <= mt -> ne + mt <= zlen target -> 0 <= ne ->
  costs ((if 0 <? mt then [Add (ztake mt (zdrop ne target)); Copy a n] else [Copy a n]) ++ l) <= (if 0 <? mt then 17 + mt else 11) + costs l.
Proof.
  intros mt ne target a n l M L N. destruct (0 <? mt); cbn [app costs cost]; [|lia]. rewrite zlen_ztake, zlen_zdrop by lia. lia.
Qed.

Theorem periodic_costs : forall p dict target en l, 0 < p <= 32 -> periodic p target -> zlen dict < 32 ->
  bytes_ok dict -> bytes_ok target -> zlen dict + zlen target <= int32_max ->
  engine_init (new_engine dict) = Some (en, true) -> engine_encode en true target = Some (Some l) -> costs l <= 69.
Proof.
  intros p dict target en l P PE SD BD BT L EI EE.
  destruct (engine_parts dict true target en l BD BT L EI EE) as (ls & e & S & LE & Q & C).
  assert (p + 32 <= zlen target -> hit target target p 0 p) as HI.
  { intros H. pose proof (periodic_hit p target 1 0 ltac:(lia) PE ltac:(lia) ltac:(lia) ltac:(lia)) as X. rewrite Z.mul_1_l in X. exact X. }
  inversion S as [p0 E1 E2 E3|p0 k c l' e' (mt & n & a & EC & EK & G) S' E1 E2 E3].
  - subst. cbn [costs] in C. destruct (Z.lt_ge_cases (zlen target) (p + 32)) as [SM|BG]; [lia|].
    exfalso. destruct (Q p ltac:(lia) ltac:(lia)) as [_ X]. apply (X eq_refl). apply HI. lia.
  - subst. pose proof G as (N0 & MT & N32 & LE2 & WH & _ & _ & _ & cand & C1 & C2 & CM & _).
    assert (zlen dict <= a) as A by (destruct WH as [WH|[_ WH]]; lia).
    pose proof (target_copy_end p dict target true 0 mt n a P PE G A) as EN. rewrite Z.add_0_l in *. rewrite EN in S'.
    apply steps_end in S' as [-> ->].
    pose proof (costs_step mt 0 target a n [] MT ltac:(lia) ltac:(lia)) as CS. cbn [costs] in CS.
    assert (mt <= 32); [|destruct (0 <? mt); lia].
    destruct (Z.lt_ge_cases (zlen target) (p + 32)) as [SM|BG]; [lia|].
    destruct (Z.lt_ge_cases p cand) as [X|X]; [|lia]. exfalso. destruct (CM p ltac:(lia)) as [_ Y]. apply (Y eq_refl). apply HI. lia.
Qed.

Lemma zrepeat_periodic : forall b n, periodic 1 (zrepeat b n).
Proof.
  intros b n i I L. destruct (Z.le_gt_cases 0 n) as [N|N].
  - rewrite zlen_zrepeat in L by lia. rewrite !get_zrepeat' by lia. reflexivity.
  - exfalso. unfold zrepeat in L. replace (Z.to_nat n) with O in L by lia. cbn [repeat] in L. rewrite zlen_nil in L. lia.
Qed.

Theorem run_costs : forall dict target en l, periodic 1 target ->
  bytes_ok dict -> bytes_ok target -> zlen dict + zlen target <= int32_max ->
  engine_init (new_engine dict) = Some (en, true) -> engine_encode en true target = Some (Some l) -> costs l <= 48.
Proof.
  intros dict target en l PE BD BT L EI EE.
  destruct (engine_parts dict true target en l BD BT L EI EE) as (ls & e & S & LE & Q & C).
  assert (forall c start, 0 < c -> start <= c -> c + 32 <= zlen target -> hit target target c start c) as HI.
  { intros c start C0 C1 C2. pose proof (periodic_hit 1 target c start ltac:(lia) PE C0 ltac:(lia) ltac:(lia)) as X. rewrite Z.mul_1_r in X. exact X. }
  assert (forall c start n, 0 < c -> start <= c -> c + 16 <= zlen target -> longest target target c start c n -> zlen target - c <= n) as LO.
  { intros c start n C0 C1 C2 X. pose proof (periodic_around 1 target c start ltac:(lia) PE ltac:(lia) ltac:(lia) ltac:(lia)) as Y. rewrite Z.mul_1_r in Y.
    specialize (X 0 _ _ (block0_easy target ltac:(lia)) ltac:(lia) Y). lia. }
  assert (0 < e -> zlen target - e < 32) as QE.
  { intros E0. destruct (Z.lt_ge_cases (zlen target - e) 32) as [X|X]; [exact X|]. exfalso.
    destruct (Q e ltac:(lia) ltac:(lia)) as [_ Y]. apply (Y eq_refl). apply HI; lia. }
  (* a step that does not begin at 0 goes to the end *)
  assert (forall ne l1 e1, 0 < ne -> ne <= zlen target -> steps (emitted dict target true) ne l1 e1 -> l1 = [] /\ e1 = ne \/ costs l1 <= 11 /\ e1 = zlen target) as ST.
  { intros ne l1 e1 N NL S1. inversion S1 as [p0 E1 E2 E3|p0 k c l' e' (mt & n & a & EC & EK & G) S' E1 E2 E3]; subst; [left; auto|right].
    pose proof G as (N0 & MT & N32 & LE2 & WH & _ & _ & _ & cand & C1 & C2 & CM & L1 & L2).
    assert (cand = ne) as ->.
    { destruct (Z.eq_dec cand ne) as [X|X]; [exact X|]. exfalso. destruct (CM ne ltac:(lia)) as [_ Y]. apply (Y eq_refl). apply HI; lia. }
    pose proof (LO ne ne n N ltac:(lia) ltac:(lia) (L2 eq_refl)) as LN. assert (mt = 0) as -> by lia. 
    replace (ne + (0 + n)) with (zlen target) in S' by lia. apply steps_end in S' as [-> ->]. cbn [Z.ltb Z.compare app costs cost]. split; [lia|reflexivity]. }
  inversion S as [p0 E1 E2 E3|p0 k c l' e' (mt & n & a & EC & EK & G) S' E1 E2 E3].
  - subst. cbn [costs] in C. destruct (Z.lt_ge_cases (zlen target) 33) as [SM|BG]; [lia|].
    exfalso. destruct (Q 1 ltac:(lia) ltac:(lia)) as [_ X]. apply (X eq_refl). apply HI; lia.
  - subst. pose proof G as (N0 & MT & N32 & LE2 & WH & _ & _ & _ & cand & C1 & C2 & CM & L1 & L2). rewrite !Z.add_0_l in *.
    pose proof (costs_step mt 0 target a n l' MT ltac:(lia) ltac:(lia)) as CS.
    assert (cand <= 1 \/ mt = 0) as CC.
    { destruct (Z.lt_ge_cases 1 cand) as [X|X]; [|left; exact X]. destruct (Z.eq_dec mt 0) as [M|M]; [right; exact M|]. exfalso. destruct (CM 1 ltac:(lia)) as [_ Y]. apply (Y eq_refl). apply HI; try lia. }
    destruct (ST (mt + n) l' e ltac:(lia) ltac:(lia) S') as [[-> ->]|[CL ->]].
    + cbn [costs] in CS. specialize (QE ltac:(lia)). destruct (Z.ltb_spec 0 mt) as [M|M]; [|lia].
      assert (cand = 1) as -> by lia. pose proof (LO 1 0 n ltac:(lia) ltac:(lia) ltac:(lia) (L2 eq_refl)). lia.
    + destruct (Z.ltb_spec 0 mt); lia.
Qed.
