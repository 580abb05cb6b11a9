(** Facts for C50 and C51: what the engine emits, step by step. *)

From Verif Require Import Base ListFacts Spec SpecEncode SpecFind SpecMaximal CopyFacts WriterFacts RollingHash RollingHashFacts BlockHash BlockHashFacts Engine EngineFacts Finds.
From Coq Require Import ZifyBool ZifyNat.

(** ** The steps of the engine's loop *)

(** No candidate from [ne] to before [cand] has a hit. *)
Definition calm (dict target : list Z) (look : bool) (ne cand : Z) : Prop :=
  forall c, ne <= c < cand -> ~ hit dict target (zlen dict) ne c /\ (look = true -> ~ hit target target c ne c).

(** One successful search, from the unencoded position [ne]: the candidate [cand], with
    the indexes that the loop has at that point. *)
Definition found (dict target : list Z) (dh : blockhash) (look : bool) (ne k : Z) (calls : list instruction) : Prop :=
  exists cand h th ths blk,
    target_hash_ok dict target cand th ths /\ target_mask th /\ is_some th = look /\
    0 <= ne <= cand /\ cand + kBlockSize <= zlen target /\
    slice target cand kBlockSize = Some blk /\ hash_direct kBlockSize blk = Some h /\
    encode_copy_for_best_match dh th h target cand ne (zlen target - ne) = Some (k, calls) /\ 0 < k /\ calm dict target look ne cand.

Inductive steps (Q : Z -> Z -> list instruction -> Prop) : Z -> list instruction -> Z -> Prop :=
| st_nil : forall p, steps Q p [] p
| st_cons : forall p k c l e, Q p k c -> steps Q (p + k) l e -> steps Q p (c ++ l) e.

Lemma encode_loop_steps : forall fuel dict dh dhs target ne cand h th ths blk e calls,
  dict_full dict dh dhs -> target_hash_ok dict target cand th ths -> target_mask th ->
  bytes_ok target -> zlen target <= int32_max ->
  0 <= ne <= cand -> cand + kBlockSize <= zlen target ->
  slice target cand kBlockSize = Some blk -> hash_direct kBlockSize blk = Some h ->
  calm dict target (is_some th) ne cand ->
  encode_loop fuel dh target (remove_table kBlockSize) ne cand h th = Some (e, calls) ->
  steps (found dict target dh (is_some th)) ne calls e.
Proof.
  induction fuel as [|fuel IH]; intros dict dh dhs target ne cand h th ths blk e calls D TH TM B L NE CL S H QU E; [discriminate|].
  cbn [encode_loop] in E. cbv zeta in E.
  assert (kBlockSize = 16) as K by reflexivity.
  destruct (slice_inv _ _ _ _ _ S) as (_ & _ & _ & _ & LB).
  assert (0 <= h) as H0 by (eapply hash_direct_nonneg; [eapply slice_bytes_ok; eauto| |eauto]; lia).
  destruct (encode_copy_ok dict dh dhs th ths target h cand ne (proj1 D) (or_introl TH) H0 NE CL L) as (k & calls0 & EC & CC). rewrite EC in E.
  destruct (encode_copy_shape dict dh dhs th ths target h cand ne blk k calls0 D TH TM B NE CL L S H EC) as [(K0 & C0 & N1 & N2)|(mt0 & n0 & a0 & _ & K0 & MT0 & N16)].
  - destruct CC as [[-> ->]|[KR _]]; [|exfalso; lia]. cbn [Z.ltb Z.compare] in E. clear K0 C0.
    assert (calm dict target (is_some th) ne (cand + 1)) as QU'.
    { intros c C. destruct (Z.eq_dec c cand) as [-> |NC]; [split; [exact N1|exact N2]|apply QU; lia]. }
    destruct (Z.ltb_spec (zlen target - kBlockSize) (cand + 1)) as [EX|EX].
    + injection E as <- <-. constructor.
    + destruct (next_hash target cand blk h B ltac:(lia) ltac:(lia) S H) as (f & la & blk' & h' & GF & GL & S' & H' & U).
      assert (exists th' ths', match th with
                | Some t => match add_one_index_hash t (to_int32 cand) h with Some th'0 => Some (Some th'0) | None => None end
                | None => Some None end = Some th' /\ target_hash_ok dict target (cand + 1) th' ths' /\ is_some th = is_some th' /\ target_mask th')
        as (th' & ths' & ETH & TH' & IS & TM').
      { destruct th as [bh|]; [|exists None, []; repeat split].
        destruct TH as (T1 & T2 & T3 & T4 & T5). unfold add_one_index_hash, next_index_to_add. rewrite (bo_last _ _ T1).
        rewrite to_int32_id by (unfold int32_max in *; lia). replace (zlen ths - 1 + 1) with (zlen ths) by lia.
        destruct (Z.eqb_spec cand (zlen ths * kBlockSize)) as [EQ|NEQ].
        - destruct (add_block_ok bh ths h T1) as (bh' & -> & OK & (S1 & S2 & S3)); [|exact H0|].
          { unfold number_of_blocks. rewrite T2. apply Z.lt_le_trans with (zlen ths + 1); [lia|]. apply Z.div_le_lower_bound; lia. }
          exists (Some bh'), (ths ++ [h]). split; [reflexivity|]. split; [|split; [reflexivity|]].
          + cbn [target_hash_ok]. split; [exact OK|]. split; [congruence|]. split; [congruence|]. split.
            { eapply true_hashes_snoc; eauto. rewrite <- EQ. exact S. }
            rewrite zlen_app, zlen_cons, zlen_nil. lia.
          + cbn. apply (same_source_mask bh bh'); [|exact TM]. split; [exact S1|]. split; [exact S2|exact S3].
        - exists (Some bh), ths. split; [reflexivity|]. split; [|split; [reflexivity|exact TM]].
          cbn [target_hash_ok]. split; [exact T1|]. split; [exact T2|]. split; [exact T3|]. split; [exact T4|]. lia. }
      rewrite ETH, GF, GL, U in E.
      destruct (encode_loop fuel dh target (remove_table kBlockSize) ne (cand + 1) h' th') as [[e1 c1]|] eqn:EE; [|discriminate].
      cbn [prepend app] in E. injection E as <- <-.
      rewrite IS. apply (IH dict dh dhs target ne (cand + 1) h' th' ths' blk'); auto; try lia. rewrite <- IS. exact QU'.
  - destruct CC as [[X0 _]|[KR _]]; [exfalso; lia|]. clear K0 MT0 N16.
    assert (found dict target dh (is_some th) ne k calls0) as FO.
    { exists cand, h, th, ths, blk. split; [exact TH|]. split; [exact TM|]. split; [reflexivity|]. split; [exact NE|]. split; [exact CL|].
      split; [exact S|]. split; [exact H|]. split; [exact EC|]. split; [lia|exact QU]. }
    destruct (Z.ltb_spec 0 k) as [KP|KN]; [|lia].
    destruct (Z.ltb_spec (zlen target - kBlockSize) (ne + k)) as [EX|EX].
    + injection E as <- <-. rewrite <- (app_nil_r calls0). apply st_cons with k; [exact FO|constructor].
    + assert (slice target (ne + k) kBlockSize = Some (ztake kBlockSize (zdrop (ne + k) target))) as S' by (apply slice_some; lia).
      rewrite S' in E. set (blk' := ztake kBlockSize _) in *. clearbody blk'.
      destruct (slice_inv _ _ _ _ _ S') as (_ & _ & _ & _ & LB').
      pose proof (slice_bytes_ok _ _ _ _ B S') as BB'.
      assert (hash_direct kBlockSize blk' = Some (poly blk' mod kBase)) as H' by (apply hash_direct_block; auto; lia).
      rewrite H' in E.
      assert (exists th' ths', target_hash_ok dict target (ne + k) th' ths' /\ is_some th = is_some th' /\ target_mask th' /\
                exists c1, calls = calls0 ++ c1 /\ encode_loop fuel dh target (remove_table kBlockSize) (ne + k) (ne + k) (poly blk' mod kBase) th' = Some (e, c1))
        as (th' & ths' & TH' & IS & TM' & c1 & -> & EE).
      { destruct th as [bh|].
        - destruct TH as (T1 & T2 & T3 & T4 & T5).
          destruct (add_all_ok bh ths (ne + k)) as (bh' & more & A1 & A2 & A3 & (S1 & S2 & S3) & A4 & A5).
          { rewrite T2; exact B. } { exact T1. } { rewrite T2; exact T4. } { rewrite T2. lia. }
          rewrite to_int32_id in E by (unfold int32_max in *; lia). rewrite A1 in E.
          destruct (encode_loop _ _ _ _ _ _ _ _) as [[e1 c1]|] eqn:EE; [|discriminate]. cbn [prepend] in E. injection E as <- <-.
          exists (Some bh'), (ths ++ more). split; [|split; [reflexivity|]; split; [|exists c1; split; [reflexivity|exact EE]]].
          + cbn [target_hash_ok]. split; [exact A2|]. split; [congruence|]. split; [congruence|]. split; [rewrite <- T2; exact A3|].
            rewrite zlen_app. split.
            * destruct A4 as [-> | A4]; [rewrite zlen_nil; lia|exact A4].
            * destruct (Z.lt_ge_cases ((zlen ths + zlen more) * kBlockSize) (ne + k)) as [X|X]; [exfalso|exact X].
              pose proof (zlen_nonneg _ ths). pose proof (zlen_nonneg _ more).
              assert (zlen ths + zlen more < zlen ths + zlen more); [|lia]. apply A5; [|exact X].
              split; [lia|]. unfold number_of_blocks. rewrite T2. apply Z.lt_le_trans with (zlen ths + zlen more + 1); [lia|]. apply Z.div_le_lower_bound; lia.
          + cbn. apply (same_source_mask bh bh'); [|exact TM]. split; [exact S1|]. split; [exact S2|exact S3].
        - destruct (encode_loop _ _ _ _ _ _ _ _) as [[e1 c1]|] eqn:EE; [|discriminate]. cbn [prepend] in E. injection E as <- <-.
          exists None, []. split; [exact I|]. split; [reflexivity|]. split; [exact I|]. exists c1. split; [reflexivity|exact EE]. }
      apply st_cons with k; [exact FO|]. rewrite IS.
      apply (IH dict dh dhs target (ne + k) (ne + k) (poly blk' mod kBase) th' ths' blk' e c1); auto; try lia. intros c C. lia.
Qed.

(** The instructions of a whole target: steps, and an ADD for the rest. *)
Lemma engine_in_steps : forall dict dh dhs look target l, dict_full dict dh dhs -> bytes_ok target ->
  zlen dict + zlen target <= int32_max ->
  engine_encode {| en_dict := dict; en_hash := Some dh |} look target = Some (Some l) ->
  exists l1 e, steps (found dict target dh look) 0 l1 e /\ quiet dict target look e (zlen target) /\
    (l = l1 /\ e = zlen target \/ exists d, l = l1 ++ [Add d] /\ slice target e (zlen d) = Some d /\ e + zlen d = zlen target).
Proof.
  intros dict dh dhs look target l D B L E. unfold engine_encode in E. cbn [en_hash en_dict] in E. cbv zeta in E.
  pose proof (zlen_nonneg _ dict). pose proof (zlen_nonneg _ target). assert (kBlockSize = 16) as K by reflexivity.
  destruct (Z.eqb_spec (zlen target) 0); [discriminate|]. destruct (Z.ltb_spec (zlen target) kBlockSize) as [SM|BG].
  - unfold add_unmatched_remainder in E. destruct (Z.ltb_spec 0 (zlen target)); [|lia]. rewrite slice_whole in E. injection E as <-.
    exists [], 0. split; [constructor|]. split; [intros c C1 C2; lia|]. right. exists target. split; [reflexivity|]. split; [apply slice_whole|lia].
  - assert (exists th, (if look then create_target_hash target (zlen dict) else Some None) = Some th /\
       target_hash_ok dict target 0 th [] /\ is_some th = look /\ target_mask th) as (th & ET & TH & IS & TM).
    { destruct look; [|exists None; repeat split]. unfold create_target_hash.
      rewrite to_int32_id by (unfold int32_max in *; lia).
      destruct (bh_init_eq target (zlen dict) false) as (k & KR & OK & EB); [lia|]. rewrite EB.
      exists (Some (empty_bh target (zlen dict) k)). split; [reflexivity|]. split; [|split; [reflexivity|]].
      - cbn [target_hash_ok]. split; [exact OK|]. split; [reflexivity|]. split; [reflexivity|].
        split; [intros b h G; rewrite (proj2 (get_none _ _ _)) in G by (rewrite zlen_nil; lia); discriminate|]. rewrite zlen_nil. lia.
      - apply (bh_init_mask target (zlen dict) false); [lia|exact EB]. }
    rewrite ET in E.
    assert (look && (match th with None => true | Some _ => false end) = false) as X
      by (clear - IS; destruct th, look; cbn in *; congruence). rewrite X in E. clear X.
    assert (slice target 0 kBlockSize = Some (ztake kBlockSize (zdrop 0 target))) as S' by (apply slice_some; lia).
    rewrite S' in E. set (blk' := ztake kBlockSize _) in *. clearbody blk'.
    destruct (slice_inv _ _ _ _ _ S') as (_ & _ & _ & _ & LB').
    pose proof (slice_bytes_ok _ _ _ _ B S') as BB'.
    assert (hash_direct kBlockSize blk' = Some (poly blk' mod kBase)) as H' by (apply hash_direct_block; auto; lia).
    rewrite H' in E. destruct (encode_loop _ _ _ _ _ _ _ _) as [[e calls]|] eqn:EE; [|discriminate].
    exists calls, e. split.
    { rewrite <- IS. eapply (encode_loop_steps _ dict dh dhs target 0 0 _ th [] blk' e calls); eauto; try lia. intros c C. lia. }
    split.
    { rewrite <- IS. apply (encode_loop_lits (Z.to_nat (zlen target)) dict dh dhs target 0 0 (poly blk' mod kBase) th [] blk' e calls); auto; lia. }
    destruct D as (D & _). destruct (encode_loop_ok (Z.to_nat (zlen target)) dict dh dhs target 0 0 (poly blk' mod kBase) th [] blk' D TH B)
        as (e' & calls' & EE' & ER & _); [lia|lia|lia|lia|exact S'|exact H'|]. rewrite EE in EE'. injection EE' as <- _.
    unfold add_unmatched_remainder in E. destruct (Z.ltb_spec 0 (zlen target - e)) as [R|R].
    + destruct (slice target e (zlen target - e)) as [d|] eqn:SE; [|discriminate]. injection E as <-.
      destruct (slice_inv _ _ _ _ _ SE) as (_ & _ & _ & _ & LE). right. exists d. split; [reflexivity|]. rewrite LE. split; [exact SE|lia].
    + injection E as <-. rewrite app_nil_r. left. split; [reflexivity|lia].
Qed.

(** ** Where the extension of a match stops *)

Lemma matching_left_stop : forall n source s target t k, matching_left n source s target t = Some k ->
  0 <= k <= Z.of_nat n /\ (k = Z.of_nat n \/ get source (s - k - 1) <> get target (t - k - 1)).
Proof.
  induction n as [|n IH]; intros source s target t k E; cbn [matching_left] in E; [injection E as <-; lia|].
  destruct (get source (s - 1)) as [a|] eqn:GA; [|discriminate]. destruct (get target (t - 1)) as [b|] eqn:GB; [|discriminate].
  destruct (Z.eqb_spec a b) as [-> |N]; cbn [negb] in E.
  - destruct (matching_left n source (s - 1) target (t - 1)) as [k'|] eqn:EK; [|discriminate]. assert (k = 1 + k') as -> by congruence.
    destruct (IH _ _ _ _ _ EK) as (R & C). split; [lia|]. destruct C as [-> |C]; [left; lia|right].
    replace (s - (1 + k') - 1) with (s - 1 - k' - 1) by lia. replace (t - (1 + k') - 1) with (t - 1 - k' - 1) by lia. exact C.
  - assert (k = 0) as -> by congruence. split; [lia|]. right. rewrite !Z.sub_0_r, GA, GB. congruence.
Qed.

Lemma matching_right_stop : forall n source s target t k, matching_right n source s target t = Some k ->
  0 <= k <= Z.of_nat n /\ (k = Z.of_nat n \/ get source (s + k) <> get target (t + k)).
Proof.
  induction n as [|n IH]; intros source s target t k E; cbn [matching_right] in E; [injection E as <-; lia|].
  destruct (get source s) as [a|] eqn:GA; [|discriminate]. destruct (get target t) as [b|] eqn:GB; [|discriminate].
  destruct (Z.eqb_spec a b) as [-> |N].
  - destruct (matching_right n source (s + 1) target (t + 1)) as [k'|] eqn:EK; [|discriminate]. assert (k = 1 + k') as -> by congruence.
    destruct (IH _ _ _ _ _ EK) as (R & C). split; [lia|]. destruct C as [-> |C]; [left; lia|right].
    replace (s + (1 + k')) with (s + 1 + k') by lia. replace (t + (1 + k')) with (t + 1 + k') by lia. exact C.
  - assert (k = 0) as -> by congruence. split; [lia|]. right. rewrite !Z.add_0_r, GA, GB. congruence.
Qed.

(** A match that cannot be extended on either side. *)
Definition maximal (source target : list Z) (off start : Z) (m : match_) : Prop :=
  let s := m_source m - off in let t := start + m_target m in
  (s + m_size m = zlen source \/ t + m_size m = zlen target \/ get source (s + m_size m) <> get target (t + m_size m)) /\
  (s = 0 \/ m_target m = 0 \/ get source (s - 1) <> get target (t - 1)).

Definition block_in (source : list Z) (b : Z) : Prop := b < 0 \/ 0 <= b /\ b * 16 + 16 <= zlen source.

Lemma skip_in : forall n bh b block b', skip_non_matching n bh b block = Some b' -> block_in (bh_source bh) b'.
Proof.
  induction n as [|n IH]; intros bh b block b' E; cbn [skip_non_matching] in E; destruct (Z.ltb_spec b 0) as [N|N].
  - injection E as <-. left. exact N.
  - destruct (slice _ _ _) as [s|] eqn:S; [|discriminate]. apply slice_inv in S as (A & _ & C & _). unfold kBlockSize in *.
    destruct (block_contents_match _ _); [injection E as <-; right; lia|]. injection E as <-. left. lia.
  - injection E as <-. left. exact N.
  - destruct (slice _ _ _) as [s|] eqn:S; [|discriminate]. apply slice_inv in S as (A & _ & C & _). unfold kBlockSize in *.
    destruct (block_contents_match _ _); [injection E as <-; right; lia|]. destruct (get (bh_next bh) b) as [x|]; [|discriminate]. eauto.
Qed.

Lemma extend_maximal : forall bh b target cand start best m, zlen (bh_source bh) <= int32_max -> zlen target <= int32_max ->
  0 <= start <= cand -> cand + 16 <= zlen target -> 0 <= b -> b * 16 + 16 <= zlen (bh_source bh) ->
  extend_match bh b target cand start (zlen target - start) best = Some m ->
  m = best \/ maximal (bh_source bh) target (bh_start bh) start m.
Proof.
  intros bh b target cand start best m LS LT ST CL B0 B1 E. unfold extend_match in E. cbv zeta in E. unfold kBlockSize in E.
  rewrite to_int32_id in E by (unfold int32_max in *; lia).
  rewrite (to_size_id (zlen (bh_source bh) - _)), (to_size_id (zlen target - start - _)) in E by (unfold size_max, int32_max in *; lia).
  rewrite to_int32_id in E by (unfold int32_max in *; lia).
  destruct (matching_left _ _ _ _ _) as [kl|] eqn:EL; [|discriminate].
  destruct (matching_right _ _ _ _ _) as [kr|] eqn:ER; [|discriminate].
  destruct (matching_left_stop _ _ _ _ _ _ EL) as (RL & SL). destruct (matching_right_stop _ _ _ _ _ _ ER) as (RR & SR).
  assert (m = replace_if_better best (16 + kl + kr) (b * 16 - kl + bh_start bh) (cand - start - kl)) as -> by congruence. clear E.
  unfold replace_if_better. destruct (_ <? _); [right|left; reflexivity].
  unfold maximal. cbn [m_size m_source m_target].
  replace (b * 16 - kl + bh_start bh - bh_start bh) with (b * 16 - kl) by lia.
  replace (b * 16 - kl + (16 + kl + kr)) with (b * 16 + 16 + kr) by lia.
  replace (start + (cand - start - kl) + (16 + kl + kr)) with (start + (cand - start + 16) + kr) by lia.
  replace (start + (cand - start - kl) - 1) with (start + (cand - start) - kl - 1) by lia.
  rewrite Z2Nat.id in * by lia. split.
  - destruct SR as [SR|SR]; [|auto]. assert (b * 16 + 16 + kr = zlen (bh_source bh) \/ start + (cand - start + 16) + kr = zlen target) by lia. tauto.
  - destruct SL as [SL|SL]; [|auto]. assert (b * 16 - kl = 0 \/ cand - start - kl = 0) by lia. tauto.
Qed.

Lemma find_loop_maximal : forall n bh b block target cand start best m, zlen (bh_source bh) <= int32_max -> zlen target <= int32_max ->
  0 <= start <= cand -> cand + 16 <= zlen target -> block_in (bh_source bh) b ->
  find_loop n bh b block target cand start (zlen target - start) best = Some m ->
  m = best \/ maximal (bh_source bh) target (bh_start bh) start m.
Proof.
  induction n as [|n IH]; intros bh b block target cand start best m LS LT ST CL BI E; cbn [find_loop] in E; destruct (Z.ltb_spec b 0) as [N|N].
  - injection E as <-. auto.
  - injection E as <-. auto.
  - injection E as <-. auto.
  - destruct (extend_match _ _ _ _ _ _ _) as [m1|] eqn:EX; [|discriminate].
    destruct (next_matching_block bh b block) as [b'|] eqn:EN; [|discriminate].
    destruct BI as [BI|[BI BI2]]; [lia|].
    assert (block_in (bh_source bh) b') as BI'.
    { unfold next_matching_block in EN. destruct (_ <=? _); [injection EN as <-; left; lia|].
      destruct (get (bh_next bh) b); [|discriminate]. eapply skip_in; eauto. }
    destruct (IH _ _ _ _ _ _ _ _ LS LT ST CL BI' E) as [-> |M]; [|auto].
    eapply extend_maximal; eauto.
Qed.

Lemma find_maximal : forall bh h target cand start best m, zlen (bh_source bh) <= int32_max -> zlen target <= int32_max ->
  0 <= start <= cand -> cand + 16 <= zlen target ->
  find_best_match bh h target cand start (zlen target - start) best = Some m ->
  m = best \/ maximal (bh_source bh) target (bh_start bh) start m.
Proof.
  intros bh h target cand start best m LS LT ST CL E. unfold find_best_match in E.
  destruct (slice target cand kBlockSize) as [block|]; [|discriminate]. unfold first_matching_block in E.
  destruct (get (bh_table bh) _) as [b0|]; [|discriminate].
  destruct (skip_non_matching _ _ _ _) as [b|] eqn:ES; [|discriminate].
  eapply find_loop_maximal; eauto. eapply skip_in; eauto.
Qed.

(** ** Maximal COPYs *)

(** No match that contains an easy block at the candidate, and does not begin before [start], is longer than [n]. *)
Definition longest (source target : list Z) (lim start cand n : Z) : Prop :=
  forall r a b, easy (zlen source) source r -> r * 16 < lim -> around source r target cand start a b -> a + 16 + b <= n.

Definition good_copy (dict target : list Z) (look : bool) (ne mt n a : Z) : Prop :=
  0 <= ne /\ 0 <= mt /\ 32 <= n /\ ne + mt + n <= zlen target /\
  ((0 <= a /\ a + n <= zlen dict) \/ (look = true /\ zlen dict <= a < zlen dict + (ne + mt))) /\
  ~ extends_right dict target (ne + mt) a n /\ (0 < mt -> ~ extends_left dict target (ne + mt) a) /\
  (let '(src, s) := source_of dict target a in same_range src s target (ne + mt) n) /\
  exists cand, ne + mt <= cand /\ cand + 16 <= ne + mt + n /\ calm dict target look ne cand /\
    longest dict target (zlen dict) ne cand n /\ (look = true -> longest target target cand ne cand n).
Definition emitted (dict target : list Z) (look : bool) (ne k : Z) (calls : list instruction) : Prop :=
  exists mt n a, calls = (if 0 <? mt then [Add (ztake mt (zdrop ne target)); Copy a n] else [Copy a n]) /\
    k = mt + n /\ good_copy dict target look ne mt n a.

Lemma found_emitted : forall dict dh dhs target look ne k calls, dict_full dict dh dhs -> zlen dict <= int32_max -> zlen target <= int32_max -> bytes_ok target ->
  found dict target dh look ne k calls -> emitted dict target look ne k calls.
Proof.
  intros dict dh dhs target look ne k calls (D & DM & BD & DT & DF) LD LT BT (cand & h & th & ths & blk & TH & TM & IS & NE & CL & S & H & E & KP & QU).
  pose proof D as (D1 & D2 & D3). unfold encode_copy_for_best_match in E.
  destruct (slice_inv _ _ _ _ _ S) as (_ & _ & _ & _ & LB).
  assert (0 <= h) as H0 by (eapply hash_direct_nonneg; [eapply slice_bytes_ok; eauto|exact LB|exact H]).
  destruct (find_best_match_ok dh dhs h target cand ne no_match D1 H0 NE CL LT) as (m1 & E1 & B1 & _). rewrite E1 in E.
  assert (m1 = no_match \/ (genuine dh dhs target cand ne m1 /\ maximal dict target 0 ne m1)) as G1.
  { destruct B1 as [-> |[_ G]]; [left; reflexivity|]. destruct (find_maximal dh h target cand ne no_match m1) as [-> |M]; auto; [rewrite D2; exact LD|].
    right. rewrite D2, D3 in M. auto. }
  assert (exists m, match th with Some t => find_best_match t h target cand ne (zlen target - ne) m1 | None => Some m1 end = Some m /\
            m_size m1 <= m_size m /\
            (m = m1 \/ exists bh, th = Some bh /\ genuine bh ths target cand ne m /\ maximal target target (zlen dict) ne m)) as (m & E2 & MM & GM).
  { destruct th as [bh|]; [|exists m1; split; [reflexivity|]; split; [lia|auto]].
    pose proof TH as (T1 & T2 & T3 & _ & T5). destruct (find_best_match_ok bh ths h target cand ne m1 T1 H0 NE CL LT) as (m & EM & B & _).
    exists m. split; [exact EM|]. destruct B as [-> |[B G]]; [split; [lia|left; reflexivity]|]. split; [lia|].
    destruct (find_maximal bh h target cand ne m1 m) as [-> |M]; auto; [rewrite T2; exact LT|].
    right. rewrite T2, T3 in M. eauto. }
  rewrite E2 in E.
  destruct (Z.leb_spec kMinimumMatchSize (m_size m)) as [BG|SM]; cbn [negb] in E; [|injection E as <- _; lia].
  unfold kMinimumMatchSize in BG.
  assert (longest dict target (zlen dict) ne cand (m_size m) /\ (look = true -> longest target target cand ne cand (m_size m))) as [LO1 LO2].
  { split.
    - intros r a b EA RL AR. pose proof EA as (R0 & R1 & _). rewrite <- D2 in EA.
      assert (r < zlen dhs) as RD. { apply DF. split; [lia|]. unfold kBlockSize. apply Z.lt_le_trans with (r + 1); [lia|]. apply Z.div_le_lower_bound; lia. }
      rewrite <- D2 in AR. pose proof (find_best_match_max dh dhs h target cand ne no_match m1 blk r a b D1 DM ltac:(rewrite D2; exact BD) ltac:(rewrite D2; exact DT) NE LT S H E1 EA RD AR). lia.
    - intros LK r a b EA RL AR. destruct th as [bh|]; [|cbn in IS; congruence]. destruct TH as (T1 & T2 & T3 & T4 & T5).
      pose proof EA as (R0 & R1 & _). rewrite <- T2 in EA at 1 2. unfold kBlockSize in T5.
      rewrite <- T2 in AR at 1. cbn in TM.
      pose proof (find_best_match_max bh ths h target cand ne m1 m blk r a b T1 TM ltac:(rewrite T2; exact BT) ltac:(rewrite T2; exact T4) NE LT S H E2 EA ltac:(lia) AR). lia. }
  assert (0 <= m_target m /\ ne + m_target m + m_size m <= zlen target /\ (ne + m_target m <= cand /\ cand + 16 <= ne + m_target m + m_size m) /\
      exists src off, maximal src target off ne m /\ same_range src (m_source m - off) target (ne + m_target m) (m_size m) /\ 
        ((src = dict /\ off = 0 /\ 0 <= m_source m /\ m_source m + m_size m <= zlen dict) \/
         (src = target /\ off = zlen dict /\ look = true /\ zlen dict <= m_source m < zlen dict + (ne + m_target m)))) as (MT & ME & CA & src & off & MX & SR & WH).
  { destruct GM as [-> |(bh & -> & G & M)].
    - destruct G1 as [-> |[G M]]; [cbn in BG; lia|].
      destruct (genuine_copy dict target dh dhs cand ne m1 0 G) as (P1 & P2 & P3 & P4 & P5); [lia|exact D3|left; auto|]. cbv zeta in P3, P4, P5.
      split; [exact P1|]. split; [lia|]. split; [pose proof G as (r & R & MTR & MER & _); unfold kBlockSize in *; lia|]. exists dict, 0. split; [exact M|]. split; [pose proof G as (r & _ & _ & _ & _ & SR); rewrite D3, D2 in SR; exact SR|]. left.
      destruct G as (r & _ & _ & _ & MS & (_ & _ & _ & A4 & _)). rewrite D3, D2, Z.sub_0_r in A4.
      destruct P5 as [(_ & _ & P5)|(_ & P5)]; [auto|]. pose proof (zlen_nonneg _ dict). split; [reflexivity|]. split; [reflexivity|]. lia.
    - destruct TH as (T1 & T2 & T3 & _ & T5). pose proof G as (r & R & MTR & MER & MS & SR). rewrite T2, T3 in SR. pose proof SR as (A1 & A2 & _ & A4 & A5 & _). rewrite T3 in *. unfold kBlockSize in *.
      split; [lia|]. split; [lia|]. split; [lia|]. exists target, (zlen dict). split; [exact M|]. split; [exact SR|]. right.
      split; [reflexivity|]. split; [reflexivity|]. split; [symmetry; exact IS|]. lia. }
  exists (m_target m), (m_size m), (m_source m).
  assert (calls = (if 0 <? m_target m then [Add (ztake (m_target m) (zdrop ne target)); Copy (m_source m) (m_size m)] else [Copy (m_source m) (m_size m)]) /\ k = m_target m + m_size m) as [EC EK].
  { destruct (Z.ltb_spec 0 (m_target m)) as [P|NP].
    - rewrite slice_some in E by lia. injection E as <- <-. auto.
    - injection E as <- <-. auto. }
  split; [exact EC|]. split; [exact EK|]. split; [lia|]. split; [exact MT|]. split; [exact BG|]. split; [lia|].
  split; [destruct WH as [(_ & _ & W)|(_ & _ & W)]; [left; lia|right; exact W]|].
  assert (source_of dict target (m_source m) = (src, m_source m - off)) as SO.
  { unfold source_of. destruct WH as [(-> & -> & W)|(-> & -> & _ & W)].
    - destruct (Z.ltb_spec (m_source m) (zlen dict)); [rewrite Z.sub_0_r; reflexivity|lia].
    - destruct (Z.ltb_spec (m_source m) (zlen dict)); [lia|reflexivity]. }
  unfold extends_right, extends_left. rewrite SO. destruct MX as [M1 M2]. cbv zeta in M1, M2.
  split; [|split]; [intros (X & Y & Z)|intros P (X & Y & Z)|split; [exact SR|]; exists cand; split; [lia|]; split; [lia|]; split; [exact QU|]; split; assumption]; [destruct M1 as [M1|[M1|M1]]|destruct M2 as [M2|[M2|M2]]]; try lia; auto.
Qed.

Lemma steps_mono : forall (P Q : Z -> Z -> list instruction -> Prop) p l e, (forall p k c, P p k c -> Q p k c) -> steps P p l e -> steps Q p l e.
Proof. intros P Q p l e H S. induction S; [constructor|econstructor; eauto]. Qed.

Lemma one_copy : forall mt (x : list Z) a n l l1 a' n' l2, 
  (if 0 <? mt then [Add x; Copy a n] else [Copy a n]) ++ l = l1 ++ Copy a' n' :: l2 ->
  (l1 = (if 0 <? mt then [Add x] else []) /\ a' = a /\ n' = n /\ l2 = l) \/
  (exists l3, l1 = (if 0 <? mt then [Add x; Copy a n] else [Copy a n]) ++ l3 /\ l = l3 ++ Copy a' n' :: l2).
Proof.
  intros mt x a n l l1 a' n' l2 E. destruct (0 <? mt).
  - destruct l1 as [|i [|j l1]]; cbn in E; [discriminate| |].
    + injection E as -> -> -> ->. left. auto.
    + injection E as -> -> ->. right. exists l1. auto.
  - destruct l1 as [|i l1]; cbn in E.
    + injection E as -> -> ->. left. auto.
    + injection E as -> ->. right. exists l1. auto.
Qed.

Lemma exec_copy_len : forall dict T a n T', execute dict T (Copy a n) = Some T' -> 0 <= n -> zlen T' = zlen T + n.
Proof.
  intros dict T a n T' E N. cbn [execute] in E. destruct (_ && _); [|discriminate].
  destruct (copy_bytewise_length _ _ _ _ _ E) as (bs & -> & LB). rewrite zlen_app. lia.
Qed.

Lemma steps_copies : forall dict target look p l e, steps (emitted dict target look) p l e ->
  forall rest l1 a n l2 T0 T, l ++ rest = l1 ++ Copy a n :: l2 -> (rest = [] \/ exists x, rest = [Add x]) ->
  zlen T0 = p -> execute_all dict T0 l1 = Some T ->
  exists ne mt, good_copy dict target look ne mt n a /\ zlen T = ne + mt /\
    (mt = 0 /\ (l1 = [] \/ exists l0 a0 n0, l1 = l0 ++ [Copy a0 n0]) \/ 0 < mt /\ exists l0 d, l1 = l0 ++ [Add d] /\ zlen d = mt).
Proof.
  intros dict target look p l e S. induction S as [p|p k c l e (mt & m & b & -> & -> & G) S IH];
    intros rest l1 a n l2 T0 T E R P X.
  - exfalso. destruct R as [-> |[x ->]]; destruct l1 as [|? [|]]; discriminate.
  - pose proof G as (N0 & MT & N32 & LE & _).
    rewrite <- app_assoc in E. apply one_copy in E as [(-> & -> & -> & E)|(l3 & -> & E)].
    + exists p, mt. split; [exact G|]. destruct (Z.ltb_spec 0 mt) as [Q|Q]; cbn [execute_all execute] in X.
      * injection X as <-. rewrite zlen_app, P. rewrite zlen_ztake, zlen_zdrop by lia. replace (Z.min mt (Z.max 0 (zlen target - p))) with mt by lia.
        split; [reflexivity|]. right. split; [exact Q|]. eexists [], _. split; [reflexivity|]. rewrite zlen_ztake, zlen_zdrop by lia. lia.
      * injection X as <-. rewrite P. split; [lia|]. left. split; [lia|left; reflexivity].
    + assert (exists T1, execute_all dict T1 l3 = Some T /\ zlen T1 = p + (mt + m)) as (T1 & XT & LT).
      { destruct (Z.ltb_spec 0 mt) as [Q|Q]; cbn [app execute_all] in X.
        - cbn [execute] in X. change (if (0 <=? b) && (b <? zlen dict + zlen (T0 ++ ztake mt (zdrop p target))) then copy_bytewise (Z.to_nat m) dict (T0 ++ ztake mt (zdrop p target)) b else None) with (execute dict (T0 ++ ztake mt (zdrop p target)) (Copy b m)) in X.
          destruct (execute dict _ _) as [T1|] eqn:EX; [|discriminate]. apply exec_copy_len in EX; [|lia]. exists T1. split; [exact X|].
          rewrite EX, zlen_app, P, zlen_ztake, zlen_zdrop by lia. lia.
        - destruct (execute dict T0 (Copy b m)) as [T1|] eqn:EX; [|discriminate]. apply exec_copy_len in EX; [|lia]. exists T1. split; [exact X|]. lia. }
      destruct (IH rest l3 a n l2 T1 T E R LT XT) as (ne' & mt' & G' & ET & SH). exists ne', mt'. split; [exact G'|]. split; [exact ET|].
      destruct SH as [[M0 SH]|(M0 & l0 & d & -> & LD)].
      * left. split; [exact M0|right]. destruct SH as [-> |(l0 & a0 & n0 & ->)].
        -- destruct (0 <? mt); [exists [Add (ztake mt (zdrop p target))], b, m|exists [], b, m]; reflexivity.
        -- eexists (_ ++ l0), a0, n0. rewrite app_assoc. reflexivity.
      * right. split; [exact M0|]. eexists (_ ++ l0), d. rewrite app_assoc. split; [reflexivity|exact LD].
Qed.

Lemma engine_copies : forall dict look target en l l1 a n l2 T,
  bytes_ok dict -> bytes_ok target -> zlen dict + zlen target <= int32_max ->
  engine_init (new_engine dict) = Some (en, true) -> engine_encode en look target = Some (Some l) ->
  l = l1 ++ Copy a n :: l2 -> execute_all dict [] l1 = Some T ->
  exists ne mt, good_copy dict target look ne mt n a /\ zlen T = ne + mt /\
    (mt = 0 /\ (l1 = [] \/ exists l0 a0 n0, l1 = l0 ++ [Copy a0 n0]) \/ 0 < mt /\ exists l0 d, l1 = l0 ++ [Add d] /\ zlen d = mt).
Proof.
  intros dict look target en l l1 a n l2 T BD BT L EI EE EL X. pose proof (zlen_nonneg _ target). pose proof (zlen_nonneg _ dict).
  destruct (engine_init_full dict BD) as (dh & dhs & EI2 & F); [lia|]. rewrite EI in EI2. injection EI2 as ->.
  destruct (engine_in_steps dict dh dhs look target l F BT L EE) as (ls & e & S & _ & C).
  apply (steps_mono _ (emitted dict target look)) in S; [|intros; eapply found_emitted; eauto; lia].
  assert (exists rest, l = ls ++ rest /\ (rest = [] \/ exists x, rest = [Add x])) as (rest & ER & R).
  { destruct C as [[-> _]|(d & -> & _)]; [exists []; rewrite app_nil_r; auto|exists [Add d]; eauto]. }
  rewrite EL in ER. eapply (steps_copies dict target look 0 ls e S rest l1 a n l2 [] T); eauto.
Qed.

Theorem copies_maximal : forall dict look target en l l1 a n l2 T,
  bytes_ok dict -> bytes_ok target -> zlen dict + zlen target <= int32_max ->
  engine_init (new_engine dict) = Some (en, true) -> engine_encode en look target = Some (Some l) ->
  l = l1 ++ Copy a n :: l2 -> execute_all dict [] l1 = Some T ->
  ~ extends_right dict target (zlen T) a n /\ (forall l0 d, l1 = l0 ++ [Add d] -> ~ extends_left dict target (zlen T) a).
Proof.
  intros dict look target en l l1 a n l2 T BD BT L EI EE EL X.
  destruct (engine_copies dict look target en l l1 a n l2 T BD BT L EI EE EL X) as (ne & mt & (_ & _ & _ & _ & _ & G1 & G2 & _) & -> & SH).
  split; [exact G1|]. intros l0 d ->. apply G2. destruct SH as [[_ [SH|(l3 & a0 & n0 & SH)]]|[SH _]]; [destruct l0; discriminate| |exact SH].
  apply app_inj_tail in SH as [_ SH]. discriminate.
Qed.

Lemma match_at_around : forall source target i j m b q start, match_at source target i j m b q -> start <= j -> 
  around source b target q start (q - j) (m - (q - j) - 16).
Proof.
  intros source target i j m b q start ((s & S1 & S2) & I & E & Q) ST. pose proof (same_range_slice _ _ _ _ _ _ S1 S2) as SR.
  split; [lia|]. split; [lia|]. replace (b * 16 - (q - j)) with i by lia. replace (q - (q - j)) with j by lia.
  replace (q - j + 16 + (m - (q - j) - 16)) with m by lia. exact SR.
Qed.

Theorem copies_longest : forall dict look target en l l1 a n l2 T,
  bytes_ok dict -> bytes_ok target -> zlen dict + zlen target <= int32_max ->
  engine_init (new_engine dict) = Some (en, true) -> engine_encode en look target = Some (Some l) ->
  l = l1 ++ Copy a n :: l2 -> execute_all dict [] l1 = Some T ->
  exists q, zlen T <= q /\ q + 16 <= zlen T + n /\
    forall i j m b, (zlen T <= j \/ exists l0 d, l1 = l0 ++ [Add d] /\ zlen T - zlen d <= j) ->
      (easy (zlen dict) dict b /\ match_at dict target i j m b q) \/
      (look = true /\ easy (zlen target) target b /\ 16 * b < q /\ match_at target target i j m b q) -> m <= n.
Proof.
  intros dict look target en l l1 a n l2 T BD BT L EI EE EL X.
  destruct (engine_copies dict look target en l l1 a n l2 T BD BT L EI EE EL X) as (ne & mt & (G0 & G1 & G2 & G3 & G4 & G5 & G6 & G7 & q & Q1 & Q2 & Q3 & Q4 & Q5) & ET & SH).
  exists q. split; [lia|]. split; [lia|]. intros i j m b J M.
  assert (ne <= j) as NJ.
  { destruct J as [J|(l0 & d & -> & J)]; [lia|]. destruct SH as [[_ [SH|(l3 & a0 & n0 & SH)]]|(_ & l3 & d' & SH & LD)]; [destruct l0; discriminate| |].
    - apply app_inj_tail in SH as [_ SH]. discriminate.
    - apply app_inj_tail in SH as [_ SH]. injection SH as <-. lia. }
  destruct M as [[EA M]|(LK & EA & BQ & M)].
  - pose proof EA as (B0 & B1 & _). specialize (Q4 b _ _ EA ltac:(lia) (match_at_around _ _ _ _ _ _ _ _ M NJ)). lia.
  - specialize (Q5 LK b _ _ EA ltac:(lia) (match_at_around _ _ _ _ _ _ _ _ M NJ)). lia.
Qed.
