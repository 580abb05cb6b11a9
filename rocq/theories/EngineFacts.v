(** The engine covers the target exactly, with genuine COPYs. *)

From Verif Require Import Base ListFacts Spec SpecEncode CopyFacts WriterFacts RollingHash RollingHashFacts BlockHash BlockHashFacts Engine.
From Coq Require Import ZifyBool ZifyNat.

Lemma copy_bytewise_spec : forall n seg T D a, zlen D = Z.of_nat n -> 0 <= a < zlen seg + zlen T ->
  (forall k, 0 <= k < Z.of_nat n -> get (seg ++ T ++ D) (a + k) = get D k) ->
  copy_bytewise n seg T a = Some (T ++ D).
Proof.
  induction n as [|n IH]; intros seg T D a L A G; cbn [copy_bytewise].
  - destruct D; [rewrite app_nil_r; reflexivity|]. rewrite zlen_cons in L. pose proof (zlen_nonneg _ D). lia.
  - destruct D as [|x D]; [rewrite zlen_nil in L; lia|]. rewrite zlen_cons in L.
    pose proof (G 0 ltac:(lia)) as G0. rewrite Z.add_0_r, get_0 in G0. rewrite app_assoc, get_app_l in G0 by (rewrite zlen_app; lia). rewrite G0.
    rewrite (IH seg (T ++ [x]) D (a + 1)).
    + rewrite <- app_assoc. reflexivity.
    + lia.
    + rewrite zlen_app, zlen_cons, zlen_nil. lia.
    + intros k K. specialize (G (1 + k) ltac:(lia)). rewrite (get_cons _ x D) in G by lia. replace (1 + k - 1) with k in G by lia.
      rewrite <- app_assoc. cbn [app]. rewrite <- G. f_equal. lia.
Qed.

Lemma ztake_slice : forall (l : list Z) i n d, slice l i n = Some d -> ztake i l ++ d = ztake (i + n) l.
Proof.
  intros l i n d S. destruct (slice_inv _ _ _ _ _ S) as (A & B & C & -> & _).
  rewrite <- (ztake_zdrop _ i l) at 3. rewrite ztake_app_ge by (rewrite zlen_ztake by lia; lia).
  rewrite zlen_ztake by lia. do 2 f_equal. lia.
Qed.

(** A genuine match gives a COPY that produces the target bytes. *)
Lemma genuine_copy : forall dict target bh hs cand start m seg_start,
  genuine bh hs target cand start m -> 0 <= start -> bh_start bh = seg_start ->
  (bh_source bh = dict /\ seg_start = 0) \/
  (bh_source bh = target /\ seg_start = zlen dict /\ (zlen hs - 1) * kBlockSize < cand) ->
  let pos := start + m_target m in
  0 <= m_target m /\ kBlockSize <= m_size m /\ cand + kBlockSize <= pos + m_size m <= zlen target /\
  copy_bytewise (Z.to_nat (m_size m)) dict (ztake pos target) (m_source m) = Some (ztake (pos + m_size m) target) /\
  ((bh_source bh = dict /\ seg_start = 0 /\ 0 <= m_source m /\ m_source m + m_size m <= zlen dict) \/
   (bh_source bh = target /\ zlen dict <= m_source m < zlen dict + zlen (ztake pos target))).
Proof.
  intros dict target bh hs cand start m seg_start (r & R & MT & ME & MS & (A1 & A2 & A3 & A4 & A5 & A6)) ST BS C pos.
  assert (pos = start + m_target m) as EPOS by reflexivity. assert (0 <= pos) by lia. fold pos in A2, A5, A6, ME. clearbody pos. unfold kBlockSize in *.
  split; [lia|]. split; [lia|]. split; [lia|].
  assert (slice target pos (m_size m) = Some (ztake (m_size m) (zdrop pos target))) as S by (apply slice_some; lia).
  set (D := ztake (m_size m) (zdrop pos target)) in *.
  destruct (slice_inv _ _ _ _ _ S) as (_ & _ & _ & _ & LD).
  assert (zlen (ztake pos target) = pos) as LT by (rewrite zlen_ztake by lia; lia).
  assert (forall k, 0 <= k < m_size m -> get D k = get target (pos + k)) as GD.
  { intros k K. unfold D. rewrite get_ztake by lia. apply get_zdrop; lia. }
  rewrite <- (ztake_slice _ _ _ _ S).
  destruct C as [[E1 E2]|(E1 & E2 & E3)].
  - subst seg_start. rewrite E2, Z.sub_0_r in *. split.
    + apply copy_bytewise_spec; [lia|rewrite LT, <- E1; pose proof (zlen_nonneg _ (bh_source bh)); lia|].
      intros k K. rewrite get_app_l by (rewrite <- E1; lia). rewrite <- E1, A6, GD by lia. reflexivity.
    + left. rewrite <- E1. split; [reflexivity|]. split; [reflexivity|]. lia.
  - rewrite BS, E2 in *. rewrite E1 in *. split.
    + apply copy_bytewise_spec; [lia|rewrite LT; pose proof (zlen_nonneg _ dict); lia|].
      intros k K. pose proof (zlen_nonneg _ dict). rewrite get_app_r by lia. rewrite (ztake_slice _ _ _ _ S).
      replace (m_source m + k - zlen dict) with (m_source m - zlen dict + k) by lia. rewrite get_ztake by lia. rewrite A6, GD by lia. reflexivity.
    + right. rewrite LT. split; [reflexivity|]. lia.
Qed.

Definition dict_hash_ok (dict : list Z) (dh : blockhash) (dhs : list Z) : Prop :=
  bh_ok dh dhs /\ bh_source dh = dict /\ bh_start dh = 0.
(** The index of the target: all aligned blocks that begin before [cand]. *)
Definition target_hash_ok (dict target : list Z) (cand : Z) (th : option blockhash) (ths : list Z) : Prop :=
  match th with
  | None => True
  | Some bh => bh_ok bh ths /\ bh_source bh = target /\ bh_start bh = zlen dict /\ true_hashes target ths /\
               (zlen ths - 1) * kBlockSize < cand <= zlen ths * kBlockSize
  end.
Definition is_some {A} (o : option A) : bool := match o with Some _ => true | None => false end.

Lemma encode_copy_ok : forall dict dh dhs th ths target h cand start,
  dict_hash_ok dict dh dhs -> target_hash_ok dict target cand th ths \/ (exists bh, th = Some bh /\ cand = 0 /\ ths = [] /\ bh_ok bh []) ->
  0 <= h -> 0 <= start <= cand -> cand + kBlockSize <= zlen target -> zlen target <= int32_max ->
  exists k calls, encode_copy_for_best_match dh th h target cand start (zlen target - start) = Some (k, calls) /\
    ((k = 0 /\ calls = []) \/
     (cand + kBlockSize <= start + k <= zlen target /\
      forall l T', genuine_plan (is_some th) dict (ztake (start + k) target) false l T' ->
        genuine_plan (is_some th) dict (ztake start target) false (calls ++ l) T')).
Proof.
  intros dict dh dhs th ths target h cand start (D1 & D2 & D3) TH H ST CL LT.
  unfold encode_copy_for_best_match.
  destruct (find_best_match_ok dh dhs h target cand start no_match D1 H ST CL LT) as (m1 & -> & B1 & _).
  assert (exists m, match th with Some t => find_best_match t h target cand start (zlen target - start) m1 | None => Some m1 end = Some m /\
      (m_size m < kMinimumMatchSize \/
       let pos := start + m_target m in
       0 <= m_target m /\ kMinimumMatchSize <= m_size m /\ cand + kBlockSize <= pos + m_size m <= zlen target /\
       copy_bytewise (Z.to_nat (m_size m)) dict (ztake pos target) (m_source m) = Some (ztake (pos + m_size m) target) /\
       ((0 <= m_source m /\ m_source m + m_size m <= zlen dict) \/
        (is_some th = true /\ zlen dict <= m_source m < zlen dict + zlen (ztake pos target))))) as (m & -> & C).
  { assert (forall m, better dh dhs target cand start no_match m -> m_size m < kMinimumMatchSize \/
       let pos := start + m_target m in
       0 <= m_target m /\ kMinimumMatchSize <= m_size m /\ cand + kBlockSize <= pos + m_size m <= zlen target /\
       copy_bytewise (Z.to_nat (m_size m)) dict (ztake pos target) (m_source m) = Some (ztake (pos + m_size m) target) /\
       ((0 <= m_source m /\ m_source m + m_size m <= zlen dict) \/
        (is_some th = true /\ zlen dict <= m_source m < zlen dict + zlen (ztake pos target)))) as FD.
    { intros m [-> |[_ G]]; [left; cbn; unfold kMinimumMatchSize; lia|].
      destruct (Z.lt_ge_cases (m_size m) kMinimumMatchSize) as [SM|BG]; [left; exact SM|right]. cbv zeta.
      destruct (genuine_copy dict target dh dhs cand start m 0 G) as (P1 & P2 & P3 & P4 & P5); [lia|exact D3|left; auto|].
      cbv zeta in *. split; [exact P1|]. split; [exact BG|]. split; [exact P3|]. split; [exact P4|].
      left. destruct P5 as [(_ & _ & P5)|(P5 & P6)]; [exact P5|].
      destruct G as (r & _ & _ & _ & MS & (_ & _ & _ & A4 & _)). rewrite D3, D2, Z.sub_0_r in A4.
      split; [pose proof (zlen_nonneg _ dict); lia|exact A4]. }
    destruct th as [bh|]; cbn [is_some] in *.
    - assert (bh_ok bh ths) as B by (destruct TH as [TH|(bh0 & E & _ & -> & B)]; [apply TH|injection E as <-; exact B]).
      destruct (find_best_match_ok bh ths h target cand start m1 B H ST CL LT) as (m & -> & [-> |[_ G]] & _).
      + exists m1. split; [reflexivity|]. apply FD. exact B1.
      + exists m. split; [reflexivity|].
        destruct (Z.lt_ge_cases (m_size m) kMinimumMatchSize) as [SM|BG]; [left; exact SM|right]. cbv zeta.
        destruct TH as [(_ & T2 & T3 & _ & T4)|(bh0 & E & _ & -> & _)].
        2: { destruct G as (r & R & _). rewrite zlen_nil in R. lia. }
        destruct (genuine_copy dict target bh ths cand start m (zlen dict) G) as (P1 & P2 & P3 & P4 & P5); [lia|exact T3|right; repeat split; auto; lia|].
        cbv zeta in *. split; [exact P1|]. split; [exact BG|]. split; [exact P3|]. split; [exact P4|].
        destruct P5 as [(_ & _ & P5)|(_ & P6)]; [left; exact P5|right; auto].
    - exists m1. split; [reflexivity|]. apply FD. exact B1. }
  cbv zeta in C. destruct (Z.leb_spec kMinimumMatchSize (m_size m)) as [BG|SM]; cbn [negb].
  2: { exists 0, []. split; [reflexivity|]. left. auto. }
  destruct C as [C|(P1 & P2 & P3 & P4 & P5)]; [lia|].
  destruct (Z.ltb_spec 0 (m_target m)) as [PT|ZT].
  - unfold kMinimumMatchSize, kBlockSize in *. assert (slice target start (m_target m) = Some (ztake (m_target m) (zdrop start target))) as S by (apply slice_some; lia).
    rewrite S. exists (m_target m + m_size m), [Add (ztake (m_target m) (zdrop start target)); Copy (m_source m) (m_size m)].
    split; [reflexivity|]. right. split; [lia|]. intros l T' G. cbn [app].
    destruct (slice_inv _ _ _ _ _ S) as (_ & _ & _ & _ & LD).
    apply gp_add; [intros X; rewrite X, zlen_nil in LD; lia|]. rewrite (ztake_slice _ _ _ _ S).
    eapply gp_copy; [lia|exact P5|exact P4|]. replace (start + m_target m + m_size m) with (start + (m_target m + m_size m)) by lia. exact G.
  - assert (m_target m = 0) as E by lia. rewrite E in *. rewrite Z.add_0_r, Z.add_0_l in *. unfold kMinimumMatchSize, kBlockSize in *.
    exists (m_size m), [Copy (m_source m) (m_size m)].
    split; [reflexivity|]. right. split; [lia|]. intros l T' G. cbn [app].
    eapply gp_copy; [lia|exact P5|exact P4|exact G].
Qed.

Lemma is_some_look : forall (th th' : option blockhash), is_some th = is_some th' ->
  forall dict T b l T', genuine_plan (is_some th') dict T b l T' -> genuine_plan (is_some th) dict T b l T'.
Proof. intros th th' ->. auto. Qed.

Lemma next_hash : forall target cand blk h, bytes_ok target -> 0 <= cand -> cand + kBlockSize < zlen target ->
  slice target cand kBlockSize = Some blk -> hash_direct kBlockSize blk = Some h ->
  exists first last blk' h', get target cand = Some first /\ get target (cand + kBlockSize) = Some last /\
    slice target (cand + 1) kBlockSize = Some blk' /\ hash_direct kBlockSize blk' = Some h' /\
    update_hash (remove_table kBlockSize) h first last = Some h'.
Proof.
  intros target cand blk h B C L S H. assert (kBlockSize = 16) as K by reflexivity.
  destruct (get_some _ target cand) as [first GF]; [lia|]. destruct (get_some _ target (cand + kBlockSize)) as [las GL]; [lia|].
  destruct (slice_inv _ _ _ _ _ S) as (_ & _ & _ & E & LB).
  assert (blk = first :: ztake (kBlockSize - 1) (zdrop (cand + 1) target)) as EB.
  { rewrite E, (zdrop_get _ _ _ _ GF). apply ztake_cons. lia. }
  assert (slice target (cand + 1) kBlockSize = Some (ztake (kBlockSize - 1) (zdrop (cand + 1) target) ++ [las])) as S'.
  { rewrite slice_some by lia. f_equal. replace kBlockSize with (kBlockSize - 1 + 1) at 1 by lia.
    apply ztake_snoc. rewrite get_zdrop by lia. rewrite <- GL. f_equal. lia. }
  pose proof (slice_bytes_ok _ _ _ _ B S) as B1. pose proof (slice_bytes_ok _ _ _ _ B S') as B2.
  destruct (slice_inv _ _ _ _ _ S') as (_ & _ & _ & _ & LB').
  exists first, las, (ztake (kBlockSize - 1) (zdrop (cand + 1) target) ++ [las]).
  exists (poly (ztake (kBlockSize - 1) (zdrop (cand + 1) target) ++ [las]) mod kBase).
  split; [exact GF|]. split; [exact GL|]. split; [exact S'|]. split; [apply hash_direct_block; auto; lia|].
  rewrite hash_direct_block in H by (auto; lia). injection H as <-. rewrite EB.
  apply update_hash_ok; [lia| |exact (bytes_ok_get _ _ _ B GF)|exact (bytes_ok_get _ _ _ B GL)].
  rewrite zlen_ztake, zlen_zdrop by lia. lia.
Qed.

Lemma encode_loop_ok : forall fuel dict dh dhs target next_encode cand h th ths blk,
  dict_hash_ok dict dh dhs -> target_hash_ok dict target cand th ths ->
  bytes_ok target -> zlen target <= int32_max ->
  0 <= next_encode <= cand -> cand + kBlockSize <= zlen target -> zlen target - cand <= Z.of_nat fuel ->
  slice target cand kBlockSize = Some blk -> hash_direct kBlockSize blk = Some h ->
  exists e calls, encode_loop fuel dh target (remove_table kBlockSize) next_encode cand h th = Some (e, calls) /\
    next_encode <= e <= zlen target /\
    forall l T', genuine_plan (is_some th) dict (ztake e target) false l T' ->
      genuine_plan (is_some th) dict (ztake next_encode target) false (calls ++ l) T'.
Proof.
  induction fuel as [|fuel IH]; intros dict dh dhs target ne cand h th ths blk D TH B L NE CL F S H.
  { unfold kBlockSize in CL. lia. }
  cbn [encode_loop]. cbv zeta.
  assert (kBlockSize = 16) as K by reflexivity.
  destruct (slice_inv _ _ _ _ _ S) as (_ & _ & _ & _ & LB).
  assert (0 <= h) as H0 by (eapply hash_direct_nonneg; [eapply slice_bytes_ok; eauto| |eauto]; lia).
  destruct (encode_copy_ok dict dh dhs th ths target h cand ne D (or_introl TH) H0 NE CL L) as (k & calls & -> & C).
  destruct C as [[-> ->]|[KR G]].
  - cbn [Z.ltb Z.compare app]. destruct (Z.ltb_spec (zlen target - kBlockSize) (cand + 1)) as [E|E].
    + exists ne, []. split; [reflexivity|]. split; [lia|]. cbn [app]. auto.
    + destruct (next_hash target cand blk h B ltac:(lia) ltac:(lia) S H) as (f & la & blk' & h' & GF & GL & S' & H' & U).
      assert (exists th' ths', match th with
                | Some t => match add_one_index_hash t (to_int32 cand) h with Some th'0 => Some (Some th'0) | None => None end
                | None => Some None end = Some th' /\ target_hash_ok dict target (cand + 1) th' ths' /\ is_some th = is_some th')
        as (th' & ths' & -> & TH' & IS).
      { destruct th as [bh|]; [|exists None, []; repeat split].
        destruct TH as (T1 & T2 & T3 & T4 & T5). unfold add_one_index_hash, next_index_to_add. rewrite (bo_last _ _ T1).
        rewrite to_int32_id by (unfold int32_max in *; lia). replace (zlen ths - 1 + 1) with (zlen ths) by lia.
        destruct (Z.eqb_spec cand (zlen ths * kBlockSize)) as [EQ|NEQ].
        - destruct (add_block_ok bh ths h T1) as (bh' & -> & OK & (S1 & S2 & S3)); [|exact H0|].
          { unfold number_of_blocks. rewrite T2. apply Z.lt_le_trans with (zlen ths + 1); [lia|]. apply Z.div_le_lower_bound; lia. }
          exists (Some bh'), (ths ++ [h]). split; [reflexivity|]. split; [|reflexivity].
          cbn [target_hash_ok]. split; [exact OK|]. split; [congruence|]. split; [congruence|]. split.
          { eapply true_hashes_snoc; eauto. rewrite <- EQ. exact S. }
          rewrite zlen_app, zlen_cons, zlen_nil. lia.
        - exists (Some bh), ths. split; [reflexivity|]. split; [|reflexivity].
          cbn [target_hash_ok]. split; [exact T1|]. split; [exact T2|]. split; [exact T3|]. split; [exact T4|]. lia. }
      rewrite GF, GL, U.
      destruct (IH dict dh dhs target ne (cand + 1) h' th' ths' blk' D TH' B L ltac:(lia) ltac:(lia) ltac:(lia) S' H')
        as (e & calls' & -> & ER & GG).
      cbn [prepend app]. exists e, calls'. split; [reflexivity|]. split; [exact ER|].
      intros l T' GP. eapply is_some_look; [exact IS|]. apply GG. eapply is_some_look; [symmetry; exact IS|exact GP].
  - destruct (Z.ltb_spec 0 k) as [KP|KN]; [|lia].
    destruct (Z.ltb_spec (zlen target - kBlockSize) (ne + k)) as [E|E].
    + exists (ne + k), calls. split; [reflexivity|]. split; [lia|]. exact G.
    + assert (slice target (ne + k) kBlockSize = Some (ztake kBlockSize (zdrop (ne + k) target))) as S' by (apply slice_some; lia).
      rewrite S'. set (blk' := ztake kBlockSize _) in *. clearbody blk'.
      destruct (slice_inv _ _ _ _ _ S') as (_ & _ & _ & _ & LB').
      pose proof (slice_bytes_ok _ _ _ _ B S') as BB'.
      assert (hash_direct kBlockSize blk' = Some (poly blk' mod kBase)) as H' by (apply hash_direct_block; auto; lia).
      rewrite H'.
      destruct th as [bh|].
      * destruct TH as (T1 & T2 & T3 & T4 & T5).
        destruct (add_all_ok bh ths (ne + k)) as (bh' & more & A1 & A2 & A3 & (S1 & S2 & S3) & A4 & A5).
        { rewrite T2; exact B. } { exact T1. } { rewrite T2; exact T4. } { rewrite T2. lia. }
        rewrite to_int32_id by (unfold int32_max in *; lia). rewrite A1.
        destruct (IH dict dh dhs target (ne + k) (ne + k) (poly blk' mod kBase) (Some bh') (ths ++ more) blk' D) as (e & calls' & -> & ER & GG);
          [|exact B|exact L|lia|lia|lia|exact S'|exact H'|].
        { cbn [target_hash_ok]. split; [exact A2|]. split; [congruence|]. split; [congruence|]. split; [rewrite <- T2; exact A3|].
          rewrite zlen_app. split.
          - destruct A4 as [-> | A4]; [rewrite zlen_nil; lia|exact A4].
          - destruct (Z.lt_ge_cases ((zlen ths + zlen more) * kBlockSize) (ne + k)) as [X|X]; [exfalso|exact X].
            pose proof (zlen_nonneg _ ths). pose proof (zlen_nonneg _ more).
            assert (zlen ths + zlen more < zlen ths + zlen more); [|lia]. apply A5; [|exact X].
            split; [lia|]. unfold number_of_blocks. rewrite T2. apply Z.lt_le_trans with (zlen ths + zlen more + 1); [lia|]. apply Z.div_le_lower_bound; lia. }
        cbn [prepend]. exists e, (calls ++ calls'). split; [reflexivity|]. split; [lia|].
        intros l T' GP. rewrite <- app_assoc. apply G. apply GG. exact GP.
      * destruct (IH dict dh dhs target (ne + k) (ne + k) (poly blk' mod kBase) None [] blk' D I B L) as (e & calls' & -> & ER & GG);
          [lia|lia|lia|exact S'|exact H'|].
        cbn [prepend]. exists e, (calls ++ calls'). split; [reflexivity|]. split; [lia|].
        intros l T' GP. rewrite <- app_assoc. apply G. apply GG. exact GP.
Qed.

(** An engine after Init. *)
Definition engine_ok (en : engine) (dict : list Z) : Prop :=
  en_dict en = dict /\ bytes_ok dict /\
  exists dh dhs, en_hash en = Some dh /\ dict_hash_ok dict dh dhs /\ true_hashes dict dhs /\
    forall b, 0 <= b < zlen dict / kBlockSize -> b < zlen dhs.

Lemma engine_init_ok : forall dict, bytes_ok dict -> zlen dict <= int32_max ->
  exists en, engine_init (new_engine dict) = Some (en, true) /\ engine_ok en dict.
Proof.
  intros dict B L. unfold engine_init, new_engine, create_dictionary_hash. cbn [en_hash en_dict].
  destruct (bh_init_eq dict 0 true L) as (k & KR & OK & ->).
  destruct (add_all_ok (empty_bh dict 0 k) [] (zlen dict)) as (bh' & more & -> & A2 & A3 & (S1 & S2 & S3) & A4 & A5); auto.
  { intros b h G. rewrite (proj2 (get_none _ _ _)) in G by (rewrite zlen_nil; lia). discriminate. }
  { cbn [bh_source empty_bh]. rewrite zlen_nil. pose proof (zlen_nonneg _ dict). unfold kBlockSize. lia. }
  exists {| en_dict := dict; en_hash := Some bh' |}. split; [reflexivity|].
  split; [reflexivity|]. split; [exact B|]. exists bh', more. split; [reflexivity|].
  split; [split; [exact A2|split; [exact S1|exact S2]]|]. split; [exact A3|].
  intros b BR. rewrite zlen_nil in A5. cbn [Z.add] in A5. apply (A5 b).
  - exact BR.
  - unfold kBlockSize in *. pose proof (Z.mul_div_le (zlen dict) 16 ltac:(lia)). lia.
Qed.

Lemma engine_encode_ok : forall en dict look target, engine_ok en dict -> bytes_ok target -> target <> [] ->
  zlen dict + zlen target <= int32_max ->
  exists l, engine_encode en look target = Some (Some l) /\ genuine_plan look dict [] false l target.
Proof.
  intros en dict look target (E1 & BD & dh & dhs & E2 & D & _) B NE L. unfold engine_encode. rewrite E2, E1. cbv zeta.
  pose proof (zlen_nonneg _ dict). pose proof (zlen_nonneg _ target).
  assert (0 < zlen target) as P by (destruct target; [congruence|rewrite zlen_cons; pose proof (zlen_nonneg _ target); lia]).
  assert (kBlockSize = 16) as K by reflexivity.
  destruct (Z.eqb_spec (zlen target) 0); [lia|]. destruct (Z.ltb_spec (zlen target) kBlockSize) as [SM|BG].
  - unfold add_unmatched_remainder. destruct (Z.ltb_spec 0 (zlen target)); [|lia]. rewrite slice_whole.
    exists [Add target]. split; [reflexivity|]. apply gp_add; [exact NE|]. cbn [app]. constructor.
  - assert (exists th ths, (if look then create_target_hash target (zlen dict) else Some None) = Some th /\
       target_hash_ok dict target 0 th ths /\ is_some th = look) as (th & ths & -> & TH & IS).
    { destruct look; [|exists None, []; repeat split]. unfold create_target_hash.
      rewrite to_int32_id by (unfold int32_max in *; lia).
      destruct (bh_init_eq target (zlen dict) false) as (k & KR & OK & ->); [lia|].
      exists (Some (empty_bh target (zlen dict) k)), []. split; [reflexivity|]. split; [|reflexivity].
      cbn [target_hash_ok]. split; [exact OK|]. split; [reflexivity|]. split; [reflexivity|].
      split; [intros b h G; rewrite (proj2 (get_none _ _ _)) in G by (rewrite zlen_nil; lia); discriminate|]. rewrite zlen_nil. lia. }
    assert (look && (match th with None => true | Some _ => false end) = false) as ->
      by (destruct th, look; cbn in *; congruence).
    assert (slice target 0 kBlockSize = Some (ztake kBlockSize (zdrop 0 target))) as S' by (apply slice_some; lia).
    rewrite S'. set (blk' := ztake kBlockSize _) in *. clearbody blk'.
    destruct (slice_inv _ _ _ _ _ S') as (_ & _ & _ & _ & LB').
    pose proof (slice_bytes_ok _ _ _ _ B S') as BB'.
    assert (hash_direct kBlockSize blk' = Some (poly blk' mod kBase)) as H' by (apply hash_direct_block; auto; lia).
    rewrite H'.
    destruct (encode_loop_ok (Z.to_nat (zlen target)) dict dh dhs target 0 0 (poly blk' mod kBase) th ths blk' D TH B)
      as (e & calls & -> & ER & G); [lia|lia|lia|lia|exact S'|exact H'|].
    unfold add_unmatched_remainder. rewrite IS in G. destruct (Z.ltb_spec 0 (zlen target - e)) as [R|R].
    + assert (slice target e (zlen target - e) = Some (ztake (zlen target - e) (zdrop e target))) as SE by (apply slice_some; lia).
      rewrite SE. destruct (slice_inv _ _ _ _ _ SE) as (_ & _ & _ & _ & LE).
      eexists. split; [reflexivity|]. change (@nil Z) with (ztake 0 target) || rewrite <- (ztake_0 _ target). apply G.
      apply gp_add; [intros X; rewrite X, zlen_nil in LE; lia|].
      rewrite (ztake_slice _ _ _ _ SE). replace (e + (zlen target - e)) with (zlen target) by lia. rewrite ztake_all by lia. constructor.
    + eexists. split; [reflexivity|]. rewrite <- (ztake_0 _ target). apply G.
      rewrite ztake_all by lia. constructor.
Qed.

Lemma genuine_plan_execute : forall look dict T b l T', genuine_plan look dict T b l T' -> execute_all dict T l = Some T'.
Proof.
  induction 1 as [T b|T d l T' ND G IH|T b a n T1 l T' N C X G IH]; cbn [execute_all execute]; auto.
  assert ((0 <=? a) && (a <? zlen dict + zlen T) = true) as ->.
  { apply andb_true_intro. pose proof (zlen_nonneg _ dict). pose proof (zlen_nonneg _ T). lia. }
  rewrite X. exact IH.
Qed.

Lemma genuine_plan_grows : forall look dict T b l T', genuine_plan look dict T b l T' -> exists m, T' = T ++ m.
Proof.
  induction 1 as [T b|T d l T' ND G (m & IH)|T b a n T1 l T' N C X G (m & IH)].
  - exists []. rewrite app_nil_r. reflexivity.
  - rewrite IH, <- app_assoc. eauto.
  - destruct (copy_bytewise_length _ _ _ _ _ X) as (bs & -> & _). rewrite IH, <- app_assoc. eauto.
Qed.

Lemma genuine_plan_good : forall look dict T b l T', genuine_plan look dict T b l T' -> bytes_ok T' -> Forall good_instruction l.
Proof.
  induction 1 as [T b|T d l T' ND G IH|T b a n T1 l T' N C X G IH]; intros B; constructor; auto.
  - cbn. destruct (genuine_plan_grows _ _ _ _ _ _ G) as (m & E). rewrite E in B. apply bytes_ok_app in B. destruct B as [B _].
    apply bytes_ok_app in B. split; [|apply B]. destruct d; [congruence|]. rewrite zlen_cons. pose proof (zlen_nonneg _ d). lia.
  - cbn. lia.
Qed.

Lemma genuine_plan_cost : forall look dict T b l T', genuine_plan look dict T b l T' ->
  costs l <= zlen T' - zlen T + (if b then 0 else 6).
Proof.
  induction 1 as [T b|T d l T' ND G IH|T b a n T1 l T' N C X G IH]; cbn [costs cost].
  - destruct b; lia.
  - rewrite zlen_app in IH. lia.
  - destruct (copy_bytewise_length _ _ _ _ _ X) as (bs & -> & LB). rewrite zlen_app in IH. destruct b; lia.
Qed.

(** A target that is the beginning of the dictionary. *)
Lemma engine_encode_prefix : forall en dict look target rest, engine_ok en dict -> dict = target ++ rest -> 32 <= zlen target ->
  zlen dict + zlen target <= int32_max ->
  exists a, engine_encode en look target = Some (Some [Copy a (zlen target)]) /\ 0 <= a /\ a + zlen target <= zlen dict.
Proof.
  intros en dict look target rest (E1 & BD & dh & dhs & E2 & D & TH & ALL) ED N L. pose proof D as (D1 & D2 & D3).
  pose proof (zlen_nonneg _ rest). assert (zlen dict = zlen target + zlen rest) as LD by (rewrite ED, zlen_app; reflexivity).
  assert (kBlockSize = 16) as K by reflexivity. assert (bytes_ok target) as B by (rewrite ED in BD; apply bytes_ok_app in BD; apply BD).
  unfold engine_encode. rewrite E2, E1. cbv zeta.
  destruct (Z.eqb_spec (zlen target) 0); [lia|]. destruct (Z.ltb_spec (zlen target) kBlockSize) as [SM|BG]; [lia|].
  assert (exists th, (if look then create_target_hash target (zlen dict) else Some None) = Some th /\
       target_hash_ok dict target 0 th [] /\ is_some th = look) as (th & -> & THO & IS).
    { destruct look; [|exists None; repeat split]. unfold create_target_hash.
      rewrite to_int32_id by (unfold int32_max in *; lia).
      destruct (bh_init_eq target (zlen dict) false) as (k & KR & OK & ->); [lia|].
      exists (Some (empty_bh target (zlen dict) k)). split; [reflexivity|]. split; [|reflexivity].
      cbn [target_hash_ok]. split; [exact OK|]. split; [reflexivity|]. split; [reflexivity|].
      split; [intros b h G; rewrite (proj2 (get_none _ _ _)) in G by (rewrite zlen_nil; lia); discriminate|]. rewrite zlen_nil. lia. }
  assert (look && (match th with None => true | Some _ => false end) = false) as ->
      by (destruct th, look; cbn in *; congruence).
  assert (slice target 0 kBlockSize = Some (ztake kBlockSize (zdrop 0 target))) as S' by (apply slice_some; lia).
  assert (slice dict 0 kBlockSize = Some (ztake kBlockSize (zdrop 0 target))) as SD.
  { rewrite slice_some by lia. rewrite !zdrop_0, ED. rewrite ztake_app_le by lia. reflexivity. }
  rewrite S'. set (blk := ztake kBlockSize _) in *. clearbody blk.
  destruct (slice_inv _ _ _ _ _ S') as (_ & _ & _ & _ & LB').
  pose proof (slice_bytes_ok _ _ _ _ B S') as BB'.
  assert (hash_direct kBlockSize blk = Some (poly blk mod kBase)) as H' by (apply hash_direct_block; auto; lia).
  rewrite H'. assert (0 <= poly blk mod kBase) as H0 by (apply Z.mod_pos_bound; unfold kBase; lia).
  set (h := poly blk mod kBase) in *. clearbody h.
  destruct (Z.to_nat (zlen target)) as [|fuel] eqn:EF; [lia|]. cbn [encode_loop]. cbv zeta.
  unfold encode_copy_for_best_match.
  destruct (find_best_match_ok dh dhs h target 0 0 no_match D1 H0 ltac:(lia) ltac:(lia) ltac:(lia)) as (m & -> & BM & FULL).
  assert (get dhs 0 = Some h) as G0.
  { assert (0 < zlen dhs) by (apply ALL; split; [lia|]; apply Z.div_str_pos; lia).
    destruct (get_some _ dhs 0) as [h0 G0]; [lia|]. destruct (TH _ _ G0) as (blk0 & X & Y). rewrite G0.
    change (0 * kBlockSize) with 0 in X. rewrite SD in X. injection X as <-. congruence. }
  assert (exists l, bucket (bh_mask dh) dhs (hash_table_index dh h) = 0 :: l) as (bl & EB).
  { assert (In 0 (bucket (bh_mask dh) dhs (hash_table_index dh h))) as I0 by (apply bucket_in; exists h; split; [exact G0|reflexivity]).
    pose proof (bucket_from_sorted dhs 0 (bh_mask dh) (hash_table_index dh h)) as SS. fold (bucket (bh_mask dh) dhs (hash_table_index dh h)) in SS.
    pose proof (bucket_range dhs (bh_mask dh) (hash_table_index dh h)) as RR.
    destruct (bucket _ _ _) as [|x l]; [destruct I0|]. exists l. f_equal.
    destruct I0 as [I0|I0]; [exact I0|]. inversion SS as [|? ? _ FA]; subst. rewrite Forall_forall in FA.
    specialize (FA 0 I0). specialize (RR x (or_introl eq_refl)). lia. }
  assert (same_range (bh_source dh) (0 * kBlockSize) target 0 (zlen target)) as SR.
  { rewrite D2. unfold same_range. split; [lia|]. split; [lia|]. split; [lia|]. split; [lia|]. split; [lia|].
    intros k KR. rewrite ED, get_app_l by lia. reflexivity. }
  specialize (FULL 0 blk bl (zlen target) S' EB ltac:(rewrite D2; exact SD) eq_refl SR ltac:(rewrite D2; lia)).
  assert (genuine dh dhs target 0 0 m) as (r & RR & MT & _ & MS & (A1 & A2 & A3 & A4 & A5 & A6)).
  { destruct BM as [-> |[_ G]]; [cbn in FULL; lia|exact G]. }
  assert (match th with Some th0 => find_best_match th0 h target 0 0 (zlen target - 0) m | None => Some m end = Some m) as ->.
  { destruct th as [bh|]; [|reflexivity]. destruct THO as (T1 & _).
    destruct (find_best_match_ok bh [] h target 0 0 m T1 H0 ltac:(lia) ltac:(lia) ltac:(lia)) as (m' & -> & [-> |[_ (r' & R' & _)]] & _); [reflexivity|].
    rewrite zlen_nil in R'. lia. }
  assert (m_target m = 0) as E0 by lia. assert (m_size m = zlen target) as ES by lia.
  rewrite D3, D2, E0 in *. rewrite ES in *.
  destruct (Z.leb_spec kMinimumMatchSize (zlen target)) as [X|X]; [|unfold kMinimumMatchSize in X; lia]. cbn [negb].
  cbn [Z.ltb Z.compare]. rewrite Z.add_0_l. destruct (Z.ltb_spec 0 (zlen target)); [|lia].
  destruct (Z.ltb_spec (zlen target - kBlockSize) (0 + zlen target)); [|lia].
  unfold add_unmatched_remainder. rewrite Z.add_0_l, Z.sub_diag. cbn [Z.ltb Z.compare app].
  exists (m_source m). split; [reflexivity|]. lia.
Qed.
