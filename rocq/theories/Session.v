(** Decoder objects between two decodings, and facts about whole streams of
    DecodeChunk calls. *)

From Verif Require Import Base Spec Varint VarintFacts AddrCache AddrCacheFacts CodeTable CodeTableFacts
  InstructionMap DecodeTable HeaderParser Adler AdlerFacts Decoder CopyFacts BodyFacts BodyExt WindowExt
  WindowHeader WindowStep Refine Totals Abstract FileHeader Chunk Sim Stream.
From Coq Require Import ZifyBool ZifyNat.

(** [idle d]: [d] is a VCDiffStreamingDecoder on which settings have been made
    and whole decodings (successful or not, complete or abandoned) have been
    done in any order, the last one ended by FinishDecoding.
    (A decoding that has undefined behaviour, [None], is none that has been done.) *)
Inductive idle : dec -> Prop :=
| idle_new : idle new_decoder
| idle_max_file : forall d n, idle d -> 0 <= n <= size_max -> idle (fst (set_maximum_target_file_size d n))
| idle_max_window : forall d n, idle d -> 0 <= n <= size_max -> idle (fst (set_maximum_target_window_size d n))
| idle_allow : forall d b, idle d -> idle (set_allow_vcd_target d b)
| idle_decoded : forall d dict chunks d' ok out, idle d -> bytes_ok dict -> Forall bytes_ok chunks ->
    decode_chunks (start_decoding d dict) chunks [] = Some (d', ok, out) ->
    idle (fst (finish_decoding d')).

Lemma start_bad_in : forall d dict x, bad_in (astart d dict) x -> bad_cache x.
Proof. intros [c n] dict x [H|[_ H]]; [discriminate|exact H]. Qed.

Lemma start_has_ext : forall d dict x, has_ext (astart d dict) x -> s_version x.
Proof. intros [c n] dict x H. exact H. Qed.

Lemma astart_target : forall d dict, d_target (acore (astart d dict)) = [].
Proof. intros [c n] dict. reflexivity. Qed.

(** What the abstract decoder says about a whole stream. *)
Lemma stream_start : forall d dict chunks, ready d -> bytes_ok dict -> Forall bytes_ok chunks ->
  exists R, acrs (astart d dict) chunks R /\
  match decode_chunks (start_decoding d dict) chunks [] with
  | Some (d', true, out) => exists a, R = AOk a /\ drel out d' a /\ aok a /\ unplanned a
  | Some (d', false, out) => R = AErr /\ zlen out <= d_max_file (acore (astart d dict)) /\ failed d'
  | None => R = AUB /\ bad_cache (concat chunks)
  end.
Proof.
  intros d dict chunks RD BD F. destruct (start_ok d dict RD BD) as (DR & OK & UP & MF).
  destruct (stream_sim chunks _ _ _ [] DR OK UP F) as (R & AR & M).
  exists R. split; [exact AR|].
  destruct (decode_chunks (start_decoding d dict) chunks []) as [[[d' [|]] out]|]; auto.
  - destruct M as (more & a & E & -> & D & A & U). cbn in E. subst more. exists a. auto.
  - destruct M as (-> & (more & E & Z) & FD). cbn in E. subst more. auto.
  - destruct M as [-> B]. split; [reflexivity|]. eapply start_bad_in; eauto.
Qed.

Lemma drel_table : forall O d a, drel O d a -> aok a -> let '(Dec c _) := d in
  table_ok (d_table c) /\ 0 <= d_max_file c <= size_max.
Proof.
  intros O d a [c ST S T OP|c nd an ST S T OP U H|ns ss pre c CO SH ST OP] OK;
  inversion OK as [k0 u0 BO S0 BU HE E|k0 n0 ns1 ss1 BO S0 SO ON PN TN E|ns1 ss1 k0 u0 CO1 BU Q TI LI EX E]; subst;
  try (split; apply BO); (split; [apply CO1|apply LI]).
Qed.

Lemma idle_ready : forall d, idle d -> ready d.
Proof.
  induction 1 as [|[c n] m H IH M|[c n] m H IH M|[c n] b H IH|d dict chunks d' ok out H IH BD F DC].
  - split; [reflexivity|]. split; [apply default_table_ok|]. cbn. unfold kDefaultMaximumTargetFileSize, size_max. lia.
  - cbn in *. destruct IH as (A & B & C). auto.
  - cbn in *. destruct (kTargetSizeLimit <? m); cbn; auto.
  - cbn in *. destruct IH as (A & B & C). rewrite A. cbn. auto.
  - destruct (stream_start d dict chunks IH BD F) as (R & AR & M). rewrite DC in M. destruct ok.
    + destruct M as (a & -> & DR & OK & UP). pose proof (drel_table _ _ _ DR OK) as TO. destruct d' as [c n].
      cbn. destruct TO. auto.
    + destruct M as (_ & _ & c & -> & T & MF). cbn. auto.
Qed.

Lemma idle_start : forall d dict, idle d -> let '(Dec c _) := d in start_decoding d dict = Dec (start_core c dict) None.
Proof. intros [c n] dict H. apply idle_ready in H as (H & _). cbn. rewrite H. reflexivity. Qed.

(** No call: the same as one call without data. *)
Lemma no_chunk : forall d dict, idle d -> exists d1 d2,
  decode_chunks (start_decoding d dict) [] [] = Some (d1, true, []) /\
  decode_chunks (start_decoding d dict) [[]] [] = Some (d2, true, []) /\
  snd (finish_decoding d1) = true /\ snd (finish_decoding d2) = true.
Proof.
  intros [c n] dict H. pose proof (idle_start _ dict H) as E. cbn [decode_chunks]. rewrite E.
  eexists _, _. split; [reflexivity|]. split; [reflexivity|]. split; reflexivity.
Qed.

Lemma concat_single : forall {A} (l : list (list A)), concat [concat l] = concat l.
Proof. intros. cbn. apply app_nil_r. Qed.

Lemma acrs_one : forall a x R, acrs a [x] R -> acr a x R.
Proof.
  intros a x R H. inversion H as [|? ? ? ? A N|? ? ? a' ? A B]; subst; auto. inversion B; subst; auto.
Qed.

Lemma bytes_concat : forall l : list (list Z), Forall bytes_ok l -> bytes_ok (concat l).
Proof. intros l F. unfold bytes_ok. apply Forall_concat. exact F. Qed.

(** ** Splitting *)

Theorem split_success : forall d dict chunks d1 out, idle d -> bytes_ok dict -> Forall bytes_ok chunks ->
  decode_chunks (start_decoding d dict) [concat chunks] [] = Some (d1, true, out) ->
  exists d2, decode_chunks (start_decoding d dict) chunks [] = Some (d2, true, out) /\
             snd (finish_decoding d2) = snd (finish_decoding d1).
Proof.
  intros d dict chunks d1 out ID BD F H. pose proof (idle_ready d ID) as RD.
  destruct chunks as [|x tl].
  { destruct (no_chunk d dict ID) as (e1 & e2 & E1 & E2 & F1 & F2). cbn [concat] in H. rewrite E2 in H. injection H as <- <-.
    exists e1. rewrite F1, F2. auto. }
  destruct (stream_start d dict (x :: tl) RD BD F) as (R2 & A2 & M2).
  assert (Forall bytes_ok [concat (x :: tl)]) as F1 by (constructor; [apply bytes_concat; exact F|constructor]).
  destruct (stream_start d dict [concat (x :: tl)] RD BD F1) as (R1 & A1 & M1).
  rewrite H in M1. destruct M1 as (a1 & -> & D1 & O1 & U1). apply acrs_one in A1.
  destruct (start_ok d dict RD BD) as (DR & OK & UP & MF).
  destruct (acrs_concat _ _ _ _ F OK UP A2 A1 ltac:(discriminate)) as [SM|[_ X]]; [|discriminate].
  destruct R2 as [a2| |]; try contradiction. cbn in SM.
  destruct (decode_chunks (start_decoding d dict) (x :: tl) []) as [[[d2 [|]] out2]|].
  - destruct M2 as (a2' & E & D2 & O2 & U2). injection E as <-. exists d2.
    destruct (arel_acore _ _ SM O2) as (T & AC & _). rewrite (drel_out _ _ _ D1), (drel_out _ _ _ D2) in T. subst out2.
    split; [reflexivity|].
    destruct (drel_finish _ _ _ D1 O1) as (c1 & n1 & -> & -> & _). destruct (drel_finish _ _ _ D2 O2) as (c2 & n2 & -> & -> & _).
    cbn. congruence.
  - destruct M2 as (E & _). discriminate.
  - destruct M2 as (E & _). discriminate.
Qed.

(** The same result: undefined behaviour in both cases or, in both cases, the same
    return values and in case of success the same output. *)
Definition same_result (r1 r2 : option (bool * list Z)) : Prop :=
  match r1, r2 with
  | Some (ok1, out1), Some (ok2, out2) => ok1 = ok2 /\ (ok1 = true -> out1 = out2)
  | None, None => True
  | _, _ => False
  end.

Theorem split_independent : forall d dict chunks1 chunks2, idle d -> bytes_ok dict -> Forall bytes_ok chunks1 -> Forall bytes_ok chunks2 ->
  concat chunks1 = concat chunks2 -> ~ s_version (concat chunks1) ->
  same_result (decode_stream d dict chunks1) (decode_stream d dict chunks2).
Proof.
  assert (forall d dict chunks, idle d -> bytes_ok dict -> Forall bytes_ok chunks -> ~ s_version (concat chunks) ->
    same_result (decode_stream d dict chunks) (decode_stream d dict [concat chunks])) as ONE.
  { intros d dict chunks ID BD F NS. pose proof (idle_ready d ID) as RD.
    destruct chunks as [|x tl].
    { destruct (no_chunk d dict ID) as (e1 & e2 & E1 & E2 & F1 & F2). unfold decode_stream. cbn [concat].
      rewrite E1, E2, F1, F2. cbn. auto. }
    destruct (stream_start d dict (x :: tl) RD BD F) as (R2 & A2 & M2).
    assert (Forall bytes_ok [concat (x :: tl)]) as F1 by (constructor; [apply bytes_concat; exact F|constructor]).
    destruct (stream_start d dict [concat (x :: tl)] RD BD F1) as (R1 & A1 & M1).
    apply acrs_one in A1.
    destruct (start_ok d dict RD BD) as (DR & OK & UP & MF).
    destruct (acrs_concat _ _ _ _ F OK UP A2 A1 ltac:(discriminate)) as [SM|[X _]]; [|destruct NS; eapply start_has_ext; eauto].
    unfold decode_stream.
    destruct (decode_chunks (start_decoding d dict) (x :: tl) []) as [[[d2 [|]] out2]|];
    destruct (decode_chunks (start_decoding d dict) [concat (x :: tl)] []) as [[[d1 [|]] out1]|].
    - destruct M2 as (a2 & -> & D2 & O2 & U2). destruct M1 as (a1 & -> & D1 & O1 & U1). cbn in SM.
      destruct (arel_acore _ _ SM O2) as (T & AC & _). rewrite (drel_out _ _ _ D1), (drel_out _ _ _ D2) in T. subst out2.
      destruct (drel_finish _ _ _ D1 O1) as (c1 & n1 & -> & -> & _). destruct (drel_finish _ _ _ D2 O2) as (c2 & n2 & -> & -> & _).
      cbn [snd]. rewrite AC. cbn. auto.
    - destruct M2 as (a2 & -> & _). destruct M1 as (-> & _). destruct SM.
    - destruct M2 as (a2 & -> & _). destruct M1 as (-> & _). destruct SM.
    - destruct M1 as (a1 & -> & _). destruct M2 as (-> & _). destruct SM.
    - cbn. split; [reflexivity|discriminate].
    - destruct M2 as (-> & _). destruct M1 as (-> & _). destruct SM.
    - destruct M1 as (a1 & -> & _). destruct M2 as (-> & _). destruct SM.
    - destruct M2 as (-> & _). destruct M1 as (-> & _). destruct SM.
    - exact Logic.I. }
  intros d dict c1 c2 ID BD F1 F2 E NS.
  pose proof (ONE d dict c1 ID BD F1 NS) as H1. rewrite E in NS, H1. pose proof (ONE d dict c2 ID BD F2 NS) as H2.
  destruct (decode_stream d dict c1) as [[ok1 o1]|], (decode_stream d dict c2) as [[ok2 o2]|],
    (decode_stream d dict [concat c2]) as [[ok3 o3]|]; cbn in *; auto; try contradiction.
  destruct H1 as [-> H1], H2 as [-> H2]. split; [reflexivity|]. intros ->. rewrite H1, H2; reflexivity.
Qed.

(** ** Every call returns *)

Theorem decode_total : forall d dict chunks, idle d -> bytes_ok dict -> Forall bytes_ok chunks -> ~ bad_cache (concat chunks) ->
  exists d' ok out, decode_chunks (start_decoding d dict) chunks [] = Some (d', ok, out).
Proof.
  intros d dict chunks ID BD F NB. destruct (stream_start d dict chunks (idle_ready d ID) BD F) as (R & A & M).
  destruct (decode_chunks (start_decoding d dict) chunks []) as [[[d' ok] out]|]; [eauto|]. destruct NB. apply M.
Qed.

Theorem decode_limit : forall d dict chunks d' ok out, idle d -> bytes_ok dict -> Forall bytes_ok chunks ->
  decode_chunks (start_decoding d dict) chunks [] = Some (d', ok, out) ->
  zlen out <= (let '(Dec c _) := d in d_max_file c).
Proof.
  intros d dict chunks d' ok out ID BD F H. pose proof (idle_ready d ID) as RD.
  destruct (start_ok d dict RD BD) as (_ & _ & _ & MF). rewrite <- MF.
  destruct (stream_start d dict chunks RD BD F) as (R & A & M). rewrite H in M. destruct ok.
  - destruct M as (a & -> & D & O & U).
    assert (d_max_file (acore (astart d dict)) = d_max_file (acore a)) as ->.
    { clear - A RD BD F. destruct (start_ok d dict RD BD) as (_ & OK & UP & _). remember (astart d dict) as b eqn:EB. clear EB RD BD.
      remember (AOk a) as R eqn:ER. revert OK UP F ER. induction A as [b|b x tl R H N|b x tl b' R H H' IH]; intros.
      - injection ER as ->. reflexivity.
      - destruct (N a ER).
      - inversion F; subst. pose proof (unplanned_stopped b UP) as NS. pose proof (acr_ok _ _ _ H OK NS ltac:(auto)) as (OK' & PL & _).
        pose proof (acr_cfg _ _ _ H b' eq_refl OK NS ltac:(auto)) as (_ & E & _).
        rewrite <- E. apply IH; auto. unfold unplanned, has_planned in *. rewrite PL. exact UP. }
    rewrite <- (drel_out _ _ _ D). inversion O as [k0 u0 BO S0 BU HE E|k0 n0 ns1 ss1 BO S0 SO ON PN TN E|ns1 ss1 k0 u0 CO1 BU Q TI LI EX E]; subst; cbn [acore].
    + rewrite (bo_target _ BO), zlen_nil. apply BO.
    + rewrite (bo_target _ BO), zlen_nil. apply BO.
    + destruct TI as (T0 & T1). destruct LI as (_ & _ & L & _). destruct (d_win k0); lia.
  - tauto.
Qed.

(** ** Prefixes *)

Lemma decode_chunks_app : forall a b d out, decode_chunks d (a ++ b) out =
  match decode_chunks d a out with Some (d', true, o) => decode_chunks d' b o | r => r end.
Proof.
  induction a as [|x a IH]; intros b d out; [reflexivity|]. cbn [decode_chunks app].
  destruct (decode_chunk d x) as [d' [|] o| |]; auto.
Qed.

Lemma decode_chunks_out : forall l d out d' ok out', decode_chunks d l out = Some (d', ok, out') -> exists more, out' = out ++ more.
Proof.
  induction l as [|x l IH]; intros d out d' ok out' H; cbn [decode_chunks] in H.
  - injection H as <- <- <-. exists []. rewrite app_nil_r. reflexivity.
  - destruct (decode_chunk d x) as [d1 [|] o| |]; try discriminate.
    + destruct (IH _ _ _ _ _ H) as [m ->]. exists (o ++ m). rewrite app_assoc. reflexivity.
    + injection H as <- <- <-. eauto.
Qed.

Theorem prefix_output : forall d dict X Y T d1, idle d -> bytes_ok dict -> bytes_ok (X ++ Y) ->
  decode_chunks (start_decoding d dict) [X ++ Y] [] = Some (d1, true, T) ->
  exists out tail, T = out ++ tail /\
    forall chunks, Forall bytes_ok chunks -> concat chunks = X ->
    exists d', decode_chunks (start_decoding d dict) chunks [] = Some (d', true, out).
Proof.
  intros d dict X Y T d1 ID BD B H. apply bytes_ok_app in B as [BX BY].
  assert (concat [X; Y] = X ++ Y) as E by (cbn; rewrite app_nil_r; reflexivity).
  destruct (split_success d dict [X; Y] d1 T ID BD) as (d2 & H2 & _); rewrite ?E; auto.
  change [X; Y] with ([X] ++ [Y]) in H2. rewrite decode_chunks_app in H2.
  destruct (decode_chunks (start_decoding d dict) [X] []) as [[[d3 [|]] out]|] eqn:H3; [|discriminate|discriminate].
  destruct (decode_chunks_out _ _ _ _ _ _ H2) as [tail ->]. exists out, tail. split; [reflexivity|].
  intros chunks F EC. destruct (split_success d dict chunks d3 out ID BD F) as (d4 & H4 & _).
  - rewrite EC. exact H3.
  - eauto.
Qed.
