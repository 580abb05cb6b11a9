(** Accounting of target sizes, and how much input a window needs. *)

From Verif Require Import Base Spec Varint VarintFacts AddrCache AddrCacheFacts CodeTable CodeTableFacts
  InstructionMap DecodeTable HeaderParser Adler AdlerFacts Decoder CopyFacts BodyFacts BodyExt WindowExt
  WindowHeader WindowStep.
From Coq Require Import ZifyBool ZifyNat.

(** ** Sizes *)

Lemma body_loop_eod_len : forall f dict t w start st st',
  body_loop f dict t w start st = XEod st' -> zlen (b_target st') - start < w_len w.
Proof.
  induction f as [|f IH]; intros dict t w start st st' H; cbn [body_loop] in H;
    destruct (Z.ltb_spec (zlen (b_target st) - start) (w_len w)) as [L|L]; try discriminate.
  destruct (get_next_instruction t (b_pending st) (b_inst st)) as [ty n m p rest|p rest|]; try discriminate.
  - destruct (_ || _) in H; [discriminate|].
    destruct (decode_instruction _ _ _ _ _ _ _) as [s|s| | |]; try discriminate; [eauto|].
    injection H as <-. exact L.
  - injection H as <-. exact L.
Qed.

Lemma finish_window_len : forall c total w st avail after,
  match finish_window c total w st avail after with
  | XOk (c', _) => zlen (d_target c') = d_start c + w_len w /\ d_win c' = None /\ d_start c' = zlen (d_target c') /\ d_total c' = total /\
      cstep c (set_win c' (d_win c') (d_start c') (d_target c ++ []) (d_total c'))
  | XEod (c', _) => zlen (d_target c') < d_start c + w_len w /\ d_start c' = d_start c /\ d_total c' = total /\
      (exists w', d_win c' = Some w' /\ w_len w' = w_len w)
  | _ => True
  end.
Proof.
  intros. unfold finish_window, decode_body. destruct (body_loop _ _ _ _ _ _) as [st'|st'| | |] eqn:BL; auto.
  - destruct (Z.eqb_spec (zlen (b_target st') - d_start c) (w_len w)) as [E|]; cbn [negb]; auto.
    destruct (_ && _); auto. destruct (nonempty _); auto. destruct (_ && _); auto.
    cbn. split; [lia|]. split; [reflexivity|]. split; [reflexivity|]. split; [reflexivity|].
    eexists _, _, [], _. reflexivity.
  - apply body_loop_eod_len in BL. cbv zeta. destruct (_ && _); auto. cbn. split; [lia|].
    split; [reflexivity|]. split; [reflexivity|]. eexists. split; reflexivity.
Qed.

Definition tot_inv (k : core) : Prop :=
  0 <= d_total k /\
  match d_win k with
  | None => d_total k = zlen (d_target k) /\ d_start k = zlen (d_target k)
  | Some w => d_total k = d_start k + w_len w /\ zlen (d_target k) < d_total k
  end.

Definition lim_inv (k : core) : Prop :=
  0 <= d_max_file k <= size_max /\ 0 <= d_planned k <= size_max /\
  d_total k <= d_max_file k /\ (has_planned k = true -> d_total k <= d_planned k).

Lemma would_exceed_false : forall c n, would_exceed c n = false -> lim_inv c -> 0 <= d_total c -> 0 <= n ->
  n <= d_max_window c /\ d_total c + n <= d_max_file c /\ (has_planned c = true -> d_total c + n <= d_planned c).
Proof.
  intros c n H (A & B & C & D) T N. unfold would_exceed in H.
  apply orb_false_iff in H as [H H3]. apply orb_false_iff in H as [H1 H2].
  rewrite to_size_id in H3 by lia. split; [lia|]. split; [lia|]. intros HP. rewrite HP in *. specialize (D eq_refl).
  rewrite to_size_id in H2 by lia. cbn [andb] in H2. lia.
Qed.

Lemma header_fields_exceed : forall c data fd l ca, header_fields c data = Ok (fd, l) ->
  would_exceed c (w_len (fields_window c fd ca)) = false.
Proof.
  intros c data fd l ca H. unfold header_fields in H.
  destruct (parse_win_indicator _ _ _ data) as [[[[[ind k] len] p] r]| | |]; cbn [bind] in H; try discriminate.
  destruct (parse_size r) as [[dl s]| | |]; cbn [bind] in H; try discriminate.
  destruct (parse_size s) as [[tl2 s2]| | |]; cbn [bind] in H; try discriminate.
  destruct (would_exceed c tl2) eqn:E; try discriminate.
  destruct (parse_delta_indicator s2) as [s3| | |]; cbn [bind] in H; try discriminate.
  destruct (parse_section_lengths _ _ _ _) as [[[[[x1 x2] x3] x4] x5]| | |]; cbn [bind] in H; try discriminate.
  injection H as <- <-. exact E.
Qed.

(** The window of length [n] is being or has been decoded between [c] and [c']. *)
Lemma decode_window_len : forall ns ss c data, core_ok ns ss c -> bytes_ok data -> tot_inv c -> lim_inv c ->
  match decode_window c data with
  | XOk (c', _) | XEod (c', _) => tot_inv c' /\ lim_inv c' /\ zlen (d_target c') <= d_total c'
  | _ => True
  end.
Proof.
  intros ns ss c data CO BD TI LI.
  pose proof (decode_window_step c ns ss data [] CO BD ltac:(constructor)) as ST.
  assert (match decode_window c data with XOk (c', _) | XEod (c', _) => cstep c c' | _ => True end) as CS.
  { destruct (decode_window c data) as [[c' r]|[c' r]| | |]; auto; tauto. }
  clear ST.
  assert (forall total w st avail after, 
     match finish_window c total w st avail after with XOk (c', _) | XEod (c', _) => cstep c c' | _ => True end ->
     total = d_start c + w_len w -> 0 <= total <= d_max_file c -> (has_planned c = true -> total <= d_planned c) ->
     match finish_window c total w st avail after with
     | XOk (c', _) | XEod (c', _) => tot_inv c' /\ lim_inv c' /\ zlen (d_target c') <= d_total c' | _ => True end) as FW.
  { intros total w st avail after CS' ET TR TP. pose proof (finish_window_len c total w st avail after) as F.
    destruct LI as (L1 & L2 & L3 & L4).
    destruct (finish_window c total w st avail after) as [[c' r]|[c' r]| | |]; auto.
    - destruct F as (F1 & F2 & F3 & F4 & _). destruct CS' as (w1 & s1 & m1 & t1 & E).
      unfold tot_inv, lim_inv. rewrite F2, F4, F3.
      assert (d_max_file c' = d_max_file c /\ d_planned c' = d_planned c /\ has_planned c' = has_planned c) as (-> & -> & ->) by (subst c'; auto).
      split; [lia|]. split; [|lia]. split; [lia|]. split; [lia|]. split; [lia|exact TP].
    - destruct F as (F1 & F2 & F3 & w' & F4 & F5). destruct CS' as (w1 & s1 & m1 & t1 & E).
      unfold tot_inv, lim_inv. rewrite F4, F3, F2, F5.
      assert (d_max_file c' = d_max_file c /\ d_planned c' = d_planned c /\ has_planned c' = has_planned c) as (-> & -> & ->) by (subst c'; auto).
      split; [lia|]. split; [|lia]. split; [lia|]. split; [lia|]. split; [lia|exact TP]. }
  destruct TI as (T0 & TI).
  destruct (d_win c) as [w|] eqn:DW.
  - unfold decode_window in *. rewrite DW in *. destruct LI as (L1 & L2 & L3 & L4).
    apply FW; auto; lia.
  - rewrite (decode_window_none c ns ss) in * by (auto; apply CO).
    assert (tot_inv c) as TI' by (unfold tot_inv; rewrite DW; auto).
    assert (zlen (d_target c) <= d_total c) as ZT by lia.
    destruct (header_fields c data) as [[fd l]| | |] eqn:HF; auto.
    destruct (negb (fields_il c fd) && (zlen l <? fields_total fd)); [auto|].
    destruct (cache_init ns ss) as [ca|]; [|auto]. cbv zeta in *.
    pose proof (header_fields_exceed c data fd l ca HF) as WE.
    destruct (header_sound c ns ss data fd l BD HF) as (hdr & seg & ED & HR & BL).
    pose proof (header_rel_lens _ _ _ _ _ _ HR) as LE.
    assert (0 <= w_len (fields_window c fd ca)) as W0.
    { destruct fd as [[[[[[[[kind seglen] pos] tl] nd] ni] na] cks] has]. cbn [fields_window w_len].
      destruct HR as (ind & sb & bd & dl & bt & di & bnd & bni & bna & bcks & EH & BI & SG & KO & SLM & VD & LD & VT & _).
      eapply varint_nonneg; eauto. }
    destruct (would_exceed_false _ _ WE LI T0 W0) as (E1 & E2 & E3).
    assert (to_size (d_total c + w_len (fields_window c fd ca)) = d_total c + w_len (fields_window c fd ca)) as TS.
    { apply to_size_id. destruct LI. lia. }
    rewrite TS in *. destruct (fields_il c fd).
    + unfold finish_il in *. apply FW; auto; lia.
    + apply FW; auto; lia.
Qed.

(** ** A window that lacked input takes all of it and more *)

(** A parser's result depends only on what it consumes. *)
Definition local {A} (f : list Z -> res (A * list Z)) : Prop := forall l a r,
  bytes_ok l -> f l = Ok (a, r) -> exists p, l = p ++ r /\ forall r', f (p ++ r') = Ok (a, r').

Lemma parse_local : forall t, type_ok t -> local (parse t).
Proof.
  intros t T l a r B H. destruct (parse_inv t l a r T B H) as (p & E & V & R). exists p. split; [exact E|].
  intros r'. apply parse_ok; auto. tauto.
Qed.

Lemma parse_size_local : local parse_size.
Proof. apply parse_local, type_ok_I32. Qed.

Lemma parse_byte_local : local parse_byte.
Proof. intros [|b l] a r B H; [discriminate|]. cbn in H. injection H as <- <-. exists [b]. split; reflexivity. Qed.

Lemma bytes_ok_suffix : forall l p r, bytes_ok l -> l = p ++ r -> bytes_ok r.
Proof. intros l p r B ->. apply bytes_ok_app in B. tauto. Qed.

Lemma parse_checksum_local : local parse_checksum.
Proof.
  intros l a r B H. unfold parse_checksum in *. destruct (parse I64 l) as [[v q]| | |] eqn:P; cbn [bind] in H; try discriminate.
  destruct (4294967295 <? v) eqn:V; [discriminate|]. injection H as <- <-.
  destruct (parse_local I64 type_ok_I64 l v q B P) as (p & E & L). exists p. split; [exact E|].
  intros r'. rewrite L. cbn [bind]. rewrite V. reflexivity.
Qed.

Lemma parse_source_segment_local : forall n, local (parse_source_segment n).
Proof.
  intros n l a r B H. unfold parse_source_segment in *.
  destruct (parse_size l) as [[len l1]| | |] eqn:P; cbn [bind] in H; try discriminate.
  destruct (n <? len) eqn:C1; [discriminate|].
  destruct (parse_size l1) as [[pos l2]| | |] eqn:P2; cbn [bind] in H; try discriminate.
  destruct ((n <=? pos) && (0 <? len)) eqn:C2; [discriminate|]. destruct (n <? to_size (pos + len)) eqn:C3; [discriminate|].
  injection H as <- <-.
  destruct (parse_size_local l _ _ B P) as (p1 & E1 & L1).
  destruct (parse_size_local l1 _ _ (bytes_ok_suffix _ _ _ B E1) P2) as (p2 & E2 & L2).
  exists (p1 ++ p2). split; [rewrite <- app_assoc; congruence|]. intros r'. rewrite <- app_assoc, L1. cbn [bind]. rewrite C1, L2. cbn [bind].
  rewrite C2, C3. reflexivity.
Qed.

Lemma parse_win_indicator_local : forall ds ts al, local (parse_win_indicator ds ts al).
Proof.
  intros ds ts al l a r B H. unfold parse_win_indicator in *.
  destruct (parse_byte l) as [[ind l1]| | |] eqn:P; cbn [bind] in H; try discriminate.
  destruct (parse_byte_local l _ _ B P) as (p1 & E1 & L1).
  destruct (Z.testbit ind 0) eqn:I0, (Z.testbit ind 1) eqn:I1; try discriminate.
  - destruct (parse_source_segment ds l1) as [[[len pos] l2]| | |] eqn:P2; cbn [bind] in H; try discriminate.
    injection H as <- <-. destruct (parse_source_segment_local _ l1 _ _ (bytes_ok_suffix _ _ _ B E1) P2) as (p2 & E2 & L2).
    exists (p1 ++ p2). split; [rewrite <- app_assoc; congruence|]. intros r'. rewrite <- app_assoc, L1. cbn [bind]. rewrite I0, I1, L2. reflexivity.
  - destruct al; cbn [negb] in H; try discriminate.
    destruct (parse_source_segment ts l1) as [[[len pos] l2]| | |] eqn:P2; cbn [bind] in H; try discriminate.
    injection H as <- <-. destruct (parse_source_segment_local _ l1 _ _ (bytes_ok_suffix _ _ _ B E1) P2) as (p2 & E2 & L2).
    exists (p1 ++ p2). split; [rewrite <- app_assoc; congruence|]. intros r'. rewrite <- app_assoc, L1. cbn [bind]. rewrite I0, I1. cbn [negb]. rewrite L2. reflexivity.
  - injection H as <- <-. exists p1. split; [exact E1|]. intros r'. rewrite L1. cbn [bind]. rewrite I0, I1. reflexivity.
Qed.

Lemma parse_section_lengths_local : forall h n start l a r, bytes_ok l -> parse_section_lengths h n start l = Ok (a, r) ->
  exists p, l = p ++ r /\ forall q r', start = q ++ r -> parse_section_lengths h n (q ++ r') (p ++ r') = Ok (a, r').
Proof.
  intros h n start l a r B H. unfold parse_section_lengths in *.
  destruct (parse_size l) as [[n1 l1]| | |] eqn:P1; cbn [bind] in H; try discriminate.
  destruct (parse_size_local l _ _ B P1) as (p1 & E1 & L1). assert (B1 := bytes_ok_suffix _ _ _ B E1).
  destruct (parse_size l1) as [[n2 l2]| | |] eqn:P2; cbn [bind] in H; try discriminate.
  destruct (parse_size_local l1 _ _ B1 P2) as (p2 & E2 & L2). assert (B2 := bytes_ok_suffix _ _ _ B1 E2).
  destruct (parse_size l2) as [[n3 l3]| | |] eqn:P3; cbn [bind] in H; try discriminate.
  destruct (parse_size_local l2 _ _ B2 P3) as (p3 & E3 & L3). assert (B3 := bytes_ok_suffix _ _ _ B2 E3).
  destruct (if h then parse_checksum l3 else Ok (0, l3)) as [[ck l4]| | |] eqn:P4; cbn [bind] in H; try discriminate.
  assert (exists p4, l3 = p4 ++ l4 /\ forall r', (if h then parse_checksum (p4 ++ r') else Ok (0, p4 ++ r')) = Ok (ck, r')) as (p4 & E4 & L4).
  { destruct h; [apply (parse_checksum_local l3 _ _ B3 P4)|]. injection P4 as <- <-. exists []. split; reflexivity. }
  destruct (Z.eqb_spec n (zlen start - zlen l4 + n1 + n2 + n3)) as [EN|]; [|discriminate].
  injection H as <- <-. exists (p1 ++ p2 ++ p3 ++ p4). split; [rewrite <- !app_assoc; congruence|].
  intros q r' ->. rewrite <- !app_assoc. rewrite L1. cbn [bind]. rewrite L2. cbn [bind]. rewrite L3. cbn [bind]. rewrite L4. cbn [bind].
  rewrite !zlen_app in *. destruct (Z.eqb_spec n (zlen q + zlen r' - zlen r' + n1 + n2 + n3)) as [|NE]; [reflexivity|lia].
Qed.

Lemma parse_delta_indicator_local : forall l r, bytes_ok l -> parse_delta_indicator l = Ok r ->
  exists p, l = p ++ r /\ forall r', parse_delta_indicator (p ++ r') = Ok r'.
Proof.
  intros l r B H. unfold parse_delta_indicator in *.
  destruct (parse_byte l) as [[di l1]| | |] eqn:P; cbn [bind] in H; try discriminate.
  destruct (parse_byte_local l _ _ B P) as (p1 & E1 & L1). destruct (Z.land di 7 =? 0) eqn:D; [|discriminate].
  injection H as <-. exists p1. split; [exact E1|]. intros r'. rewrite L1. cbn [bind]. rewrite D. reflexivity.
Qed.

Lemma header_fields_local : forall c, local (header_fields c).
Proof.
  intros c l a r B H. unfold header_fields in *.
  destruct (parse_win_indicator _ _ _ l) as [[[[[ind k] len] p] l1]| | |] eqn:P1; cbn [bind] in H; try discriminate.
  destruct (parse_win_indicator_local _ _ _ l _ _ B P1) as (p1 & E1 & L1). assert (B1 := bytes_ok_suffix _ _ _ B E1).
  destruct (parse_size l1) as [[dl l2]| | |] eqn:P2; cbn [bind] in H; try discriminate.
  destruct (parse_size_local l1 _ _ B1 P2) as (p2 & E2 & L2). assert (B2 := bytes_ok_suffix _ _ _ B1 E2).
  destruct (parse_size l2) as [[tl2 l3]| | |] eqn:P3; cbn [bind] in H; try discriminate.
  destruct (parse_size_local l2 _ _ B2 P3) as (p3 & E3 & L3). assert (B3 := bytes_ok_suffix _ _ _ B2 E3).
  destruct (would_exceed c tl2) eqn:E; try discriminate.
  destruct (parse_delta_indicator l3) as [l4| | |] eqn:P4; cbn [bind] in H; try discriminate.
  destruct (parse_delta_indicator_local l3 _ B3 P4) as (p4 & E4 & L4). assert (B4 := bytes_ok_suffix _ _ _ B3 E4).
  destruct (parse_section_lengths _ _ _ l4) as [[[[[x1 x2] x3] x4] x5]| | |] eqn:P5; cbn [bind] in H; try discriminate.
  destruct (parse_section_lengths_local _ _ _ l4 _ _ B4 P5) as (p5 & E5 & L5).
  injection H as <- <-. exists (p1 ++ p2 ++ p3 ++ p4 ++ p5). split; [rewrite <- !app_assoc; congruence|].
  intros r'. rewrite <- !app_assoc, L1. cbn [bind]. rewrite L2. cbn [bind]. rewrite L3. cbn [bind]. rewrite E, L4. cbn [bind].
  rewrite (app_assoc p4), (app_assoc p3). rewrite (L5 (p3 ++ p4 ++ p5) r').
  2:{ rewrite <- !app_assoc. congruence. }
  reflexivity.
Qed.

Lemma std_state_take : forall fd ca target l y, fields_total fd <= zlen l -> 
  (let '(_, _, _, _, nd, ni, na, _, _) := fd in 0 <= nd /\ 0 <= ni /\ 0 <= na) ->
  std_state fd ca target (l ++ y) = std_state fd ca target l.
Proof. intros. apply std_state_app; auto. Qed.

Lemma decode_window_no_early : forall ns ss c u y p c' rest, core_ok ns ss c -> bytes_ok u -> bytes_ok y ->
  decode_window c u = XEod p -> decode_window c (u ++ y) = XOk (c', rest) -> zlen rest <= zlen y.
Proof.
  intros ns ss c u y p c' rest CO BU BY E O.
  destruct (Z.leb_spec (zlen rest) (zlen y)) as [|GT]; [assumption|exfalso].
  pose proof (zlen_nonneg _ y) as ZY.
  assert (forall total w l c2 rest2 p2, 0 <= w_expected w -> zlen y < zlen rest2 ->
    finish_il c total w l = XEod p2 -> finish_il c total w (l ++ y) = XOk (c2, rest2) -> False) as FI.
  { intros total w l c2 rest2 p2 E0 G F1 F2. rewrite finish_il_eq in F1, F2.
    assert (rest2 = zdrop (zlen (ztake (w_expected w) (l ++ y))) (l ++ y)) as ER.
    { destruct (loop _ _ _ _ (il_state w (d_target c) (l ++ y))) as [st'|st'| | |]; try discriminate.
      - destruct (end_ok w (d_start c) st' && negb (nonempty (b_inst st')) && b_il st'); [congruence|].
        destruct (_ && _) in F2; congruence.
      - cbv zeta in F2. destruct (_ <? _) in F2; discriminate. }
    assert (w_expected w <= zlen l) as EL.
    { rewrite ER in G. rewrite zlen_zdrop in G by apply zlen_nonneg. rewrite zlen_ztake in G by exact E0.
      rewrite zlen_app in G. lia. }
    assert (il_state w (d_target c) (l ++ y) = il_state w (d_target c) l) as IS.
    { unfold il_state. rewrite ztake_app_le by exact EL. reflexivity. }
    rewrite IS in F2. destruct (loop _ _ _ _ (il_state w (d_target c) l)) as [st'|st'| | |]; try discriminate.
    - destruct (end_ok w (d_start c) st' && negb (nonempty (b_inst st')) && b_il st'); [congruence|].
      destruct (_ && _) in F1; congruence.
    - cbv zeta in F2. destruct (_ <? _) in F2; discriminate. }
  destruct (d_win c) as [w|] eqn:DW.
  - rewrite (decode_window_some c w) in E, O by exact DW.
    pose proof (co_win _ _ _ CO) as CW. rewrite DW in CW. destruct CW as (prev & seg & hist & T & SE & E0 & _).
    eapply FI; eauto.
  - rewrite (decode_window_none c ns ss) in E, O by (auto; apply CO).
    destruct (header_fields c (u ++ y)) as [[fd l]| | |] eqn:HF; try discriminate.
    assert (bytes_ok (u ++ y)) as BUY by (apply bytes_ok_app; auto).
    destruct (header_fields_local c _ _ _ BUY HF) as (h & EH & LH).
    destruct (header_sound c ns ss _ fd l BUY HF) as (hdr & seg & ED & HR & BL).
    pose proof (header_rel_lens _ _ _ _ _ _ HR) as LE.
    destruct (negb (fields_il c fd) && (zlen l <? fields_total fd)) eqn:SH; [discriminate|].
    destruct (cache_init ns ss) as [ca|]; [|discriminate]. cbv zeta in *.
    assert (exists l', u = h ++ l' /\ l = l' ++ y) as (l' & EU & EL).
    { assert (zlen y <= zlen l) as ZL.
      { destruct (Z.leb_spec (zlen y) (zlen l)) as [|LT2]; [assumption|]. exfalso.
        pose proof (decode_window_step c ns ss (u ++ y) [] CO BUY ltac:(constructor)) as ST.
        assert (zlen rest <= zlen l) as X; [|lia].
        destruct (fields_il c fd).
        - rewrite finish_il_eq in O. destruct (loop _ _ _ _ _) as [st'|st'| | |]; try discriminate.
          + assert (rest = zdrop (zlen (ztake (w_expected (fields_window c fd ca)) l)) l) as ->.
            { destruct (_ && _ && b_il st') in O; [congruence|]. destruct (_ && _) in O; congruence. }
            rewrite zlen_zdrop by apply zlen_nonneg. pose proof (zlen_nonneg _ (ztake (w_expected (fields_window c fd ca)) l)). pose proof (zlen_nonneg _ l). lia.
          + cbv zeta in O. destruct (_ <? _) in O; discriminate.
        - unfold finish_window in O. destruct (decode_body _ _ _ _ _) as [st'|st'| | |]; try discriminate.
          + rewrite std_state_b_il in O. injection O as _ <-. 
            assert (0 <= fields_total fd) by (destruct fd as [[[[[[[[kind seglen] pos] tl] nd] ni] na] cks] has]; cbn [fields_total]; lia).
            rewrite zlen_zdrop by lia. pose proof (zlen_nonneg _ l). lia.
          + cbv zeta in O. rewrite std_state_b_il in O. discriminate. }
      exists (zdrop (zlen h) u). assert (zlen u + zlen y = zlen h + zlen l) as ZZ by (rewrite <- !zlen_app; congruence).
      pose proof (zlen_nonneg _ h). pose proof (zlen_nonneg _ l).
      assert (u = h ++ zdrop (zlen h) u) as EQ.
      { rewrite <- (ztake_zdrop _ (zlen h) u) at 1. f_equal.
        rewrite <- (ztake_app_le _ (zlen h) u y) by lia. rewrite EH. apply ztake_app_eq. reflexivity. }
      split; [exact EQ|]. rewrite EQ in EH. rewrite <- app_assoc in EH. apply app_inv_head in EH. congruence. }
    assert (header_fields c u = Ok (fd, l')) as HU by (rewrite EU; apply LH).
    rewrite HU in E. cbv zeta in E.
    destruct (fields_il c fd) eqn:IL.
    + cbn [negb andb] in E. rewrite EL in O.
      assert (0 <= w_expected (fields_window c fd ca)) as E0.
      { destruct fd as [[[[[[[[kind seglen] pos] tl] nd] ni] na] cks] has]. cbn [fields_window w_expected]. rewrite IL. lia. }
      eapply FI; eauto.
    + cbn [negb andb] in E, SH.
      assert (zlen rest = zlen l - fields_total fd /\ 0 <= fields_total fd) as [ZR FT0].
      { assert (0 <= fields_total fd) by (destruct fd as [[[[[[[[kind seglen] pos] tl] nd] ni] na] cks] has]; cbn [fields_total]; lia).
        unfold finish_window in O. destruct (decode_body _ _ _ _ _) as [st'|st'| | |]; try discriminate.
        - rewrite std_state_b_il in O. injection O as _ <-. rewrite zlen_zdrop by lia. lia.
        - cbv zeta in O. rewrite std_state_b_il in O. discriminate. }
      rewrite EL, zlen_app in ZR. destruct (Z.ltb_spec (zlen l') (fields_total fd)) as [|GE]; [lia|].
      rewrite EL in O. rewrite std_state_take in O by (auto; destruct fd as [[[[[[[[kind seglen] pos] tl] nd] ni] na] cks] has]; lia).
      unfold finish_window in E, O. destruct (decode_body _ _ _ _ (std_state fd ca (d_target c) l')) as [st'|st'| | |]; try discriminate.
      cbv zeta in O. rewrite std_state_b_il in O. discriminate.
Qed.
