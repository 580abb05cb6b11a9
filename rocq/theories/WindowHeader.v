(** The header of a window: what the parser accepts is what the format says. *)

From Verif Require Import Base Spec Varint VarintFacts AddrCache AddrCacheFacts CodeTable
  InstructionMap DecodeTable HeaderParser Adler Decoder CopyFacts BodyFacts BodyExt WindowExt.
From Coq Require Import ZifyBool ZifyNat.

(** The parameters of the format that a decoder has set up. *)
Definition fmt (c : core) (ns ss : Z) : format :=
  {| f_ext := allow_extensions c; f_table := entry (d_table c); f_near := ns; f_same := ss;
     f_target := d_allow c |}.

Definition kind_ok (dict prev seg : list Z) (kind : seg_kind) (pos len : Z) : Prop :=
  zlen seg = len /\
  match kind with
  | SegNone => len = 0
  | SegDict => slice dict pos len = Some seg
  | SegTarget => slice prev pos len = Some seg
  end.

(** The relation between the bytes of a header and its fields. *)
Definition header_rel (c : core) (ns ss : Z) (fd : fields) (hdr seg : list Z) : Prop :=
  let '(kind, seglen, pos, target_len, n_data, n_inst, n_addr, cks, has_cks) := fd in
  exists ind sb bd dl bt di bnd bni bna bcks,
    hdr = [ind] ++ sb ++ bd ++ bt ++ [di] ++ bnd ++ bni ++ bna ++ bcks /\
    byte_ok ind /\ segment (fmt c ns ss) (d_dict c) (d_target c) ind sb seg /\
    kind_ok (d_dict c) (d_target c) seg kind pos seglen /\ seglen <= int32_max /\
    varint bd dl /\ dl <= int32_max /\
    varint bt target_len /\ target_len <= int32_max /\ would_exceed c target_len = false /\
    byte_ok di /\ Z.land di 7 = 0 /\
    varint bnd n_data /\ n_data <= int32_max /\
    varint bni n_inst /\ n_inst <= int32_max /\
    varint bna n_addr /\ n_addr <= int32_max /\
    has_cks = allow_extensions c && Z.testbit ind 2 /\
    (if has_cks then varint bcks cks /\ cks <= 4294967295 else bcks = [] /\ cks = 0) /\
    dl = zlen (bt ++ [di] ++ bnd ++ bni ++ bna ++ bcks) + n_data + n_inst + n_addr.

Lemma type_ok_I32 : type_ok I32. Proof. unfold type_ok; cbn; auto. Qed.
Lemma type_ok_I64 : type_ok I64. Proof. unfold type_ok; cbn; auto. Qed.

Lemma parse_size_inv : forall l v r, bytes_ok l -> parse_size l = Ok (v, r) ->
  exists p, l = p ++ r /\ varint p v /\ 0 <= v <= int32_max /\ bytes_ok r.
Proof.
  intros l v r B H. destruct (parse_inv I32 l v r type_ok_I32 B H) as (p & E & V & R).
  exists p. subst l. apply bytes_ok_app in B as [_ B]. auto.
Qed.

Lemma parse_size_ok : forall p v r, varint p v -> v <= int32_max -> parse_size (p ++ r) = Ok (v, r).
Proof. intros. apply parse_ok; auto using type_ok_I32. Qed.

Lemma parse_checksum_inv : forall l v r, bytes_ok l -> parse_checksum l = Ok (v, r) ->
  exists p, l = p ++ r /\ varint p v /\ 0 <= v <= 4294967295 /\ bytes_ok r.
Proof.
  intros l v r B H. unfold parse_checksum in H. destruct (parse I64 l) as [[w q]| | |] eqn:P; try discriminate.
  cbn [bind] in H. destruct (Z.ltb_spec 4294967295 w); [discriminate|]. injection H as <- <-.
  destruct (parse_inv I64 l w q type_ok_I64 B P) as (p & E & V & R).
  exists p. subst l. apply bytes_ok_app in B as [_ B]. split; auto. split; auto. split; auto. lia.
Qed.

Lemma parse_checksum_ok : forall p v r, varint p v -> v <= 4294967295 -> parse_checksum (p ++ r) = Ok (v, r).
Proof.
  intros. unfold parse_checksum. rewrite (parse_ok I64 p v) by (auto using type_ok_I64; cbn; unfold int64_max; lia).
  cbn [bind]. destruct (Z.ltb_spec 4294967295 v); [lia|reflexivity].
Qed.

Lemma parse_source_segment_inv : forall n l len pos r, bytes_ok l -> 0 <= n ->
  parse_source_segment n l = Ok (len, pos, r) ->
  exists b1 b2, l = b1 ++ b2 ++ r /\ varint b1 len /\ varint b2 pos /\
    0 <= len <= int32_max /\ 0 <= pos <= int32_max /\ pos + len <= n /\ bytes_ok r.
Proof.
  intros n l len pos r B N H. unfold parse_source_segment in H.
  destruct (parse_size l) as [[v r1]| | |] eqn:P1; try discriminate. cbn [bind] in H.
  destruct (parse_size_inv _ _ _ B P1) as (b1 & E1 & V1 & R1 & B1).
  destruct (Z.ltb_spec n v); [discriminate|].
  destruct (parse_size r1) as [[p r2]| | |] eqn:P2; try discriminate. cbn [bind] in H.
  destruct (parse_size_inv _ _ _ B1 P2) as (b2 & E2 & V2 & R2 & B2).
  destruct ((n <=? p) && (0 <? v)) eqn:C1; [discriminate|].
  rewrite to_size_id in H by (unfold size_max, int32_max in *; lia).
  destruct (Z.ltb_spec n (p + v)); [discriminate|]. injection H as <- <- <-.
  exists b1, b2. subst. auto 10.
Qed.

Lemma parse_source_segment_ok : forall n b1 b2 len pos r,
  varint b1 len -> varint b2 pos -> 0 <= len <= int32_max -> 0 <= pos <= int32_max -> pos + len <= n ->
  parse_source_segment n (b1 ++ b2 ++ r) = Ok (len, pos, r).
Proof.
  intros. unfold parse_source_segment. rewrite (parse_size_ok b1 len) by (auto; lia). cbn [bind].
  destruct (Z.ltb_spec n len); [lia|]. rewrite (parse_size_ok b2 pos) by (auto; lia). cbn [bind].
  destruct ((n <=? pos) && (0 <? len)) eqn:C; [lia|].
  rewrite to_size_id by (unfold size_max, int32_max in *; lia).
  destruct (Z.ltb_spec n (pos + len)); [lia|reflexivity].
Qed.

Lemma parse_section_lengths_inv : forall h n start l n1 n2 n3 cks r, bytes_ok l ->
  parse_section_lengths h n start l = Ok (n1, n2, n3, cks, r) ->
  exists b1 b2 b3 b4, l = b1 ++ b2 ++ b3 ++ b4 ++ r /\ varint b1 n1 /\ varint b2 n2 /\ varint b3 n3 /\
    0 <= n1 <= int32_max /\ 0 <= n2 <= int32_max /\ 0 <= n3 <= int32_max /\
    (if h then varint b4 cks /\ cks <= 4294967295 else b4 = [] /\ cks = 0) /\
    n = zlen start - zlen r + n1 + n2 + n3 /\ bytes_ok r.
Proof.
  intros h n start l n1 n2 n3 cks r B H. unfold parse_section_lengths in H.
  destruct (parse_size l) as [[v1 r1]| | |] eqn:P1; try discriminate. cbn [bind] in H.
  destruct (parse_size_inv _ _ _ B P1) as (b1 & E1 & V1 & R1 & B1).
  destruct (parse_size r1) as [[v2 r2]| | |] eqn:P2; try discriminate. cbn [bind] in H.
  destruct (parse_size_inv _ _ _ B1 P2) as (b2 & E2 & V2 & R2 & B2).
  destruct (parse_size r2) as [[v3 r3]| | |] eqn:P3; try discriminate. cbn [bind] in H.
  destruct (parse_size_inv _ _ _ B2 P3) as (b3 & E3 & V3 & R3 & B3).
  destruct h.
  - destruct (parse_checksum r3) as [[v4 r4]| | |] eqn:P4; try discriminate. cbn [bind] in H.
    destruct (parse_checksum_inv _ _ _ B3 P4) as (b4 & E4 & V4 & R4 & B4).
    destruct (Z.eqb_spec n (zlen start - zlen r4 + v1 + v2 + v3)); [|discriminate].
    injection H as <- <- <- <- <-. exists b1, b2, b3, b4. subst.
    split; [reflexivity|]. intuition lia.
  - cbn [bind] in H. destruct (Z.eqb_spec n (zlen start - zlen r3 + v1 + v2 + v3)); [|discriminate].
    injection H as <- <- <- <- <-. exists b1, b2, b3, []. subst.
    split; [reflexivity|]. intuition lia.
Qed.

Lemma header_sound : forall c ns ss data fd l, bytes_ok data ->
  header_fields c data = Ok (fd, l) ->
  exists hdr seg, data = hdr ++ l /\ header_rel c ns ss fd hdr seg /\ bytes_ok l.
Proof.
  intros c ns ss data fd l B H. unfold header_fields in H.
  destruct (parse_win_indicator _ _ _ data) as [[[[[ind kind] seglen] pos] r]| | |] eqn:PW; try discriminate.
  cbn [bind] in H.
  assert (exists sb seg, data = [ind] ++ sb ++ r /\ byte_ok ind /\
            segment (fmt c ns ss) (d_dict c) (d_target c) ind sb seg /\
            kind_ok (d_dict c) (d_target c) seg kind pos seglen /\ seglen <= int32_max /\ bytes_ok r) as
    (sb & seg & ED & BI & SG & KO & SLM & BR).
  { unfold parse_win_indicator in PW. destruct data as [|i data]; [discriminate|]. cbn [parse_byte bind] in PW.
    apply bytes_ok_cons in B as [Bi Bd]. pose proof (zlen_nonneg _ (d_dict c)). pose proof (zlen_nonneg _ (d_target c)).
    destruct (Z.testbit i 0) eqn:T0, (Z.testbit i 1) eqn:T1; try discriminate.
    - destruct (parse_source_segment (zlen (d_dict c)) data) as [[[v p] q]| | |] eqn:PS; try discriminate.
      cbn [bind] in PW. injection PW as <- <- <- <- <-.
      destruct (parse_source_segment_inv _ _ _ _ _ Bd H0 PS) as (b1 & b2 & -> & V1 & V2 & L1 & L2 & L3 & BQ).
      exists (b1 ++ b2), (ztake v (zdrop p (d_dict c))). rewrite <- app_assoc. split; [reflexivity|].
      split; [exact Bi|]. assert (slice (d_dict c) p v = Some (ztake v (zdrop p (d_dict c)))) as SL by (apply slice_some; lia).
      split; [econstructor; eauto|]. split; [|split; [lia|exact BQ]]. split; [|exact SL].
      apply slice_inv in SL. tauto.
    - destruct (d_allow c) eqn:AL; [|discriminate]. cbn [negb] in PW.
      destruct (parse_source_segment (zlen (d_target c)) data) as [[[v p] q]| | |] eqn:PS; try discriminate.
      cbn [bind] in PW. injection PW as <- <- <- <- <-.
      destruct (parse_source_segment_inv _ _ _ _ _ Bd H1 PS) as (b1 & b2 & -> & V1 & V2 & L1 & L2 & L3 & BQ).
      exists (b1 ++ b2), (ztake v (zdrop p (d_target c))). rewrite <- app_assoc. split; [reflexivity|].
      split; [exact Bi|]. assert (slice (d_target c) p v = Some (ztake v (zdrop p (d_target c)))) as SL by (apply slice_some; lia).
      split; [eapply seg_target; eauto|]. split; [|split; [lia|exact BQ]]. split; [|exact SL].
      apply slice_inv in SL. tauto.
    - injection PW as <- <- <- <- <-. exists [], []. split; [reflexivity|]. split; [exact Bi|].
      split; [constructor; auto|]. split; [split; reflexivity|]. split; [unfold int32_max; lia|exact Bd]. }
  destruct (parse_size r) as [[dl start]| | |] eqn:P1; try discriminate. cbn [bind] in H.
  destruct (parse_size_inv _ _ _ BR P1) as (bd & E1 & V1 & R1 & B1).
  destruct (parse_size start) as [[tl r2]| | |] eqn:P2; try discriminate. cbn [bind] in H.
  destruct (parse_size_inv _ _ _ B1 P2) as (bt & E2 & V2 & R2 & B2).
  destruct (would_exceed c tl) eqn:WE; [discriminate|].
  unfold parse_delta_indicator in H. destruct r2 as [|di r3]; [discriminate|]. cbn [parse_byte bind] in H.
  apply bytes_ok_cons in B2 as [BDI B3].
  destruct (Z.eqb_spec (Z.land di 7) 0) as [DI|]; [|discriminate]. cbn [bind] in H.
  destruct (parse_section_lengths _ _ _ r3) as [[[[[n1 n2] n3] cks] r4]| | |] eqn:PS; try discriminate.
  cbn [bind] in H. injection H as <- <-.
  destruct (parse_section_lengths_inv _ _ _ _ _ _ _ _ _ B3 PS) as (b1 & b2 & b3 & b4 & E3 & W1 & W2 & W3 & L1 & L2 & L3 & CK & DL & B4).
  exists ([ind] ++ sb ++ bd ++ bt ++ [di] ++ b1 ++ b2 ++ b3 ++ b4), seg.
  split. { subst. rewrite <- !app_assoc. reflexivity. }
  split; [|exact B4]. 
  exists ind, sb, bd, dl, bt, di, b1, b2, b3, b4.
  split; [reflexivity|]. split; [exact BI|]. split; [exact SG|]. split; [exact KO|]. split; [exact SLM|].
  split; [exact V1|]. split; [lia|]. split; [exact V2|]. split; [lia|]. split; [exact WE|]. split; [exact BDI|]. split; [exact DI|].
  split; [exact W1|]. split; [lia|]. split; [exact W2|]. split; [lia|]. split; [exact W3|]. split; [lia|].
  split; [reflexivity|]. split; [exact CK|].
  rewrite DL. subst. rewrite !zlen_app, !zlen_cons, !zlen_app, !zlen_nil. lia.
Qed.

Lemma varint_cons : forall p v, varint p v -> 0 <= v /\ bytes_ok p.
Proof. intros p v H. split; [eapply varint_nonneg; eauto|]. destruct H. apply is_varint_bytes_ok. auto. Qed.

Lemma header_complete : forall c ns ss ind sb seg bd dl bt tl di bnd nd bni ni bna na bcks cks l,
  zlen (d_dict c) <= int32_max -> zlen (d_target c) <= int32_max ->
  segment (fmt c ns ss) (d_dict c) (d_target c) ind sb seg ->
  varint bd dl -> dl <= int32_max ->
  varint bt tl -> tl <= int32_max -> would_exceed c tl = false ->
  Z.land di 7 = 0 ->
  varint bnd nd -> nd <= int32_max -> varint bni ni -> ni <= int32_max -> varint bna na -> na <= int32_max ->
  (if allow_extensions c && Z.testbit ind 2 then varint bcks cks /\ cks <= 4294967295 else bcks = [] /\ cks = 0) ->
  dl = zlen (bt ++ [di] ++ bnd ++ bni ++ bna ++ bcks) + nd + ni + na ->
  exists kind pos, kind_ok (d_dict c) (d_target c) seg kind pos (zlen seg) /\ zlen seg <= int32_max /\
    header_fields c ([ind] ++ sb ++ bd ++ bt ++ [di] ++ bnd ++ bni ++ bna ++ bcks ++ l) =
    Ok (kind, zlen seg, pos, tl, nd, ni, na, cks, allow_extensions c && Z.testbit ind 2, l).
Proof.
  intros c ns ss ind sb seg bd dl bt tl di bnd nd bni ni bna na bcks cks l
    DB TB SG VD LD VT LT WE DI VND LND VNI LNI VNA LNA CK DL.
  assert (exists kind pos, kind_ok (d_dict c) (d_target c) seg kind pos (zlen seg) /\ zlen seg <= int32_max /\
    forall r, parse_win_indicator (zlen (d_dict c)) (zlen (d_target c)) (d_allow c) ([ind] ++ sb ++ r) =
    Ok (ind, kind, zlen seg, pos, r)) as (kind & pos & KO & SL & PW).
  { unfold parse_win_indicator. inversion SG as [T0 T1 E1 E2|b1 b2 len pos s T0 T1 V1 V2 S E1 E2|b1 b2 len pos s T0 T1 FT V1 V2 S E1 E2]; subst.
    - exists SegNone, 0. split; [split; reflexivity|]. split; [rewrite zlen_nil; unfold int32_max; lia|].
      intros r. cbn [app parse_byte bind]. rewrite T0, T1. reflexivity.
    - pose proof (slice_inv _ _ _ _ _ S) as (P0 & L0 & LE & _ & ZL). exists SegDict, pos.
      split; [split; [reflexivity|rewrite ZL; exact S]|]. split; [lia|].
      intros r. cbn [app parse_byte bind]. rewrite T0, T1, <- app_assoc.
      rewrite (parse_source_segment_ok _ b1 b2 len pos) by (auto; lia). cbn [bind]. rewrite ZL. reflexivity.
    - pose proof (slice_inv _ _ _ _ _ S) as (P0 & L0 & LE & _ & ZL). exists SegTarget, pos.
      split; [split; [reflexivity|rewrite ZL; exact S]|]. split; [lia|].
      intros r. cbn [app parse_byte bind]. cbn [fmt f_target] in FT. rewrite T0, T1, FT, <- app_assoc. cbn [negb].
      rewrite (parse_source_segment_ok _ b1 b2 len pos) by (auto; lia). cbn [bind]. rewrite ZL. reflexivity. }
  exists kind, pos. split; [exact KO|]. split; [exact SL|].
  unfold header_fields. rewrite PW. cbn [bind].
  rewrite (parse_size_ok bd dl) by auto. cbn [bind].
  rewrite (parse_size_ok bt tl) by auto. cbn [bind]. rewrite WE.
  unfold parse_delta_indicator. cbn [app parse_byte bind]. rewrite DI. cbn [Z.eqb bind].
  unfold parse_section_lengths.
  rewrite (parse_size_ok bnd nd) by auto. cbn [bind].
  rewrite (parse_size_ok bni ni) by auto. cbn [bind].
  rewrite (parse_size_ok bna na) by auto. cbn [bind].
  destruct (allow_extensions c && Z.testbit ind 2).
  - destruct CK as [CK1 CK2]. rewrite (parse_checksum_ok bcks cks) by auto. cbn [bind].
    destruct (Z.eqb_spec dl (zlen (bt ++ di :: bnd ++ bni ++ bna ++ bcks ++ l) - zlen l + nd + ni + na)) as [_|N]; [reflexivity|].
    exfalso. apply N. rewrite DL. rewrite !zlen_app, !zlen_cons, !zlen_app, !zlen_nil. lia.
  - destruct CK as [-> ->]. cbn [bind app].
    destruct (Z.eqb_spec dl (zlen (bt ++ di :: bnd ++ bni ++ bna ++ l) - zlen l + nd + ni + na)) as [_|N]; [reflexivity|].
    exfalso. apply N. rewrite DL. rewrite !zlen_app, !zlen_cons, !zlen_app, !zlen_nil. lia.
Qed.
