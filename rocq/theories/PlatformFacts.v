(** The decoder does the same on every platform. *)

From Verif Require Import Base Spec Varint VarintFacts AddrCache AddrCacheFacts CodeTable CodeTableFacts
  InstructionMap DecodeTable HeaderParser Adler AdlerFacts Decoder CopyFacts BodyFacts BodyExt WindowExt
  WindowHeader WindowStep Refine Totals Abstract FileHeader Chunk Platform.
From Coq Require Import ZifyBool ZifyNat.

Lemma smax_range : forall p, 4294967295 <= smax p <= size_max.
Proof. intros []; cbn; unfold size_max; lia. Qed.

Lemma wrap_id : forall p x, 0 <= x <= smax p -> wrap p x = x.
Proof. intros p x H. unfold wrap. apply Z.mod_small. lia. Qed.

Lemma wrap_small : forall p x, 0 <= x <= 4294967295 -> wrap p x = x.
Proof. intros p x H. pose proof (smax_range p). apply wrap_id. lia. Qed.

(** ** The body of a window *)

Lemma p_copy_loop_eq : forall p f cap start target td a n, 0 <= a < td -> 0 <= n -> td + n <= int32_max ->
  p_copy_loop p f cap start target td a n = copy_loop f cap start target td a n.
Proof.
  intros p. unfold int32_max. induction f as [|f IH]; intros cap start target td a n A N L; [reflexivity|].
  cbn [p_copy_loop copy_loop]. rewrite (wrap_small p (td - a)) by lia.
  destruct (Z.ltb_spec (td - a) n) as [C|C]; [|reflexivity].
  cbv zeta. destruct (slice target (start + a) (td - a)) as [bs|]; [|reflexivity].
  destruct (append_target cap target bs) as [t'|]; [|reflexivity].
  rewrite !wrap_small by lia. apply IH; lia.
Qed.

Lemma p_copy_bytes_eq : forall p dict w start target a n,
  0 <= start -> 0 <= w_seglen w <= int32_max -> w_len w <= int32_max -> start + w_len w <= smax p ->
  0 <= zlen target - start -> 0 <= a < w_seglen w + (zlen target - start) -> 0 <= n ->
  zlen target - start + n <= w_len w ->
  p_copy_bytes p dict w start target a n = copy_bytes dict w start target a n.
Proof.
  unfold int32_max. intros p dict w start target a n S0 SL WL CAP T0 A N C. unfold p_copy_bytes, copy_bytes.
  rewrite (wrap_id p (start + w_len w)) by lia.
  rewrite (wrap_small p (zlen target - start)) by lia.
  rewrite (wrap_small p (a + n)) by lia. cbv zeta.
  destruct (Z.leb_spec (a + n) (w_seglen w)) as [L|L]; [reflexivity|].
  destruct (Z.ltb_spec a (w_seglen w)) as [L2|L2].
  - rewrite (wrap_small p (w_seglen w - a)) by lia.
    destruct (read_source dict w target a (w_seglen w - a)) as [bs|]; [|reflexivity].
    destruct (append_target _ target bs) as [t|]; [|reflexivity].
    rewrite (wrap_small p (a + (w_seglen w - a))) by lia. rewrite (wrap_small p (a + (w_seglen w - a) - w_seglen w)) by lia.
    rewrite (wrap_small p (n - (w_seglen w - a))) by lia. rewrite (wrap_small p (zlen target - start + (w_seglen w - a))) by lia.
    apply p_copy_loop_eq; unfold int32_max; lia.
  - rewrite wrap_small by lia. apply p_copy_loop_eq; unfold int32_max; lia.
Qed.

Lemma p_exec_eq : forall p dict t w prev seg st hist T ty size mode,
  binv dict t w prev seg st hist T -> 0 <= size -> zlen T + size <= w_len w ->
  (cache_bad (b_cache st) -> 0 <= mode < 256) -> zlen prev + w_len w <= smax p ->
  p_decode_instruction p dict w (zlen prev) st ty size mode = decode_instruction dict w (zlen prev) st ty size mode.
Proof.
  intros p dict t w prev seg st hist T ty size mode BI S0 C MB CAP.
  destruct (binv_lens _ _ _ _ _ _ _ _ BI) as (TL & SL & SN).
  pose proof (zlen_nonneg _ T). pose proof (zlen_nonneg _ prev).
  pose proof (bi_wlen _ _ _ _ _ _ _ _ BI). pose proof (bi_slen _ _ _ _ _ _ _ _ BI).
  unfold p_decode_instruction, decode_instruction.
  destruct (ty =? VCD_ADD); [|destruct (ty =? VCD_RUN); [|destruct (ty =? VCD_COPY); [|reflexivity]]].
  - unfold p_decode_add, decode_add. rewrite wrap_id by lia. reflexivity.
  - unfold p_decode_run, decode_run. rewrite wrap_id by lia. reflexivity.
  - unfold p_decode_copy, decode_copy. rewrite TL. replace (zlen prev + zlen T - zlen prev) with (zlen T) by lia.
    unfold int32_max in *. rewrite (wrap_small p (zlen T)) by lia. rewrite (wrap_small p (w_seglen w + zlen T)) by lia. cbv zeta.
    set (here := to_int32 (w_seglen w + zlen T)).
    assert (here <= int32_max) as HM. { unfold here, to_int32, int32_max. pose proof (Z.mod_pos_bound (w_seglen w + zlen T + 2147483648) 4294967296). lia. }
    assert (bytes_ok (addr_of st)) as BA. { destruct BI. unfold addr_of. destruct (b_il st); auto. }
    destruct (bi_cache _ _ _ _ _ _ _ _ BI) as [CR0|CB].
    2:{ pose proof (bad_decode _ here mode (addr_of st) CB (MB CB)) as BD.
        destruct (decode_address (b_cache st) here mode (addr_of st)) as [[[a rest] c']| | |]; try reflexivity. destruct BD. }
    pose proof (decode_address_sound (b_cache st) hist here mode (addr_of st) CR0 BA HM) as DS.
    destruct (decode_address (b_cache st) here mode (addr_of st)) as [[[a rest] c']| | |] eqn:DA; try reflexivity.
    cbn [addr_spec] in DS. destruct DS as (pa & E & AC & CR & N1 & N2).
    assert (0 <= a < here) as AR by (inversion AC; auto).
    assert (here = w_seglen w + zlen T) as HE.
    { unfold here. apply to_int32_id. pose proof (bi_len _ _ _ _ _ _ _ _ BI).
      destruct (Z_le_gt_dec (w_seglen w + zlen T) int32_max); [unfold int32_max in *; lia|exfalso].
      unfold here in AR. pose proof (to_int32_over (w_seglen w + zlen T)). unfold int32_max in *. lia. }
    rewrite p_copy_bytes_eq; unfold int32_max; try lia. reflexivity.
Qed.

Lemma p_body_loop_eq : forall p dict t w prev seg fuel st hist T,
  table_ok t -> binv dict t w prev seg st hist T -> zlen prev + w_len w <= smax p ->
  p_body_loop p fuel dict t w (zlen prev) st = body_loop fuel dict t w (zlen prev) st.
Proof.
  intros p dict t w prev seg fuel. induction fuel as [|fuel IH]; intros st hist T TO BI CAP.
  - cbn [p_body_loop body_loop]. destruct (binv_lens _ _ _ _ _ _ _ _ BI) as (TL & SL & SN). rewrite TL.
    pose proof (bi_len _ _ _ _ _ _ _ _ BI). pose proof (bi_wlen _ _ _ _ _ _ _ _ BI). pose proof (zlen_nonneg _ T).
    rewrite wrap_small by (unfold int32_max in *; lia). reflexivity.
  - cbn [p_body_loop body_loop]. destruct (binv_lens _ _ _ _ _ _ _ _ BI) as (TL & SL & SN). rewrite TL.
    replace (zlen prev + zlen T - zlen prev) with (zlen T) by lia.
    pose proof (bi_len _ _ _ _ _ _ _ _ BI) as BL. pose proof (bi_wlen _ _ _ _ _ _ _ _ BI) as BW. pose proof (zlen_nonneg _ T).
    rewrite (wrap_small p (zlen T)) by (unfold int32_max in *; lia).
    destruct (Z.ltb_spec (zlen T) (w_len w)) as [L|L]; [|reflexivity].
    pose proof (gni_sound t (b_pending st) (b_inst st) TO (bi_binst _ _ _ _ _ _ _ _ BI) (bi_pending _ _ _ _ _ _ _ _ BI)) as G.
    destruct (get_next_instruction t (b_pending st) (b_inst st)) as [ty size mode p' rest| |]; auto.
    destruct G as (k & ps & F & NE & SC & PO & BR & SM).
    pose proof (size_code_nonneg k ps size SC) as SZ. cbv zeta.
    unfold int32_max in *. rewrite !(wrap_small p size) by lia. rewrite (wrap_small p (size + zlen T)) by lia.
    destruct ((w_len w <? size) || (w_len w <? size + zlen T)) eqn:CK; [reflexivity|].
    set (st1 := with_inst st p' rest) in *.
    assert (binv dict t w prev seg st1 hist T) as BI1 by (apply binv_with_inst; auto).
    assert (cache_bad (b_cache st1) -> 0 <= mode < 256) as MB by (intros; lia).
    rewrite (p_exec_eq p dict t w prev seg st1 hist T ty size mode BI1) by (auto; lia).
    pose proof (exec_sound dict t w prev seg st1 hist T ty size mode BI1) as E.
    destruct (decode_instruction dict w (zlen prev) st1 ty size mode) as [st2| | | |]; try reflexivity.
    destruct E as (pd & pa & h2 & T2 & _ & _ & BI2 & _); [lia|lia|exact MB|].
    eapply IH; eauto.
Qed.

Lemma p_decode_body_eq : forall p dict t w prev seg st hist T,
  table_ok t -> binv dict t w prev seg st hist T -> zlen prev + w_len w <= smax p ->
  p_decode_body p dict t w (zlen prev) st = decode_body dict t w (zlen prev) st.
Proof.
  intros p dict t w prev seg st hist T TO BI CAP. unfold p_decode_body, decode_body.
  rewrite (p_body_loop_eq p dict t w prev seg _ st hist T TO BI CAP).
  pose proof (body_loop_sound dict t w prev seg (body_fuel st) st hist T TO BI) as S.
  destruct (body_loop (body_fuel st) dict t w (zlen prev) st) as [st'| | | |]; try reflexivity.
  destruct S as (h' & T' & BI' & _). destruct (binv_lens _ _ _ _ _ _ _ _ BI') as (TL & _).
  pose proof (bi_len _ _ _ _ _ _ _ _ BI'). pose proof (bi_wlen _ _ _ _ _ _ _ _ BI'). pose proof (zlen_nonneg _ T').
  rewrite wrap_small by (unfold int32_max in *; lia). reflexivity.
Qed.

(** ** Window headers *)

Lemma p_source_segment_eq : forall p n l, bytes_ok l -> p_parse_source_segment p n l = parse_source_segment n l.
Proof.
  intros p n l B. unfold p_parse_source_segment, parse_source_segment.
  destruct (parse_size l) as [[len l1]| | |] eqn:P1; cbn [bind]; try reflexivity.
  apply parse_size_inv in P1 as (q1 & _ & _ & R1 & B1); [|exact B].
  destruct (n <? len); [reflexivity|].
  destruct (parse_size l1) as [[pos l2]| | |] eqn:P2; cbn [bind]; try reflexivity.
  apply parse_size_inv in P2 as (q2 & _ & _ & R2 & B2); [|exact B1].
  unfold int32_max in *. rewrite wrap_small by lia. rewrite to_size_id by (unfold size_max; lia). reflexivity.
Qed.

Lemma p_win_indicator_eq : forall p ds ts al l, bytes_ok l ->
  p_parse_win_indicator p ds ts al l = parse_win_indicator ds ts al l.
Proof.
  intros p ds ts al l B. unfold p_parse_win_indicator, parse_win_indicator.
  destruct l as [|b l]; cbn [parse_byte bind]; [reflexivity|]. apply bytes_ok_cons in B as [_ B].
  rewrite !(p_source_segment_eq p _ l B). reflexivity.
Qed.

Lemma sum4_exact : forall p a b c d, 0 <= a -> 0 <= b <= int32_max -> 0 <= c <= int32_max -> 0 <= d <= int32_max ->
  (sum_would_overflow4 p a b c d = true /\ smax p < a + b + c + d) \/
  (sum_would_overflow4 p a b c d = false /\ wrap p (wrap p (wrap p (a + b) + c) + d) = a + b + c + d).
Proof.
  unfold int32_max. intros p a b c d A B C D. pose proof (smax_range p) as SM. unfold sum_would_overflow4, sum_would_overflow2.
  rewrite !(wrap_id p (smax p - _)) by lia.
  destruct (Z.ltb_spec (smax p - b) a) as [L|L]; [left; split; [reflexivity|lia]|].
  rewrite (wrap_id p (a + b)) by lia.
  destruct (Z.ltb_spec (smax p - c) (a + b)) as [L2|L2]; [left; split; [reflexivity|lia]|].
  rewrite (wrap_id p (a + b + c)) by lia.
  destruct (Z.ltb_spec (smax p - d) (a + b + c)) as [L3|L3]; [left; split; [reflexivity|lia]|].
  right. split; [reflexivity|]. apply wrap_id. lia.
Qed.

Lemma p_section_lengths_eq : forall p h n start l, bytes_ok l -> zlen l <= zlen start -> n <= int32_max ->
  p_parse_section_lengths p h n start l = parse_section_lengths h n start l.
Proof.
  intros p h n start l B L N. unfold p_parse_section_lengths, parse_section_lengths.
  destruct (parse_size l) as [[n1 l1]| | |] eqn:P1; cbn [bind]; try reflexivity.
  apply parse_size_inv in P1 as (q1 & E1 & _ & R1 & B1); [|exact B].
  destruct (parse_size l1) as [[n2 l2]| | |] eqn:P2; cbn [bind]; try reflexivity.
  apply parse_size_inv in P2 as (q2 & E2 & _ & R2 & B2); [|exact B1].
  destruct (parse_size l2) as [[n3 l3]| | |] eqn:P3; cbn [bind]; try reflexivity.
  apply parse_size_inv in P3 as (q3 & E3 & _ & R3 & B3); [|exact B2].
  assert (exists r, (if h then parse_checksum l3 else Ok (0, l3)) = r /\
           match r with Ok (_, l4) => zlen l4 <= zlen l3 | _ => True end) as (r & -> & RL).
  { eexists. split; [reflexivity|]. destruct h; [|lia]. destruct (parse_checksum l3) as [[v l4]| | |] eqn:PC; auto.
    apply parse_checksum_inv in PC as (q4 & E4 & _); [|exact B3]. subst l3. rewrite zlen_app. pose proof (zlen_nonneg _ q4). lia. }
  destruct r as [[cks l4]| | |]; cbn [bind]; try reflexivity. cbv zeta.
  assert (zlen l4 <= zlen start) as LL.
  { subst l l1 l2. rewrite !zlen_app in L. pose proof (zlen_nonneg _ q1). pose proof (zlen_nonneg _ q2). pose proof (zlen_nonneg _ q3). lia. }
  destruct (sum4_exact p (zlen start - zlen l4) n1 n2 n3) as [[-> S]|[-> ->]]; try assumption; try lia; [|reflexivity].
  pose proof (smax_range p). destruct (Z.eqb_spec n (zlen start - zlen l4 + n1 + n2 + n3)) as [E|]; [|reflexivity].
  unfold int32_max in *. lia.
Qed.

(** ** The state on a platform *)

(** The same state with the platform's value of kUnlimitedBytes. *)
Definition nar (p : platform) (c : core) : core :=
  set_planned c (if d_planned c =? kUnlimitedBytes then p_unlimited p else d_planned c).

(** Limits that fit into a size_t of [p]. *)
Record plim (p : platform) (c : core) : Prop := {
  pl_max : 0 <= d_max_file c <= smax p;
  pl_plan : d_planned c = kUnlimitedBytes \/ d_planned c = 1536 /\ d_total c <= 1536;
  pl_total : 0 <= d_total c <= d_max_file c;
  pl_win : match d_win c with
           | None => zlen (d_target c) <= d_total c
           | Some w => d_start c + w_len w <= d_total c
           end
}.

Lemma unlimited_big : forall p, 4294967293 <= p_unlimited p.
Proof. intros p. pose proof (smax_range p). unfold p_unlimited. lia. Qed.

Lemma unlimited_not : 1536 <> kUnlimitedBytes.
Proof. unfold kUnlimitedBytes, size_max. lia. Qed.

Lemma nar_has_planned : forall p c, (d_planned c = kUnlimitedBytes \/ d_planned c = 1536) ->
  p_has_planned p (nar p c) = has_planned c.
Proof.
  intros p c H. unfold p_has_planned, has_planned, nar. cbn [set_planned set_limits d_planned].
  pose proof (unlimited_big p). pose proof unlimited_not. destruct H as [-> | ->].
  - rewrite !Z.eqb_refl. reflexivity.
  - destruct (Z.eqb_spec 1536 kUnlimitedBytes); [lia|]. destruct (Z.eqb_spec 1536 (p_unlimited p)); [lia|reflexivity].
Qed.

Lemma plim_plan : forall p c, plim p c -> d_planned c = kUnlimitedBytes \/ d_planned c = 1536.
Proof. intros p c [_ [H|[H _]] _ _]; auto. Qed.

Lemma nar_reached : forall p c, (d_planned c = kUnlimitedBytes \/ d_planned c = 1536) ->
  p_reached_planned p (nar p c) = reached_planned c.
Proof.
  intros p c H. unfold p_reached_planned, reached_planned. rewrite nar_has_planned by exact H.
  destruct (has_planned c) eqn:HP; [|reflexivity]. cbn [andb].
  unfold nar. cbn [set_planned set_limits d_planned d_total].
  unfold has_planned in HP. destruct (d_planned c =? kUnlimitedBytes); [discriminate|reflexivity].
Qed.

Lemma p_exceed_eq : forall p c n, plim p c -> p_would_exceed p (nar p c) n = would_exceed c n.
Proof.
  intros p c n PL. pose proof (smax_range p) as SM. pose proof (plim_plan p c PL) as PP. destruct PL as [MF PL TT _].
  unfold p_would_exceed, would_exceed. rewrite (nar_has_planned p c PP).
  unfold nar. cbn [set_planned set_limits d_max_window d_max_file d_total d_planned].
  rewrite (wrap_id p (d_max_file c - d_total c)) by lia. rewrite (to_size_id (d_max_file c - d_total c)) by lia.
  destruct (has_planned c) eqn:HP; cbn [andb]; [|reflexivity].
  unfold has_planned in HP. destruct (d_planned c =? kUnlimitedBytes) eqn:E; [discriminate|].
  destruct PL as [PL|[PL1 PL2]]; [rewrite PL, Z.eqb_refl in E; discriminate|].
  rewrite PL1, wrap_small, to_size_id by (unfold size_max; lia). reflexivity.
Qed.

Lemma p_read_header_eq : forall p c data, plim p c -> bytes_ok data ->
  p_read_header p (nar p c) data = read_header c data.
Proof.
  intros p c data PL B. unfold p_read_header, read_header.
  change (d_dict (nar p c)) with (d_dict c). change (d_target (nar p c)) with (d_target c).
  change (d_allow (nar p c)) with (d_allow c). change (d_sizes (nar p c)) with (d_sizes c).
  change (allow_extensions (nar p c)) with (allow_extensions c).
  rewrite (p_win_indicator_eq p _ _ _ data B).
  destruct (parse_win_indicator _ _ _ data) as [[[[[ind kind] seglen] pos] l]| | |] eqn:PW; cbn [bind]; try reflexivity.
  assert (bytes_ok l) as B1.
  { pose proof (parse_win_indicator_local (zlen (d_dict c)) (zlen (d_target c)) (d_allow c) data) as LO.
    destruct (LO _ _ B PW) as (q & E & _). eapply bytes_ok_suffix; eauto. }
  destruct (parse_size l) as [[dl start]| | |] eqn:P1; cbn [bind]; try reflexivity.
  apply parse_size_inv in P1 as (q1 & E1 & _ & R1 & B2); [|exact B1].
  destruct (parse_size start) as [[tl l2]| | |] eqn:P2; cbn [bind]; try reflexivity.
  apply parse_size_inv in P2 as (q2 & E2 & _ & R2 & B3); [|exact B2].
  rewrite (p_exceed_eq p c tl PL). destruct (would_exceed c tl); [reflexivity|].
  destruct (parse_delta_indicator l2) as [l3| | |] eqn:PD; cbn [bind]; try reflexivity.
  destruct (parse_delta_indicator_local l2 l3 B3 PD) as (q3 & E3 & _).
  assert (bytes_ok l3) as B4 by (eapply bytes_ok_suffix; eauto).
  rewrite p_section_lengths_eq; [|exact B4| |lia].
  2:{ subst start l2. rewrite !zlen_app. pose proof (zlen_nonneg _ q2). pose proof (zlen_nonneg _ q3). lia. }
  destruct (parse_section_lengths _ dl start l3) as [[[[[n1 n2] n3] cks] l4]| | |] eqn:PS; cbn [bind]; try reflexivity.
  assert (0 <= n1 /\ 0 <= n2 /\ 0 <= n3 /\ n1 + n2 + n3 <= dl) as (N1 & N2 & N3 & NS).
  { clear - PS B4 E2 E3. unfold parse_section_lengths in PS.
    destruct (parse_size l3) as [[x1 r1]| | |] eqn:P1; cbn [bind] in PS; try discriminate.
    apply parse_size_inv in P1 as (p1 & F1 & _ & R1 & C1); [|exact B4].
    destruct (parse_size r1) as [[x2 r2]| | |] eqn:P2; cbn [bind] in PS; try discriminate.
    apply parse_size_inv in P2 as (p2 & F2 & _ & R2 & C2); [|exact C1].
    destruct (parse_size r2) as [[x3 r3]| | |] eqn:P3; cbn [bind] in PS; try discriminate.
    apply parse_size_inv in P3 as (p3 & F3 & _ & R3 & C3); [|exact C2].
    assert (forall v r4, (if allow_extensions c && Z.testbit ind 2 then parse_checksum r3 else Ok (0, r3)) = Ok (v, r4) -> zlen r4 <= zlen r3) as CK.
    { intros v r4 H. destruct (_ && _); [|injection H as _ <-; lia].
      apply parse_checksum_inv in H as (q4 & E4 & _); [|exact C3]. subst r3. rewrite zlen_app. pose proof (zlen_nonneg _ q4). lia. }
    destruct (if allow_extensions c && Z.testbit ind 2 then parse_checksum r3 else Ok (0, r3)) as [[v r4]| | |]; cbn [bind] in PS; try discriminate.
    specialize (CK v r4 eq_refl). destruct (Z.eqb_spec dl (zlen start - zlen r4 + x1 + x2 + x3)) as [E|]; [|discriminate].
    injection PS as <- <- <- <- <-.
    subst start l2 l3 r1 r2. rewrite !zlen_app in E.
    pose proof (zlen_nonneg _ q2). pose proof (zlen_nonneg _ q3). pose proof (zlen_nonneg _ p1). pose proof (zlen_nonneg _ p2). pose proof (zlen_nonneg _ p3). lia. }
  unfold int32_max in *. rewrite (wrap_small p (n1 + n2)) by lia. rewrite (wrap_small p (n1 + n2 + n3)) by lia. reflexivity.
Qed.

(** What a header that was accepted guarantees. *)
Lemma read_header_binv : forall ns ss c data w st after l, core_ok ns ss c -> d_win c = None -> bytes_ok data ->
  read_header c data = Ok (w, st, after, l) ->
  (exists seg, binv (d_dict c) (d_table c) w (d_target c) seg st [] []) /\ would_exceed c (w_len w) = false /\
  0 <= w_len w <= int32_max.
Proof.
  intros ns ss c data w st after l CO WN B H. rewrite read_header_eq in H.
  destruct (header_fields c data) as [[fd l0]| | |] eqn:HF; cbn [bind] in H; try discriminate.
  destruct (negb _ && _); [discriminate|]. rewrite (co_sizes _ _ _ CO) in H.
  destruct (cache_init ns ss) as [ca|] eqn:CI; [|discriminate]. injection H as <- <- <- <-.
  destruct (header_sound c ns ss data fd l0 B HF) as (hdr & seg & _ & HR & BL).
  pose proof (header_rel_lens _ _ _ _ _ _ HR) as LE.
  split; [|split].
  - exists seg. destruct (fields_il c fd).
    + replace (il_state (fields_window c fd ca) (d_target c) l0) with
        {| b_il := true; b_inst := ztake (w_expected (fields_window c fd ca)) l0; b_data := []; b_addr := [];
           b_pending := None; b_cache := ca; b_target := d_target c |}.
      2:{ destruct fd as [[[[[[[[kind seglen] pos] tl] nd] ni] na] cks] has]. reflexivity. }
      eapply binv_init; eauto; try constructor; auto. apply bytes_ok_ztake. auto.
    + destruct fd as [[[[[[[[kind seglen] pos] tl] nd] ni] na] cks] has]. cbn [std_state].
      eapply binv_init; eauto; try (intros; discriminate); repeat first [apply bytes_ok_ztake | apply bytes_ok_zdrop]; auto.
  - exact (header_fields_exceed c data fd l0 ca HF).
  - destruct fd as [[[[[[[[kind seglen] pos] tl] nd] ni] na] cks] has]. cbn [fields_window w_len]. lia.
Qed.

(** ** A window *)

Definition narp (p : platform) (x : core * list Z) : core * list Z := (nar p (fst x), snd x).

Lemma p_finish_eq : forall p c total w prev seg st hist T avail after,
  table_ok (d_table c) -> binv (d_dict c) (d_table c) w prev seg st hist T -> d_start c = zlen prev ->
  zlen prev + w_len w <= smax p ->
  p_finish_window p (nar p c) total w st avail after = xmap (narp p) (finish_window c total w st avail after).
Proof.
  intros p c total w prev seg st hist T avail after TO BI SE CAP. unfold p_finish_window, finish_window.
  change (d_dict (nar p c)) with (d_dict c). change (d_table (nar p c)) with (d_table c).
  change (d_start (nar p c)) with (d_start c). rewrite SE.
  rewrite (p_decode_body_eq p _ _ w prev seg st hist T TO BI CAP).
  destruct (decode_body (d_dict c) (d_table c) w (zlen prev) st) as [st'|st'| | |]; try reflexivity.
  cbv zeta. destruct (b_il st && _); reflexivity.
Qed.

Lemma p_window_eq : forall p ns ss c data, core_ok ns ss c -> bytes_ok data -> plim p c ->
  p_decode_window p (nar p c) data = xmap (narp p) (decode_window c data) /\
  match decode_window c data with XOk (c', _) | XEod (c', _) => plim p c' | _ => True end.
Proof.
  intros p ns ss c data CO B PL. pose proof (smax_range p) as SM.
  unfold p_decode_window, decode_window. change (d_win (nar p c)) with (d_win c). change (d_total (nar p c)) with (d_total c).
  change (d_target (nar p c)) with (d_target c).
  pose proof (co_win _ _ _ CO) as CW. pose proof (pl_win _ _ PL) as PW. pose proof (pl_max _ _ PL) as PM.
  pose proof (pl_total _ _ PL) as PT. pose proof (pl_plan _ _ PL) as PP.
  destruct (d_win c) as [w|] eqn:DW.
  - destruct (il_inv_more c w [] data CW B) as (prev & seg & hist & T & SE & E0 & BA & TO & BI). cbn [app] in BI.
    split; [eapply p_finish_eq; eauto; lia|].
    pose proof (finish_window_len c (d_total c) w (il_state w (d_target c) data) data []) as FL.
    fold (il_state w (d_target c) data).
    destruct (finish_window c (d_total c) w (il_state w (d_target c) data) data []) as [[c' r]|[c' r]| | |] eqn:FW; auto.
    + destruct FL as (L1 & L2 & L3 & L4 & (? & ? & ? & ? & CS)).
      assert (d_max_file c' = d_max_file c /\ d_planned c' = d_planned c) as (EM & EP) by (split; [exact (f_equal d_max_file CS)|exact (f_equal d_planned CS)]).
      constructor; rewrite ?EM, ?EP, ?L2, ?L4; auto. rewrite L1. lia.
    + destruct FL as (L1 & L2 & L3 & w' & L4 & L5).
      assert (d_max_file c' = d_max_file c /\ d_planned c' = d_planned c) as (EM & EP).
      { unfold finish_window in FW. destruct (decode_body _ _ _ _ _); try discriminate. cbv zeta in FW.
        destruct (_ && _); [|discriminate]. injection FW as <- <-. auto. }
      constructor; rewrite ?EM, ?EP, ?L3, ?L4; auto. rewrite L2, L5. lia.
  - rewrite (p_read_header_eq p c data PL B).
    destruct (read_header c data) as [[[[w st] after] l]| | |] eqn:RH; try (split; [reflexivity|exact Logic.I]).
    2:{ split; [reflexivity|exact PL]. }
    destruct (read_header_binv ns ss c data w st after l CO DW B RH) as ((seg & BI) & WE & WL).
    assert (lim_inv c) as LI.
    { split; [lia|]. split. { destruct PP as [-> | [-> _]]; unfold kUnlimitedBytes, size_max; lia. }
      split; [lia|]. intros HP. destruct PP as [E|[E1 E2]]; [|lia]. unfold has_planned in HP. rewrite E, Z.eqb_refl in HP. discriminate. }
    destruct (would_exceed_false c (w_len w) WE LI) as (X1 & X2 & X3); try lia.
    rewrite (wrap_id p (d_total c + w_len w)) by lia. rewrite (to_size_id (d_total c + w_len w)) by lia.
    split. { eapply p_finish_eq; eauto; [apply CO|lia]. }
    assert (d_planned c = kUnlimitedBytes \/ d_planned c = 1536 /\ d_total c + w_len w <= 1536) as PP'.
    { destruct PP as [E|[E1 E2]]; [left; exact E|right]. split; [exact E1|]. rewrite E1 in X3. apply X3. unfold has_planned. rewrite E1. reflexivity. }
    pose proof (finish_window_len c (d_total c + w_len w) w st l after) as FL.
    destruct (finish_window c (d_total c + w_len w) w st l after) as [[c' r]|[c' r]| | |] eqn:FW; auto.
    + destruct FL as (L1 & L2 & L3 & L4 & (? & ? & ? & ? & CS)).
      assert (d_max_file c' = d_max_file c /\ d_planned c' = d_planned c) as (EM & EP) by (split; [exact (f_equal d_max_file CS)|exact (f_equal d_planned CS)]).
      constructor; rewrite ?EM, ?EP, ?L2, ?L4; auto; [lia|]. rewrite L1, CW. lia.
    + destruct FL as (L1 & L2 & L3 & w' & L4 & L5).
      assert (d_max_file c' = d_max_file c /\ d_planned c' = d_planned c) as (EM & EP).
      { unfold finish_window in FW. destruct (decode_body _ _ _ _ _); try discriminate. cbv zeta in FW.
        destruct (_ && _); [|discriminate]. injection FW as <- <-. auto. }
      constructor; rewrite ?EM, ?EP, ?L3, ?L4; auto; [lia|]. rewrite L2, L5, CW. lia.
Qed.

(** ** DecodeChunk *)

Fixpoint nard (p : platform) (d : dec) : dec :=
  let '(Dec c n) := d in Dec (nar p c) (match n with Some nd => Some (nard p nd) | None => None end).

Definition cmap (f : dec -> dec) (r : cres) : cres :=
  match r with CRet d ok o => CRet (f d) ok o | CUB => CUB | CFuel => CFuel end.

Lemma core_ok_flush : forall ns ss c, core_ok ns ss c -> d_win c = None -> core_ok ns ss (fst (flush_target c)).
Proof.
  intros ns ss c CO WN. destruct CO as [A1 A2 A3 A4 A5 A6 A7 A8]. constructor; cbn; auto; rewrite ?WN; auto.
  constructor.
Qed.

Lemma p_loop_eq : forall p f ns ss c data out, core_ok ns ss c -> bytes_ok data -> plim p c -> bytes_ok out ->
  let r := window_loop f c data out in
  p_window_loop p f (nar p c) data out = (xmap (narp p) (fst r), snd r) /\ bytes_ok (snd r) /\
  match fst r with XOk (c', rest) | XEod (c', rest) => core_ok ns ss c' /\ plim p c' /\ bytes_ok rest | _ => True end.
Proof.
  intros p. induction f as [|f IH]; intros ns ss c data out CO B PL BO r; subst r.
  - destruct data; cbn; auto.
  - destruct data as [|b data0]; [cbn; auto|]. set (data := b :: data0) in *.
    assert (forall A (x y : A), match data with [] => x | _ => y end = y) as DN by (intros; reflexivity).
    replace (window_loop (Datatypes.S f) c data out) with
      (match decode_window c data with
          | XOk (c', rest) =>
              if reached_planned c' then (XOk (c', rest), out)
              else if d_allow c' then window_loop f c' rest out
              else let '(c'', o) := flush_target c' in window_loop f c'' rest (out ++ o)
          | r => (r, out)
          end) by reflexivity.
    replace (p_window_loop p (Datatypes.S f) (nar p c) data out) with
      (match p_decode_window p (nar p c) data with
          | XOk (c', rest) =>
              if p_reached_planned p c' then (XOk (c', rest), out)
              else if d_allow c' then p_window_loop p f c' rest out
              else let '(c'', o) := flush_target c' in p_window_loop p f c'' rest (out ++ o)
          | r => (r, out)
          end) by reflexivity.
    clearbody data. clear DN.
    destruct (p_window_eq p ns ss c data CO B PL) as [EQ PL']. rewrite EQ.
    pose proof (decode_window_step c ns ss data [] CO B ltac:(constructor)) as ST.
    destruct (decode_window c data) as [[c' rest]|[c' rest]| | |]; cbn [xmap fst snd]; auto.
    + destruct ST as (CO' & _ & WN & BR & _). unfold narp at 1. cbn [fst snd].
      rewrite (nar_reached p c' (plim_plan _ _ PL')). destruct (reached_planned c'); [cbn [fst snd]; auto|].
      change (d_allow (nar p c')) with (d_allow c'). destruct (d_allow c'); [apply IH; auto|].
      unfold flush_target. cbv iota beta zeta.
      replace (set_target_out (nar p c') [] 0 0) with (nar p (set_target_out c' [] 0 0)) by reflexivity.
      change (zdrop (d_out_pos (nar p c')) (d_target (nar p c'))) with (zdrop (d_out_pos c') (d_target c')).
      apply IH; auto.
      * exact (core_ok_flush ns ss c' CO' WN).
      * destruct PL' as [Q1 Q2 Q3 Q4]. constructor; cbn; auto. rewrite WN. rewrite zlen_nil. lia.
      * apply bytes_ok_app. split; [exact BO|]. apply bytes_ok_zdrop. apply CO'.
    + destruct ST as (CO' & _ & BR & _). auto.
Qed.

(** States of a decoder whose limits fit into a size_t. *)
Definition pbase (p : platform) (c : core) : Prop :=
  table_ok (d_table c) /\ bytes_ok (d_dict c) /\ d_target c = [] /\ d_win c = None /\ d_start c = 0 /\ d_total c = 0 /\
  0 <= d_max_file c <= smax p /\ (d_planned c = kUnlimitedBytes \/ d_planned c = 1536).

Inductive pinv (p : platform) : dec -> Prop :=
| pinv_off : forall c n, d_started c = false -> table_ok (d_table c) -> 0 <= d_max_file c <= smax p -> pinv p (Dec c n)
| pinv_header : forall c, pbase p c -> d_sizes c = None -> bytes_ok (d_unparsed c) -> pinv p (Dec c None)
| pinv_nested : forall c nd ns ss, pbase p c -> d_sizes c = Some (ns, ss) -> sizes_ok ns ss -> bytes_ok (d_unparsed c) ->
    bytes_ok (d_string c) -> pinv p nd -> pinv p (Dec c (Some nd))
| pinv_core : forall ns ss c, core_ok ns ss c -> plim p c -> bytes_ok (d_unparsed c) -> pinv p (Dec c None).

Lemma pbase_core : forall p ns ss c, pbase p c -> d_sizes c = Some (ns, ss) -> sizes_ok ns ss -> core_ok ns ss c /\ plim p c.
Proof.
  intros p ns ss c (A & B & C & D & E & F & G & H) S [SO1 SO2]. split.
  - constructor; auto; try lia; rewrite ?C, ?D; auto; [constructor|]. discriminate.
  - constructor.
    + exact G.
    + rewrite F. destruct H as [H|H]; [left; exact H|right; split; [exact H|lia]].
    + rewrite F. lia.
    + rewrite D, F, C, zlen_nil. lia.
Qed.

Lemma pinv_failed : forall p c out, table_ok (d_table c) -> 0 <= d_max_file c <= smax p ->
  p_chunk_failed p (nar p c) out = cmap (nard p) (chunk_failed c out) /\
  match chunk_failed c out with CRet d _ _ => pinv p d | _ => True end.
Proof. intros p c out T M. split; [reflexivity|]. apply pinv_off; auto. Qed.

Lemma p_chunk_windows_eq : forall p ns ss c data, core_ok ns ss c -> bytes_ok data -> plim p c ->
  p_chunk_windows p (nar p c) data = cmap (nard p) (chunk_windows c data) /\
  match chunk_windows c data with CRet d _ o => pinv p d /\ bytes_ok o | _ => True end.
Proof.
  intros p ns ss c data CO B PL. unfold p_chunk_windows, chunk_windows.
  destruct (p_loop_eq p (Datatypes.S (length data)) ns ss c data [] CO B PL ltac:(constructor)) as (EQ & BO & IN).
  rewrite EQ. destruct (window_loop (Datatypes.S (length data)) c data []) as [[[c' rest]|[c' rest]| | |] out]; cbn [xmap fst snd narp] in *; auto.
  - destruct IN as (CO' & PL' & BR). split; [reflexivity|]. cbn. split.
    + apply (pinv_core p ns ss); cbn; auto; [destruct CO'; constructor; auto|destruct PL'; constructor; auto].
    + apply bytes_ok_app. split; [exact BO|]. apply bytes_ok_zdrop. apply CO'.
  - destruct IN as (CO' & PL' & BR). split; [reflexivity|]. cbn. split.
    + apply (pinv_core p ns ss); cbn; auto; [destruct CO'; constructor; auto|destruct PL'; constructor; auto].
    + apply bytes_ok_app. split; [exact BO|]. apply bytes_ok_zdrop. apply CO'.
  - destruct (pinv_failed p c out) as [E1 E2]; [apply CO|apply PL|]. split; [exact E1|]. split; [exact E2|exact BO].
Qed.

Lemma pinv_max : forall p d, pinv p d -> let '(Dec c _) := d in table_ok (d_table c) /\ 0 <= d_max_file c <= smax p.
Proof.
  intros p d [c n S T M|c (T & _ & _ & _ & _ & _ & M & _) _ _|c nd ns ss (T & _ & _ & _ & _ & _ & M & _) _ _ _ _ _|ns ss c CO PL _]; auto.
  split; [apply CO|apply PL].
Qed.

Lemma pinv_table_decoder : forall p, pinv p table_decoder.
Proof.
  intros p. pose proof (smax_range p). apply pinv_header; cbn; [|reflexivity|constructor].
  split; [apply default_table_ok|]. split; [apply bytes_okb_ok; vm_compute; reflexivity|].
  repeat (split; [reflexivity|]). split; [unfold kDefaultMaximumTargetFileSize; destruct p; cbn; lia|]. right. reflexivity.
Qed.

Lemma p_chunk_eq : forall p f d data, pinv p d -> bytes_ok data ->
  p_decode_chunk_fuel p f (nard p d) data = cmap (nard p) (decode_chunk_fuel f d data) /\
  match decode_chunk_fuel f d data with CRet d' _ o => pinv p d' /\ bytes_ok o | _ => True end.
Proof.
  intros p. induction f as [|f IH]; intros [c0 n0] data PI B; [split; [reflexivity|exact Logic.I]|].
  pose proof (pinv_max _ _ PI) as [T0 M0].
  assert (forall c, table_ok (d_table c) -> 0 <= d_max_file c <= smax p ->
    p_chunk_failed p (nar p c) [] = cmap (nard p) (chunk_failed c []) /\
    match chunk_failed c [] with CRet d' _ o => pinv p d' /\ bytes_ok o | _ => True end) as FAIL.
  { intros c T M. destruct (pinv_failed p c [] T M) as [E1 E2]. split; [exact E1|]. split; [exact E2|constructor]. }
  replace (nard p (Dec c0 n0)) with (Dec (nar p c0) (match n0 with Some nd => Some (nard p nd) | None => None end)) by reflexivity.
  cbn [p_decode_chunk_fuel decode_chunk_fuel].
  change (d_started (nar p c0)) with (d_started c0). change (d_unparsed (nar p c0)) with (d_unparsed c0).
  destruct (d_started c0) eqn:ST; cbn [negb]; [|apply FAIL; auto].
  (* the code table decoder *)
  assert (forall c nd rest ns ss, pbase p c -> d_sizes c = Some (ns, ss) -> sizes_ok ns ss ->
    bytes_ok (d_string c) -> pinv p nd -> bytes_ok rest ->
    let K := fun (fail : core -> list Z -> cres) (r : cres) (fin : dec -> dec * bool) (cw : core -> list Z -> cres) (c : core) =>
            match r with
            | CUB => CUB
            | CFuel => CFuel
            | CRet _ false _ => fail c []
            | CRet nd' true o =>
                let s := d_string c ++ o in
                if zlen s <? 1536 then
                  chunk_done (set_file c (d_version c) (d_sizes c) s (d_table c)) (Some nd') [] []
                else
                  let '(Dec nc _, fin) := fin nd' in
                  if negb fin then fail c []
                  else if negb (zlen s =? 1536) then fail c []
                  else
                    let rest' := finish_except (zlen (d_unparsed nc)) rest in
                    match d_sizes c with
                    | None => CUB
                    | Some (ns, ss) =>
                        match use_code_table (d_table c) (table_of_bytes s) (last_mode ns ss) with
                        | None => CUB
                        | Some (t, _) => cw (set_file c (d_version c) (d_sizes c) [] t) rest'
                        end
                    end
            end in
    let r0 := K chunk_failed (decode_chunk_fuel f nd rest) finish_decoding chunk_windows c in
    K (p_chunk_failed p) (p_decode_chunk_fuel p f (nard p nd) rest) (p_finish_decoding p) (p_chunk_windows p) (nar p c)
      = cmap (nard p) r0 /\
    match r0 with CRet d' _ o => pinv p d' /\ bytes_ok o | _ => True end) as NEST.
  { intros c nd rest ns ss PB S SO BS PN BR K r0. subst r0 K. cbv beta.
    pose proof PB as (T & BD & TG & WN & SE & TT & M & PP).
    destruct (IH nd rest PN BR) as [EQ IN]. rewrite EQ.
    destruct (decode_chunk_fuel f nd rest) as [nd' [|] o| |]; cbn [cmap]; auto.
    destruct IN as [PN' BO]. cbv zeta.
    change (d_string (nar p c)) with (d_string c). change (d_version (nar p c)) with (d_version c).
    change (d_sizes (nar p c)) with (d_sizes c). change (d_table (nar p c)) with (d_table c).
    assert (bytes_ok (d_string c ++ o)) as BSO by (apply bytes_ok_app; auto).
    set (s := d_string c ++ o) in *. clearbody s.
    destruct (Z.ltb_spec (zlen s) 1536) as [L|L].
    { split; [reflexivity|]. split.
      - cbn. apply (pinv_nested p _ nd' ns ss); auto. constructor.
      - cbn. apply bytes_ok_zdrop. rewrite TG. constructor. }
    destruct nd' as [nc nn]. cbn [p_finish_decoding finish_decoding nard].
    change (d_started (nar p nc)) with (d_started nc).
    assert (d_started nc && p_is_decoding_complete p (Dec (nar p nc) match nn with Some nd0 => Some (nard p nd0) | None => None end) =
            d_started nc && is_decoding_complete (Dec nc nn)) as FE.
    { destruct (d_started nc) eqn:SN; [|reflexivity]. cbn [andb]. unfold p_is_decoding_complete, is_decoding_complete.
      change (d_sizes (nar p nc)) with (d_sizes nc). change (d_win (nar p nc)) with (d_win nc).
      change (d_unparsed (nar p nc)) with (d_unparsed nc).
      destruct (d_sizes nc); [|reflexivity]. destruct nn; [reflexivity|]. destruct (d_win nc); [reflexivity|].
      rewrite nar_reached; [reflexivity|].
      inversion PN' as [? ? X|? PX|? ? ? ? PX|? ? ? ? PLX]; subst; [congruence|apply PX|exact (plim_plan _ _ PLX)]. }
    rewrite FE. destruct (d_started nc && is_decoding_complete (Dec nc nn)); cbn [negb]; [|apply FAIL; auto].
    destruct (Z.eqb_spec (zlen s) 1536) as [L2|L2]; cbn [negb]; [|apply FAIL; auto].
    rewrite S. change (d_unparsed (p_reset p (nar p nc))) with (d_unparsed (reset nc)).
    destruct (use_code_table_ok (d_table c) (table_of_bytes s) (last_mode ns ss)) as (t & b & U & TO & _).
    { exact T. } { apply table_of_bytes_ok; auto. } { apply last_mode_range. }
    rewrite U.
    destruct (pbase_core p ns ss (set_file c (d_version c) (Some (ns, ss)) [] t)) as [CO PL]; [|reflexivity|exact SO|].
    { split; [exact TO|]. exact (proj2 PB). }
    exact (p_chunk_windows_eq p ns ss _ _ CO (bytes_finish_except _ _ (zlen_nonneg _ _) BR) PL). }
  assert (forall c rest ns ss, core_ok ns ss c -> plim p c -> bytes_ok rest ->
    p_chunk_windows p (nar p c) rest = cmap (nard p) (chunk_windows c rest) /\
    match chunk_windows c rest with CRet d' _ o => pinv p d' /\ bytes_ok o | _ => True end) as WINS.
  { intros c rest ns ss CO PL BR. exact (p_chunk_windows_eq p ns ss c rest CO BR PL). }
  cbn [p_read_file_header read_file_header]. change (d_sizes (nar p c0)) with (d_sizes c0).
  inversion PI as [? ? X|? PB S BU|? nd ns ss PB S SO BU BS PN|ns ss ? CO PL BU]; subst; [congruence| | |].
  - rewrite S. assert (bytes_ok (d_unparsed c0 ++ data)) as BC by (apply bytes_ok_app; auto).
    set (chunk := d_unparsed c0 ++ data) in *. clearbody chunk.
    destruct (check_magic chunk); cbn [bind]; auto.
    2:{ split; [reflexivity|]. cbn. destruct PB as (T & BD & TG & PB). split.
        - apply pinv_header; auto. exact (conj T (conj BD (conj TG PB))).
        - apply bytes_ok_zdrop. rewrite TG. constructor. }
    destruct (Z.testbit (nth 4 chunk 0) 0); [apply FAIL; auto|].
    destruct (Z.testbit (nth 4 chunk 0) 1).
    + destruct (parse_cache_sizes (zdrop 5 chunk)) as [[[ns ss] rest]| | |] eqn:PC; cbn [bind]; auto.
      * destruct (parse_cache_sizes_inv _ ns ss rest (bytes_ok_zdrop _ _ BC) PC) as (q1 & q2 & E & _ & _ & N1 & N2 & _).
        assert (bytes_ok rest) as BR. { apply (bytes_ok_suffix (zdrop 5 chunk) (q1 ++ q2)); [apply bytes_ok_zdrop; exact BC|]. rewrite <- app_assoc. exact E. }
        change (d_table (nar p c0)) with (d_table c0).
        apply (NEST (set_file c0 (nth 3 chunk 0) (Some (ns, ss)) [] (d_table c0)) table_decoder rest ns ss); auto.
        { split; assumption. } { constructor. } { apply pinv_table_decoder. }
      * split; [reflexivity|]. cbn. destruct PB as (T & BD & TG & PB). split.
        { apply pinv_header; auto. exact (conj T (conj BD (conj TG PB))). }
        apply bytes_ok_zdrop. rewrite TG. constructor.
    + assert (pbase p (set_file c0 (nth 3 chunk 0) (Some (kDefaultNearCacheSize, kDefaultSameCacheSize)) (d_string c0) (d_table c0))) as PB'.
      { exact PB. }
      destruct (pbase_core p kDefaultNearCacheSize kDefaultSameCacheSize _ PB' eq_refl default_sizes_ok) as [CO PL].
      exact (WINS _ _ _ _ CO PL (bytes_ok_zdrop _ _ BC)).
  - rewrite S. cbv iota beta.
    apply (NEST c0 nd (d_unparsed c0 ++ data) ns ss); auto. apply bytes_ok_app. auto.
  - rewrite (co_sizes _ _ _ CO). cbv iota beta. apply (WINS c0 _ ns ss); auto. apply bytes_ok_app. auto.
Qed.

Lemma nard_fuel : forall p data d, chunk_fuel (nard p d) data = chunk_fuel d data.
Proof.
  intros p data. fix IH 1. intros [c [nd|]].
  - cbn [nard chunk_fuel]. f_equal. apply IH.
  - reflexivity.
Qed.

(** ** Sessions *)

(** The same calls on the decoder of [Decoder]. *)
Definition do64 (d : dec) (x : pcall) : option (dec * bool * list Z) :=
  match x with
  | PStart dict => Some (start_decoding d dict, true, [])
  | PChunk data => match decode_chunk d data with CRet d' ok o => Some (d', ok, o) | _ => None end
  | PFinish => let '(d', ok) := finish_decoding d in Some (d', ok, [])
  | PMaxFile n => let '(d', ok) := set_maximum_target_file_size d n in Some (d', ok, [])
  | PMaxWindow n => let '(d', ok) := set_maximum_target_window_size d n in Some (d', ok, [])
  | PAllow b => Some (set_allow_vcd_target d b, true, [])
  end.
Fixpoint session64 (d : dec) (l : list pcall) : list (option (bool * list Z)) :=
  match l with
  | [] => []
  | x :: tl =>
      match do64 d x with
      | None => [None]
      | Some (d', ok, o) => Some (ok, o) :: session64 d' tl
      end
  end.

(** Arguments that can be passed to a function with size_t parameters. *)
Definition arg_ok (x : pcall) : Prop :=
  match x with
  | PStart dict => bytes_ok dict
  | PChunk data => bytes_ok data
  | PMaxFile n | PMaxWindow n => 0 <= n <= 4294967295
  | _ => True
  end.

(** The limit for the size of the target is not lowered between StartDecoding
    and FinishDecoding; [cur] is its value so far. *)
Fixpoint not_lowered (started : bool) (cur : Z) (l : list pcall) : Prop :=
  match l with
  | [] => True
  | PStart _ :: tl => not_lowered true cur tl
  | PFinish :: tl => not_lowered false cur tl
  | PMaxFile n :: tl => (started = true -> cur <= n) /\ not_lowered started n tl
  | _ :: tl => not_lowered started cur tl
  end.

Definition pstate (p : platform) (started : bool) (cur : Z) (d : dec) : Prop :=
  pinv p d /\ let '(Dec c _) := d in d_max_file c = cur /\ (started = false -> d_started c = false).

Lemma decode_chunk_fuel_max : forall f d data d' ok o, decode_chunk_fuel f d data = CRet d' ok o ->
  let '(Dec c _) := d in let '(Dec c' _) := d' in d_max_file c' = d_max_file c /\ (d_started c = false -> d_started c' = false).
Proof.
  assert (forall f c data out, match fst (window_loop f c data out) with
    XOk (c', _) | XEod (c', _) => d_max_file c' = d_max_file c | _ => True end) as WL.
  { assert (forall c data, match decode_window c data with XOk (c', _) | XEod (c', _) => d_max_file c' = d_max_file c | _ => True end) as DW.
    { intros c data. unfold decode_window.
      assert (forall t w st a b, match finish_window c t w st a b with XOk (c', _) | XEod (c', _) => d_max_file c' = d_max_file c | _ => True end) as FW.
      { intros. unfold finish_window. destruct (decode_body _ _ _ _ _); auto. cbv zeta. destruct (_ && _); auto. }
      destruct (d_win c); [apply FW|]. destruct (read_header c data) as [[[[w st] after] l]| | |]; auto. apply FW. }
    induction f as [|f IH]; intros c data out; destruct data as [|b data]; cbn [window_loop fst]; auto.
    specialize (DW c (b :: data)). destruct (decode_window c (b :: data)) as [[c' r]|[c' r]| | |]; auto.
    destruct (reached_planned c'); [exact DW|]. destruct (d_allow c').
    - specialize (IH c' r out). destruct (fst (window_loop f c' r out)) as [[? ?]|[? ?]| | |]; auto; congruence.
    - cbn [flush_target]. specialize (IH (set_target_out c' [] 0 0) r (out ++ zdrop (d_out_pos c') (d_target c'))). unfold flush_target.
      destruct (fst (window_loop f _ r _)) as [[? ?]|[? ?]| | |]; auto; rewrite IH; exact DW. }
  assert (forall c data d' ok o, chunk_windows c data = CRet d' ok o -> let '(Dec c' _) := d' in d_max_file c' = d_max_file c) as CW.
  { intros c data d' ok o H. unfold chunk_windows in H. specialize (WL (Datatypes.S (length data)) c data []).
    destruct (window_loop _ c data []) as [[[? ?]|[? ?]| | |] ?]; try discriminate; unfold chunk_done, chunk_failed in H; cbn in H, WL;
    injection H as <- <- <-; cbn; auto. }
  assert (forall d data d' o, p_decode_chunk LP64 d data = CRet d' false o -> True) as _ by auto.
  assert (forall f d data d' ok o, decode_chunk_fuel f d data = CRet d' ok o -> let '(Dec c _) := d in d_started c = false -> let '(Dec c' _) := d' in d_started c' = false) as OFF.
  { intros f [c n] data d' ok o H S. destruct f; [discriminate|]. cbn [decode_chunk_fuel] in H. rewrite S in H. cbn in H. injection H as <- <- <-. reflexivity. }
  induction f as [|f IH]; intros [c n] data [c' n'] ok o H; [discriminate|].
  pose proof (OFF _ _ _ _ _ _ H) as OF. cbn in OF. split; [|exact OF]. clear OF.
  cbn [decode_chunk_fuel] in H.
  destruct (negb (d_started c)); [injection H as <- <- <- <-; reflexivity|].
  assert (forall k nd rest, read_file_header (Dec c n) (d_unparsed c ++ data) = Ok (Dec k nd, rest) -> d_max_file k = d_max_file c) as RF.
  { intros k nd rest R. cbn [read_file_header] in R. destruct (d_sizes c); [injection R as <- <- <-; reflexivity|].
    destruct (check_magic _); cbn [bind] in R; try discriminate. destruct (Z.testbit _ 0); [discriminate|].
    destruct (Z.testbit _ 1); [|injection R as <- <- <-; reflexivity].
    destruct (parse_cache_sizes _) as [[[? ?] ?]| | |]; cbn [bind] in R; try discriminate. injection R as <- <- <-. reflexivity. }
  destruct (read_file_header (Dec c n) (d_unparsed c ++ data)) as [[[k [nd|]] rest]| | |]; try discriminate.
  - specialize (RF k _ rest eq_refl). destruct (decode_chunk_fuel f nd rest) as [nd' [|] o2| |]; try discriminate.
    2:{ injection H as <- <- <- <-. exact RF. }
    cbv zeta in H. destruct (_ <? _); [injection H as <- <- <- <-; exact RF|].
    destruct (finish_decoding nd') as [[nc nn] fin]. destruct (negb fin); [injection H as <- <- <- <-; exact RF|].
    destruct (negb _); [injection H as <- <- <- <-; exact RF|].
    destruct (d_sizes k) as [[ns ss]|]; [|discriminate]. destruct (use_code_table _ _ _) as [[t b]|]; [|discriminate].
    apply CW in H. rewrite H. exact RF.
  - apply CW in H. rewrite H. exact (RF _ _ _ eq_refl).
  - injection H as <- <- <- <-. reflexivity.
  - injection H as <- <- <- <-. reflexivity.
Qed.

Lemma nar_reset : forall p c, p_reset p (nar p c) = nar p (reset c).
Proof. reflexivity. Qed.

Lemma p_finish_flag : forall p c n, pinv p (Dec c n) ->
  snd (p_finish_decoding p (nard p (Dec c n))) = snd (finish_decoding (Dec c n)).
Proof.
  intros p c n PI. cbn [nard p_finish_decoding finish_decoding snd]. change (d_started (nar p c)) with (d_started c).
  destruct (d_started c) eqn:SN; [|reflexivity]. cbn [andb]. unfold p_is_decoding_complete, is_decoding_complete.
  change (d_sizes (nar p c)) with (d_sizes c). change (d_win (nar p c)) with (d_win c).
  change (d_unparsed (nar p c)) with (d_unparsed c).
  destruct (d_sizes c); [|reflexivity]. destruct n; [reflexivity|]. destruct (d_win c); [reflexivity|].
  rewrite nar_reached; [reflexivity|].
  inversion PI as [? ? X|? PX|? ? ? ? PX|? ? ? ? PLX]; subst; [congruence|apply PX|exact (plim_plan _ _ PLX)].
Qed.

Lemma session_eq : forall p l d started cur, pstate p started cur d -> Forall arg_ok l -> not_lowered started cur l ->
  p_session p (nard p d) l = session64 d l.
Proof.
  intros p. pose proof (smax_range p) as SM.
  induction l as [|x l IH]; intros [c n] started cur [PI [MF OFF]] FA NL; [reflexivity|].
  inversion FA as [|? ? AX FA']; subst. pose proof (pinv_max _ _ PI) as [T0 M0].
  cbn [p_session session64]. destruct x as [dict|data| |m|m|b]; cbn [not_lowered arg_ok p_do do64] in *.
  - (* StartDecoding *)
    cbn [nard p_start_decoding start_decoding]. change (d_started (nar p c)) with (d_started c).
    destruct (d_started c) eqn:ST.
    + f_equal. change (Dec (nar p c) match n with Some nd => Some (nard p nd) | None => None end) with (nard p (Dec c n)).
      apply (IH _ true (d_max_file c)); auto. split; [exact PI|]. split; [reflexivity|discriminate].
    + f_equal. change (Dec (p_start_core p (nar p c) dict) None) with (nard p (Dec (start_core c dict) None)).
      apply (IH _ true (d_max_file c)); auto. split; [|split; [reflexivity|discriminate]].
      apply pinv_header; [|reflexivity|constructor]. split; [exact T0|]. split; [exact AX|].
      repeat (split; [reflexivity|]). split; [exact M0|left; reflexivity].
  - (* DecodeChunk *)
    unfold p_decode_chunk. rewrite nard_fuel.
    destruct (p_chunk_eq p (chunk_fuel (Dec c n) data) (Dec c n) data PI AX) as [EQ PI']. rewrite EQ.
    fold (decode_chunk (Dec c n) data) in *.
    destruct (decode_chunk (Dec c n) data) as [d' ok o| |] eqn:DC; cbn [cmap]; try reflexivity.
    f_equal. destruct PI' as [PI' _]. apply (IH _ started (d_max_file c)); auto. split; [exact PI'|].
    apply decode_chunk_fuel_max in DC. destruct d' as [c' n']. destruct DC as [D1 D2]. auto.
  - (* FinishDecoding *)
    pose proof (p_finish_flag p c n PI) as FF.
    replace (p_finish_decoding p (nard p (Dec c n))) with (nard p (Dec (reset c) None), snd (p_finish_decoding p (nard p (Dec c n)))) by reflexivity.
    rewrite FF. cbn [finish_decoding snd]. f_equal.
    apply (IH _ false (d_max_file c)); auto. split; [|split; reflexivity]. apply pinv_off; auto.
  - (* SetMaximumTargetFileSize *)
    cbn [set_maximum_target_file_size nard]. destruct NL as [NL1 NL2]. f_equal.
    change (Dec (set_limits (nar p c) m (d_max_window (nar p c)) (d_allow (nar p c)) (d_planned (nar p c)))
              match n with Some nd => Some (nard p nd) | None => None end)
      with (nard p (Dec (set_limits c m (d_max_window c) (d_allow c) (d_planned c)) n)).
    apply (IH _ started m); auto. split; [|split; [reflexivity|exact OFF]].
    assert (0 <= m <= smax p) as MM by lia.
    destruct started.
    + specialize (NL1 eq_refl).
      inversion PI as [? ? X1 X2 X3|? PB S BU|? nd ns ss PB S SO BU BS PN|ns ss ? CO PL BU]; subst.
      * apply pinv_off; auto.
      * apply pinv_header; auto. destruct PB as (A & B & C & D & E & F & G & H). exact (conj A (conj B (conj C (conj D (conj E (conj F (conj MM H))))))).
      * apply (pinv_nested p _ nd ns ss); auto. destruct PB as (A & B & C & D & E & F & G & H). exact (conj A (conj B (conj C (conj D (conj E (conj F (conj MM H))))))).
      * apply (pinv_core p ns ss); auto; [destruct CO; constructor; auto|].
        destruct PL as [Q1 Q2 Q3 Q4]. constructor; cbn [set_limits d_max_file d_planned d_total d_win d_target d_start]; auto. lia.
    + apply pinv_off; auto.
  - (* SetMaximumTargetWindowSize *)
    cbn [set_maximum_target_window_size nard]. destruct (kTargetSizeLimit <? m).
    + f_equal. apply (IH (Dec c n) started (d_max_file c)); auto. split; auto.
    + f_equal. change (Dec (set_limits (nar p c) (d_max_file (nar p c)) m (d_allow (nar p c)) (d_planned (nar p c)))
              match n with Some nd => Some (nard p nd) | None => None end)
      with (nard p (Dec (set_limits c (d_max_file c) m (d_allow c) (d_planned c)) n)).
      apply (IH _ started (d_max_file c)); auto. split; [|split; auto].
      inversion PI as [? ? X1 X2 X3|? PB S BU|? nd ns ss PB S SO BU BS PN|ns ss ? CO PL BU]; subst.
      * apply pinv_off; auto.
      * apply pinv_header; auto.
      * apply (pinv_nested p _ nd ns ss); auto.
      * apply (pinv_core p ns ss); auto; [destruct CO; constructor; auto|destruct PL; constructor; auto].
  - (* SetAllowVcdTarget *)
    cbn [set_allow_vcd_target nard]. change (d_started (nar p c)) with (d_started c). destruct (d_started c) eqn:ST.
    + f_equal. apply (IH (Dec c n) started (d_max_file c)); auto. split; [exact PI|split; [reflexivity|intros E; rewrite ST; exact (OFF E)]].
    + f_equal. change (Dec (set_limits (nar p c) (d_max_file (nar p c)) (d_max_window (nar p c)) b (d_planned (nar p c)))
              match n with Some nd => Some (nard p nd) | None => None end)
      with (nard p (Dec (set_limits c (d_max_file c) (d_max_window c) b (d_planned c)) n)).
      apply (IH _ started (d_max_file c)); auto. split; [|split; auto]. apply pinv_off; auto.
Qed.

Theorem session_new : forall p l, Forall arg_ok l -> not_lowered false kDefaultMaximumTargetFileSize l ->
  p_session p (p_new_decoder p) l = session64 new_decoder l.
Proof.
  intros p l FA NL. change (p_new_decoder p) with (nard p new_decoder).
  apply (session_eq p l new_decoder false kDefaultMaximumTargetFileSize); auto.
  split; [|split; reflexivity]. apply pinv_off; [reflexivity|apply default_table_ok|].
  pose proof (smax_range p). cbn. unfold kDefaultMaximumTargetFileSize. destruct p; cbn; lia.
Qed.
