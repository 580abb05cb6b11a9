(** The instructions that the decoder executes in a window, in order: DecodeBody
    (vcdecoder.cc 1233-1337) with a record of what it does.  [body_trace_loop] says
    that the record is that of the modelled loop. *)

From Verif Require Import Base Spec SpecEncode SpecInstr Varint VarintFacts AddrCache AddrCacheFacts CodeTable
  InstructionMap DecodeTable HeaderParser Adler AdlerFacts Decoder CopyFacts BodyFacts BodyExt WindowExt
  WindowHeader WindowStep WindowFacts.
From Coq Require Import ZifyBool ZifyNat.

(** vcdecoder.cc 1155-1231: the data of an ADD, the byte of a RUN, the address of a
    COPY, as DecodeAdd, DecodeRun and DecodeCopy find them. *)
Definition instruction_read (w : Decoder.window) (start : Z) (st : body) (ty size mode : Z) : option instruction :=
  if ty =? VCD_ADD then Some (Add (ztake size (data_of st)))
  else if ty =? VCD_RUN then match data_of st with b :: _ => Some (Run size b) | [] => None end
  else if ty =? VCD_COPY then
    match decode_address (b_cache st) (to_int32 (w_seglen w + (zlen (b_target st) - start))) mode (addr_of st) with
    | Ok (a, _, _) => Some (Copy a size)
    | _ => None
    end
  else None.

(** vcdecoder.cc 1241-1295, as [body_loop]. *)
Fixpoint body_trace (fuel : nat) (dict : list Z) (t : table) (w : Decoder.window) (start : Z) (st : body) : option (list instruction) :=
  if zlen (b_target st) - start <? w_len w then
    match fuel with
    | O => None
    | S fuel' =>
        match get_next_instruction t (b_pending st) (b_inst st) with
        | NI ty size mode p rest =>
            if (w_len w <? size) || (w_len w <? size + (zlen (b_target st) - start)) then None
            else
              match instruction_read w start (with_inst st p rest) ty size mode,
                    decode_instruction dict w start (with_inst st p rest) ty size mode with
              | Some i, XOk st' => match body_trace fuel' dict t w start st' with Some l => Some (i :: l) | None => None end
              | _, _ => None
              end
        | _ => None
        end
    end
  else Some [].

(** vcdecoder.cc 1339-1390: ReadHeader, then the instructions of a window that is
    complete. *)
Definition window_trace (c : core) (data : list Z) : option (list instruction) :=
  match read_header c data with
  | Ok (w, st, _, _) => body_trace (body_fuel st) (d_dict c) (d_table c) w (d_start c) st
  | _ => None
  end.

Lemma instruction_read_ok : forall dict w start st ty size mode st',
  decode_instruction dict w start st ty size mode = XOk st' -> exists i, instruction_read w start st ty size mode = Some i.
Proof.
  intros dict w start st ty size mode st' H. unfold decode_instruction in H. unfold instruction_read.
  destruct (ty =? VCD_ADD); [eauto|]. destruct (ty =? VCD_RUN).
  { unfold decode_run in H. destruct (data_of st); [discriminate|eauto]. }
  destruct (ty =? VCD_COPY); [|discriminate]. unfold decode_copy in H. cbv zeta in H.
  destruct (decode_address _ _ _ _) as [[[a r] c]| | |]; try discriminate. eauto.
Qed.

(** There is a record exactly if the loop completes the window. *)
Lemma body_trace_loop : forall fuel dict t w start st,
  (exists l, body_trace fuel dict t w start st = Some l) <-> (exists st', body_loop fuel dict t w start st = XOk st').
Proof.
  induction fuel as [|fuel IH]; intros dict t w start st; cbn [body_trace body_loop].
  - destruct (_ <? _); split; intros [x H]; try discriminate; eauto.
  - destruct (_ <? _); [|split; eauto].
    destruct (get_next_instruction _ _ _) as [ty size mode p rest| |]; try (split; intros [x H]; discriminate).
    destruct (_ || _); [split; intros [x H]; discriminate|].
    destruct (decode_instruction dict w start (with_inst st p rest) ty size mode) as [st'| | | |] eqn:D;
      try (split; intros [x H]; [destruct (instruction_read _ _ _ _ _ _); discriminate|discriminate]).
    destruct (instruction_read_ok _ _ _ _ _ _ _ _ D) as (i & ->). rewrite <- IH. split; intros [x H].
    + destruct (body_trace fuel dict t w start st') as [l|]; [eauto|discriminate].
    + rewrite H. eauto.
Qed.

(** ** One instruction *)

Lemma half_reads_one : forall ns ss L seg ty k mode p s s' x, ty <> VCD_NOOP ->
  half_reads ns ss L seg (half_of ty k mode) p s s' x -> exists i, x = [i].
Proof.
  intros ns ss L seg ty k mode p s s' x N H. unfold half_of in H. destruct (Z.eqb_spec ty 0); [contradiction|].
  destruct (ty =? 1); [|destruct (ty =? 2); [|destruct (ty =? 3)]]; inversion H; subst; eauto.
Qed.

Lemma half_reads_noop : forall ns ss L seg p s s' x,
  half_reads ns ss L seg HNoop p s s' x -> p = no_piece /\ s' = s /\ x = [].
Proof. intros. inversion H; auto. Qed.

Lemma read_complete : forall dict t w prev seg st hist T ty size mode k ps pd pa hist' T' rest i,
  binv dict t w prev seg st hist T -> near_size (b_cache st) <= 253 -> w_seglen w + w_len w <= int32_max + 1 ->
  size_code k ps size -> ty <> VCD_NOOP ->
  half_reads (near_size (b_cache st)) (same_size (b_cache st)) (w_len w) seg
        (half_of ty k mode) {| p_size := ps; p_data := pd; p_addr := pa |} (hist, T) (hist', T') [i] ->
  zlen T' = zlen T + size -> zlen T' <= w_len w ->
  sec st = app3 (if b_il st then (pd ++ pa, [], []) else ([], pd, pa)) rest ->
  instruction_read w (zlen prev) st ty size mode = Some i.
Proof.
  intros dict t w prev seg st hist T ty size mode k ps pd pa hist' T' rest i BI N253 HL SC NN HM TL TM SE.
  destruct (binv_lens _ _ _ _ _ _ _ _ BI) as (TL0 & SL & SN).
  pose proof (zlen_nonneg _ T). pose proof (zlen_nonneg _ prev).
  unfold half_of in HM. destruct (Z.eqb_spec ty 0) as [|NZ]; [contradiction|].
  unfold instruction_read, VCD_ADD, VCD_RUN, VCD_COPY.
  destruct (Z.eqb_spec ty 1) as [-> |NA]; [|destruct (Z.eqb_spec ty 2) as [-> |NR]; [|destruct (Z.eqb_spec ty 3) as [-> |NC]]].
  - inversion HM; subst. rewrite zlen_app in TL.
    assert (exists r, data_of st = pd ++ r) as (r & DE).
    { unfold sec, data_of in *. destruct rest as [[r1 r2] r3]. destruct (b_il st) eqn:IL; cbn in SE; injection SE as S1 S2 S3; subst.
      - exists r1. rewrite app_nil_r in S1. exact S1.
      - exists r2. auto. }
    rewrite DE, ztake_app_eq by lia. reflexivity.
  - inversion HM; subst. assert (n = size) as -> by (eapply size_code_fun; eauto).
    assert (exists r, data_of st = b :: r) as (r & DE).
    { unfold sec, data_of in *. destruct rest as [[r1 r2] r3]. destruct (b_il st) eqn:IL; cbn in SE; injection SE as S1 S2 S3; subst.
      - exists r1. exact S1.
      - exists r2. auto. }
    rewrite DE. reflexivity.
  - inversion HM; subst. assert (n = size) as -> by (eapply size_code_fun; eauto).
    match goal with A : addr_code _ _ _ _ _ _ _ |- _ => rename A into AC end.
    assert (exists r, addr_of st = pa ++ r) as (r & DE).
    { unfold sec, addr_of in *. destruct rest as [[r1 r2] r3]. destruct (b_il st) eqn:IL; cbn in SE; injection SE as S1 S2 S3; subst.
      - exists r1. exact S1.
      - exists r3. auto. }
    rewrite TL0. replace (zlen prev + zlen T - zlen prev) with (zlen T) by lia.
    rewrite to_int32_id by (unfold int32_max in *; lia). rewrite SL in AC. rewrite DE.
    assert (0 <= w_seglen w + zlen T <= int32_max) as HR by (unfold int32_max in *; lia).
    destruct (decode_address_complete _ _ _ _ _ _ r (cache_like_rep _ _ (bi_cache _ _ _ _ _ _ _ _ BI) N253) HR AC) as (c' & D1 & _).
    rewrite D1. reflexivity.
  - inversion HM.
Qed.

Lemma trace_step : forall dict t w prev seg st hist T ty k mode p' pre p hist' T' rest i,
  binv dict t w prev seg st hist T -> near_size (b_cache st) <= 253 -> w_seglen w + w_len w <= int32_max + 1 ->
  pending_ok t p' -> ty <> VCD_NOOP ->
  (forall r, found t (b_pending st) (pre ++ r) ty k mode p' r) ->
  half_reads (near_size (b_cache st)) (same_size (b_cache st)) (w_len w) seg
        (half_of ty k mode) p (hist, T) (hist', T') [i] ->
  zlen T' <= w_len w ->
  sec st = app3 (pre, [], []) (app3 (piece_sec (b_il st) p) rest) ->
  exists st', (forall f l, body_trace f dict t w (zlen prev) st' = Some l -> body_trace (S f) dict t w (zlen prev) st = Some (i :: l)) /\
    sec st' = rest /\ binv dict t w prev seg st' hist' T' /\ b_il st' = b_il st /\
    b_pending st' = p' /\
    near_size (b_cache st') = near_size (b_cache st) /\
    same_size (b_cache st') = same_size (b_cache st).
Proof.
  intros dict t w prev seg st hist T ty k mode p' pre p hist' T' rest i BI N253 HL PO NN F HR TM SE.
  pose proof (half_reads_means _ _ _ _ _ _ _ _ _ HR) as HM.
  destruct (binv_lens _ _ _ _ _ _ _ _ BI) as (TL0 & SL & SN).
  destruct (half_means_size _ _ _ _ _ _ _ _ _ _ _ HM NN) as (n & SC & TL & LT). cbn [snd] in TL.
  pose proof (size_code_nonneg _ _ _ SC). pose proof (zlen_nonneg _ T).
  pose proof (bi_wlen _ _ _ _ _ _ _ _ BI).
  destruct p as [ps pd pa]. cbn [p_size] in SC.
  rewrite piece_sec_split in SE.
  set (m := app3 (if b_il st then (pd ++ pa, [], []) else ([], pd, pa)) rest) in *.
  rewrite <- !app3_assoc in SE. fold m in SE.
  destruct m as [[m1 m2] m3] eqn:Em. cbn in SE.
  assert (b_inst st = pre ++ ps ++ m1) as EI by (unfold sec in SE; congruence).
  set (st1 := with_inst st p' m1).
  assert (sec st1 = (m1, m2, m3)) as S1 by (unfold sec in *; cbn; congruence).
  assert (binv dict t w prev seg st1 hist T) as BI1.
  { apply binv_with_inst; auto. pose proof (bi_binst _ _ _ _ _ _ _ _ BI) as B. rewrite EI in B.
    apply bytes_ok_app in B as [_ B]. apply bytes_ok_app in B as [_ B]. exact B. }
  destruct (exec_complete dict t w prev seg st1 hist T ty n mode k ps pd pa hist' T' rest) as
    (st' & X1 & X2 & X3 & X4 & X5 & X6 & X7); auto.
  { rewrite S1, <- Em. reflexivity. }
  assert (instruction_read w (zlen prev) st1 ty n mode = Some i) as RD.
  { eapply (read_complete dict t w prev seg st1 hist T ty n mode k ps pd pa hist' T' rest i); eauto. rewrite S1, <- Em. reflexivity. }
  exists st'. split; [|auto 10].
  intros f l TR. cbn [body_trace]. rewrite TL0. replace (zlen prev + zlen T - zlen prev) with (zlen T) by lia.
  destruct (Z.ltb_spec (zlen T) (w_len w)); [|lia].
  rewrite EI. rewrite (gni_complete t _ _ ty k mode p' ps m1 n (F (ps ++ m1))) by (auto; lia).
  destruct (Z.ltb_spec (w_len w) n); [lia|]. destruct (Z.ltb_spec (w_len w) (n + zlen T)); [lia|]. cbn [orb].
  fold st1. rewrite RD, X1, TR. reflexivity.
Qed.

(** ** A window *)

Lemma body_trace_complete : forall dict t w prev seg ns ss items s s' x,
  items_read (entry t) ns ss (w_len w) seg items s s' x ->
  zlen (snd s') = w_len w -> w_seglen w + w_len w <= int32_max + 1 ->
  forall nops st rest,
  Forall (is_nop t) nops -> nops = [] \/ zlen (snd s) < w_len w ->
  binv dict t w prev seg st (fst s) (snd s) -> b_pending st = None ->
  near_size (b_cache st) = ns -> ns <= 253 -> same_size (b_cache st) = ss ->
  sec st = app3 (nops, [], []) (app3 (items_sec (b_il st) items) rest) ->
  exists fuel, body_trace fuel dict t w (zlen prev) st = Some x.
Proof.
  intros dict t w prev seg ns ss items s s' x IM.
  induction IM as [s|i l s s1 s2 s3 x1 x2 x3 OB LT H1 H2 IM IH]; intros TL HL nops st rest FN NL BI PE NS N253 SS SE.
  - destruct NL as [-> |NL]; [|lia]. exists 0%nat. cbn [body_trace].
    destruct (binv_lens _ _ _ _ _ _ _ _ BI) as (TL0 & _). rewrite TL0.
    destruct (Z.ltb_spec (zlen prev + zlen (snd s) - zlen prev) (w_len w)); [lia|]. reflexivity.
  - specialize (IH TL HL). destruct s as [h T], s1 as [h1 T1], s2 as [h2 T2]. cbn [fst snd] in *.
    pose proof (items_mean_grow _ _ _ _ _ _ _ _ _ (items_read_means _ _ _ _ _ _ _ _ _ IM)) as G. cbn [snd] in G.
    pose proof (half_means_grow _ _ _ _ _ _ _ _ (half_reads_means _ _ _ _ _ _ _ _ _ H2)) as G2. cbn [snd] in G2.
    rewrite items_sec_cons, item_sec_split in SE.
    destruct i as [op p1 p2]. cbn [i_op i_first i_second entry fst snd] in *.
    destruct (Z.eq_dec (tget (inst1 t) op) VCD_NOOP) as [N1|N1].
    + rewrite N1, half_of_noop in H1. apply half_reads_noop in H1 as (-> & E & ->). injection E as -> ->.
      rewrite piece_sec_no, app3_nil_l in SE.
      destruct (Z.eq_dec (tget (inst2 t) op) VCD_NOOP) as [N2|N2].
      * rewrite N2, half_of_noop in H2. apply half_reads_noop in H2 as (-> & E & ->). injection E as -> ->.
        apply (IH (nops ++ [op]) st rest); auto.
        -- apply Forall_app. split; [auto|]. constructor; [|constructor]. repeat split; auto; apply OB.
        -- rewrite SE, piece_sec_no, app3_nil_r. rewrite <- !app3_assoc. rewrite !app3_assoc. reflexivity.
      * destruct (half_reads_one _ _ _ _ _ _ _ _ _ _ _ N2 H2) as (i2 & ->).
        destruct (trace_step dict t w prev seg st h T (tget (inst2 t) op) (tget (size2 t) op) (tget (mode2 t) op) None
                    (nops ++ [op]) p2 h2 T2 (app3 (items_sec (b_il st) l) rest) i2) as (st' & X1 & X2 & X3 & X4 & X5 & X6 & X7); auto; try (match goal with |- near_size _ <= 253 => lia end).
        -- exact I.
        -- intros r. rewrite PE. rewrite <- app_assoc. cbn [app]. apply found_second; auto.
        -- rewrite NS, SS. exact H2.
        -- lia.
        -- rewrite SE. rewrite !app3_assoc. reflexivity.
        -- destruct (IH [] st' rest) as (f & Y1); auto; try congruence.
           { rewrite X2, X4. rewrite app3_nil_l. reflexivity. }
           exists (S f). apply X1. exact Y1.
    + destruct (half_reads_one _ _ _ _ _ _ _ _ _ _ _ N1 H1) as (i1 & ->).
      destruct (trace_step dict t w prev seg st h T (tget (inst1 t) op) (tget (size1 t) op) (tget (mode1 t) op)
                    (if tget (inst2 t) op =? VCD_NOOP then None else Some op)
                    (nops ++ [op]) p1 h1 T1 (app3 (piece_sec (b_il st) p2) (app3 (items_sec (b_il st) l) rest)) i1)
        as (st1 & X1 & X2 & X3 & X4 & X5 & X6 & X7); auto; try (match goal with |- near_size _ <= 253 => lia end).
      * destruct (Z.eqb_spec (tget (inst2 t) op) VCD_NOOP); cbn; auto.
      * intros r. rewrite PE. rewrite <- app_assoc. cbn [app]. apply found_first; auto.
      * rewrite NS, SS. exact H1.
      * lia.
      * rewrite SE. rewrite !app3_assoc. reflexivity.
      * destruct (Z.eqb_spec (tget (inst2 t) op) VCD_NOOP) as [N2|N2].
        -- rewrite N2, half_of_noop in H2. apply half_reads_noop in H2 as (-> & E & ->). injection E as -> ->.
           rewrite piece_sec_no, app3_nil_l in X2.
           destruct (IH [] st1 rest) as (f & Y1); auto; try congruence.
           { rewrite X2, X4. rewrite app3_nil_l. reflexivity. }
           exists (S f). apply X1. exact Y1.
        -- destruct (half_reads_one _ _ _ _ _ _ _ _ _ _ _ N2 H2) as (i2 & ->).
           destruct (trace_step dict t w prev seg st1 h1 T1 (tget (inst2 t) op) (tget (size2 t) op) (tget (mode2 t) op) None
                    [] p2 h2 T2 (app3 (items_sec (b_il st) l) rest) i2) as (st' & Z1 & Z2 & Z3 & Z4 & Z5 & Z6 & Z7); auto; try (match goal with |- near_size _ <= 253 => lia end).
           ++ exact I.
           ++ intros r. rewrite X5. apply found_pending; auto.
           ++ rewrite X6, X7, NS, SS. exact H2.
           ++ lia.
           ++ rewrite X2, X4, app3_nil_l. reflexivity.
           ++ destruct (IH [] st' rest) as (f & Y1); auto; try congruence.
              { rewrite Z2, Z4, X4. rewrite app3_nil_l. reflexivity. }
              exists (S (S f)). apply X1. apply Z1. exact Y1.
Qed.

Lemma body_trace_more : forall f dict t w start st l, body_trace f dict t w start st = Some l ->
  forall g, (f <= g)%nat -> body_trace g dict t w start st = Some l.
Proof.
  induction f as [|f IH]; intros dict t w start st l H g G.
  - cbn [body_trace] in H. destruct g; cbn [body_trace]; destruct (_ <? _); try discriminate; exact H.
  - destruct g as [|g]; [lia|]. cbn [body_trace] in *. destruct (_ <? _); [|exact H].
    destruct (get_next_instruction _ _ _) as [ty size mode p rest| |]; try discriminate.
    destruct (_ || _); [discriminate|]. destruct (instruction_read _ _ _ _ _ _); [|discriminate].
    destruct (decode_instruction _ _ _ _ _ _ _) as [st'| | | |]; try discriminate.
    destruct (body_trace f dict t w start st') as [l'|] eqn:E; [|discriminate].
    rewrite (IH _ _ _ _ _ _ E g) by lia. exact H.
Qed.

Lemma body_trace_fuel : forall f g dict t w start st l st', body_trace f dict t w start st = Some l ->
  body_loop g dict t w start st = XOk st' -> body_trace g dict t w start st = Some l.
Proof.
  intros f g dict t w start st l st' H G.
  destruct (proj2 (body_trace_loop g dict t w start st) (ex_intro _ _ G)) as (l' & E).
  pose proof (body_trace_more _ _ _ _ _ _ _ H (Nat.max f g) ltac:(lia)).
  pose proof (body_trace_more _ _ _ _ _ _ _ E (Nat.max f g) ltac:(lia)). congruence.
Qed.

Theorem window_trace_complete : forall c ns ss wb T l rest,
  core_ok ns ss c -> ns <= 253 -> ns + ss <= 254 -> d_win c = None -> bytes_ok wb -> bytes_ok rest ->
  window_reads (fmt c ns ss) (d_dict c) (d_target c) wb T l ->
  zlen wb <= int32_max -> would_exceed c (zlen T) = false ->
  zlen (d_dict c) <= int32_max -> zlen (d_target c) <= int32_max -> zlen T <= int32_max ->
  zlen (d_dict c) + zlen T <= int32_max + 1 -> zlen (d_target c) + zlen T <= int32_max + 1 ->
  window_trace c (wb ++ rest) = Some l.
Proof.
  intros c ns ss wb T x rest CO N253 NSS DW BW BR W ZW WE ZD ZT0 ZT LD LT.
  pose proof (decode_window_complete c ns ss strict wb T rest CO N253 NSS DW BW BR (window_reads_window _ _ _ _ _ _ W) eq_refl ZW WE ZD ZT0 ZT LD LT) as DC.
  inversion W as [ind sb seg bd dl bt di bnd nd bni ni bna na bcks items body hist T1 x1 BI SG VD VT BDI DI VND VNI VNA CF LA DL IM EW ET EX].
  subst T1 x1.
  assert (zlen body = nd + ni + na) as ZB.
  { destruct LA as [(I1 & I2 & I3)|(I1 & I2 & I3 & I4 & I5)].
    - destruct I1 as (_ & -> & ->). destruct I3 as [-> |[I3 _]]; [lia|discriminate].
    - rewrite I5, !zlen_app. lia. }
  pose proof (varint_nonneg _ _ VND). pose proof (varint_nonneg _ _ VNI). pose proof (varint_nonneg _ _ VNA).
  assert (dl <= zlen wb) as DLW.
  { rewrite <- EW, DL. rewrite !zlen_app. pose proof (zlen_nonneg _ [ind]). pose proof (zlen_nonneg _ sb). pose proof (zlen_nonneg _ bd). lia. }
  assert (0 <= dl) as DL0 by (eapply varint_nonneg; eauto).
  assert (nd <= int32_max /\ ni <= int32_max /\ na <= int32_max) as (L1 & L2 & L3).
  { pose proof (zlen_nonneg _ (bt ++ [di] ++ bnd ++ bni ++ bna ++ bcks)). lia. }
  set (has := allow_extensions c && Z.testbit ind 2).
  set (cks := if has then adler_sum 0 T else 0).
  assert (CK : if has then varint bcks cks /\ cks <= 4294967295 else bcks = [] /\ cks = 0).
  { unfold checksum_field in CF. cbn [fmt f_ext] in CF. fold has in CF. unfold cks. destruct has; [|auto].
    split; [exact CF|]. pose proof (adler_sum_range 0 T). lia. }
  destruct (header_complete c ns ss ind sb seg bd dl bt (zlen T) di bnd nd bni ni bna na bcks cks (body ++ rest))
    as (kind & pos & KO & SLM & HF); auto; try lia.
  assert (wb ++ rest = [ind] ++ sb ++ bd ++ bt ++ [di] ++ bnd ++ bni ++ bna ++ bcks ++ body ++ rest) as EWR.
  { rewrite <- EW, <- !app_assoc. reflexivity. }
  unfold window_trace. rewrite EW. unfold decode_window in DC. rewrite DW in DC. rewrite read_header_eq in *.
  rewrite EWR in *. rewrite HF in *. clear HF. fold has in DC. fold has. cbn [bind] in *.
  set (fd := (kind, zlen seg, pos, zlen T, nd, ni, na, cks, has)) in *.
  assert (bytes_ok body) as BB.
  { rewrite <- EW in BW. repeat (apply bytes_ok_app in BW as [_ BW]). exact BW. }
  assert (HR : header_rel c ns ss fd ([ind] ++ sb ++ bd ++ bt ++ [di] ++ bnd ++ bni ++ bna ++ bcks) seg).
  { exists ind, sb, bd, dl, bt, di, bnd, bni, bna, bcks.
    split; [reflexivity|]. split; [exact BI|]. split; [exact SG|]. split; [exact KO|]. split; [exact SLM|].
    split; [exact VD|]. split; [lia|]. split; [exact VT|]. split; [lia|]. split; [exact WE|]. split; [exact BDI|]. split; [exact DI|].
    split; [exact VND|]. split; [lia|]. split; [exact VNI|]. split; [lia|]. split; [exact VNA|]. split; [lia|].
    split; [reflexivity|]. split; [exact CK|]. exact DL. }
  pose proof (interleaved_iff c ns ss fd) as II. unfold fd in II. cbv iota beta in II. fold fd in II.
  assert (zlen (body ++ rest) <? fields_total fd = false) as SHORT.
  { cbn [fd fields_total]. rewrite zlen_app. pose proof (zlen_nonneg _ rest). lia. }
  rewrite SHORT, andb_false_r in *. rewrite (co_sizes _ _ _ CO) in *.
  destruct (cache_init ns ss) as [ca|] eqn:CI; [|discriminate]. cbv zeta in *.
  destruct (cache_init_like ns ss ca (co_ns _ _ _ CO) (co_ss _ _ _ CO) CI) as (CR & NS & SS).
  set (w := fields_window c fd ca) in *.
  pose proof (co_table _ _ _ CO) as TO. pose proof (co_win _ _ _ CO) as CW. rewrite DW in CW.
  assert (w_len w = zlen T) as WL by reflexivity.
  assert (w_seglen w = zlen seg) as WS by reflexivity.
  assert (zlen seg + zlen T <= int32_max + 1) as SB.
  { destruct KO as [_ KK]. destruct kind.
    - rewrite KK. pose proof (zlen_nonneg _ (d_dict c)). lia.
    - apply slice_inv in KK. lia.
    - apply slice_inv in KK. lia. }
  assert (RUN : forall st0 total avail after, b_target st0 = d_target c -> b_pending st0 = None -> b_cache st0 = ca ->
     binv (d_dict c) (d_table c) w (d_target c) seg st0 [] [] -> sec st0 = items_sec (b_il st0) items ->
     (exists r, finish_window c total w st0 avail after = XOk r) ->
     body_trace (body_fuel st0) (d_dict c) (d_table c) w (d_start c) st0 = Some x).
  { intros st0 total avail after TG PN CA BV SE (r & FW). rewrite CW in *.
    assert (w_seglen w + w_len w <= int32_max + 1) as SB' by (rewrite WL, WS; exact SB).
    assert (sec st0 = app3 ([], [], []) (app3 (items_sec (b_il st0) items) nil3)) as SE0.
    { rewrite app3_nil_r, SE. symmetry. apply app3_nil_l. }
    assert (near_size (b_cache st0) = ns) as NS0 by (rewrite CA; exact NS).
    assert (same_size (b_cache st0) = ss) as SS0 by (rewrite CA; exact SS).
    destruct (body_trace_complete (d_dict c) (d_table c) w (d_target c) seg ns ss items ([], []) (hist, T) x IM eq_refl SB'
      [] st0 nil3 (Forall_nil _) (or_introl eq_refl) BV PN NS0 N253 SS0 SE0) as (fuel & RL).
    unfold finish_window, decode_body in FW. rewrite CW in FW.
    destruct (body_loop (body_fuel st0) (d_dict c) (d_table c) w (zlen (d_target c)) st0) as [st'|st'| | |] eqn:BL; try discriminate.
    - exact (body_trace_fuel _ _ _ _ _ _ _ _ _ RL BL).
    - destruct (_ && _) in FW; discriminate. }
  destruct (fields_il c fd) eqn:IL.
  - assert (interleaved (fmt c ns ss) nd na) as IT by tauto.
    destruct LA as [(I1 & I2 & I3)|(I1 & _)]; [|tauto].
    assert (ni = zlen body) as NI by (destruct I3 as [-> |[I3 _]]; [lia|discriminate]).
    assert (w_expected w = ni) as EX. { cbn [w fields_window fd w_expected]. fold fd. rewrite IL. reflexivity. }
    eapply RUN; [..|eexists; exact DC]; try reflexivity.
    { unfold il_state. eapply binv_init; eauto; try constructor. apply bytes_ok_ztake. apply bytes_ok_app. auto. }
    { unfold sec. cbn [il_state b_inst b_data b_addr b_il items_sec]. rewrite EX, NI, ztake_app_eq by reflexivity. rewrite I2. reflexivity. }
  - assert (~ interleaved (fmt c ns ss) nd na) as IT by (intros X; apply II in X; discriminate).
    destruct LA as [(I1 & _)|(I1 & I2 & I3 & I4 & I5)]; [tauto|].
    eapply RUN; [..|eexists; exact DC]; try reflexivity.
    { cbn [std_state fd]. eapply binv_init; eauto; try (intros; discriminate); repeat first [apply bytes_ok_ztake | apply bytes_ok_zdrop]; apply bytes_ok_app; auto. }
    { unfold sec. cbn [std_state fd b_inst b_data b_addr b_il items_sec]. rewrite I5. rewrite <- !app_assoc. f_equal; [f_equal|].
      - rewrite zdrop_app_eq by auto. apply ztake_app_eq. auto.
      - apply ztake_app_eq. auto.
      - set (D := concat (map item_data items)) in *. set (J := concat (map item_inst items)) in *.
        rewrite (app_assoc D J). rewrite zdrop_app_eq by (rewrite zlen_app; lia). apply ztake_app_eq. auto. }
Qed.
