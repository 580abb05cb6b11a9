(** Files longer than 2^31 bytes: every window that fits the C++ integers is
    decoded, whatever the windows before it add up to; a window that refers to the
    earlier target (VCD_TARGET) does so within the first 2^31 bytes. *)

From Verif Require Import Base Spec SpecLong Varint VarintFacts AddrCache AddrCacheFacts CodeTable CodeTableFacts
  InstructionMap DecodeTable HeaderParser Adler AdlerFacts Decoder CopyFacts BodyFacts BodyExt WindowExt
  WindowHeader WindowStep WindowFacts Refine Totals Abstract FileHeader Chunk Sim Stream Session Reuse Usable Sound Complete Files.
From Coq Require Import ZifyBool ZifyNat.

Lemma segment_any : forall f dict prev ind sb seg, segment (no_target f) dict prev ind sb seg -> segment f dict prev ind sb seg.
Proof. intros f dict prev ind sb seg H. inversion H; subst; [constructor 1|econstructor 2|discriminate]; eauto. Qed.

Lemma windows_each_prefix : forall t tl f dict ok prev ws out, windows_each t tl f dict ok prev ws out -> exists m, out = prev ++ m.
Proof.
  intros t tl f dict ok prev ws out H. induction H as [prev|prev w T rest out W K H [m ->]].
  - exists []. rewrite app_nil_r. reflexivity.
  - exists (T ++ m). rewrite app_assoc. reflexivity.
Qed.

Lemma header_long : forall c ns ss ind sb seg bd dl bt tl di bnd nd bni ni bna na bcks cks l,
  zlen (d_dict c) <= int32_max ->
  segment (fmt c ns ss) (d_dict c) (d_target c) ind sb seg ->
  (forall b1 len b2 pos, sb = b1 ++ b2 -> Z.testbit ind 1 = true -> varint b1 len -> varint b2 pos ->
     len <= int32_max /\ pos <= int32_max /\ len + tl <= int32_max + 1) ->
  varint bd dl -> dl <= int32_max ->
  varint bt tl -> tl <= int32_max -> would_exceed c tl = false ->
  Z.land di 7 = 0 ->
  varint bnd nd -> nd <= int32_max -> varint bni ni -> ni <= int32_max -> varint bna na -> na <= int32_max ->
  (if allow_extensions c && Z.testbit ind 2 then varint bcks cks /\ cks <= 4294967295 else bcks = [] /\ cks = 0) ->
  dl = zlen (bt ++ [di] ++ bnd ++ bni ++ bna ++ bcks) + nd + ni + na ->
  exists kind pos, (kind = SegTarget -> zlen seg + tl <= int32_max + 1) /\ kind_ok (d_dict c) (d_target c) seg kind pos (zlen seg) /\ zlen seg <= int32_max /\
    header_fields c ([ind] ++ sb ++ bd ++ bt ++ [di] ++ bnd ++ bni ++ bna ++ bcks ++ l) =
    Ok (kind, zlen seg, pos, tl, nd, ni, na, cks, allow_extensions c && Z.testbit ind 2, l).
Proof.
  intros c ns ss ind sb seg bd dl bt tl di bnd nd bni ni bna na bcks cks l
    DB SG LOW VD LD VT LT WE DI VND LND VNI LNI VNA LNA CK DL.
  assert (exists kind pos, (kind = SegTarget -> zlen seg + tl <= int32_max + 1) /\ kind_ok (d_dict c) (d_target c) seg kind pos (zlen seg) /\ zlen seg <= int32_max /\
    forall r, parse_win_indicator (zlen (d_dict c)) (zlen (d_target c)) (d_allow c) ([ind] ++ sb ++ r) =
    Ok (ind, kind, zlen seg, pos, r)) as (kind & pos & KN & KO & SL & PW).
  { unfold parse_win_indicator. inversion SG as [T0 T1 E1 E2|b1 b2 len pos s T0 T1 V1 V2 S E1 E2|b1 b2 len pos s T0 T1 FT V1 V2 S E1 E2]; subst.
    - exists SegNone, 0. split; [discriminate|]. split; [split; reflexivity|]. split; [rewrite zlen_nil; unfold int32_max; lia|].
      intros r. cbn [app parse_byte bind]. rewrite T0, T1. reflexivity.
    - pose proof (slice_inv _ _ _ _ _ S) as (P0 & L0 & LE & _ & ZL). exists SegDict, pos. split; [discriminate|].
      split; [split; [reflexivity|rewrite ZL; exact S]|]. split; [lia|].
      intros r. cbn [app parse_byte bind]. rewrite T0, T1, <- app_assoc.
      rewrite (parse_source_segment_ok _ b1 b2 len pos) by (auto; lia). cbn [bind]. rewrite ZL. reflexivity.
    - pose proof (slice_inv _ _ _ _ _ S) as (P0 & L0 & LE & _ & ZL). exists SegTarget, pos.
      destruct (LOW b1 len b2 pos eq_refl T1 V1 V2) as (W1 & W2 & W3). split; [intros _; lia|].
      split; [split; [reflexivity|rewrite ZL; exact S]|]. split; [lia|].
      intros r. cbn [app parse_byte bind]. cbn [fmt f_target] in FT. rewrite T0, T1, FT, <- app_assoc. cbn [negb].
      rewrite (parse_source_segment_ok _ b1 b2 len pos) by (auto; lia). cbn [bind]. rewrite ZL. reflexivity. }
  exists kind, pos. split; [exact KN|]. split; [exact KO|]. split; [exact SL|].
  unfold header_fields. rewrite PW. cbn [bind].
  rewrite (parse_size_ok bd dl) by auto. cbn [bind].
  rewrite (parse_size_ok bt tl) by auto. cbn [bind]. rewrite WE.
  unfold parse_delta_indicator. cbn [app parse_byte bind]. rewrite DI. cbn [Z.eqb bind].
  unfold parse_section_lengths.
  rewrite (parse_size_ok bnd nd) by auto. cbn [bind].
  rewrite (parse_size_ok bni ni) by auto. cbn [bind].
  rewrite (parse_size_ok bna na) by auto. cbn [bind].
  destruct (allow_extensions c && Z.testbit ind 2).
  - destruct CK as [CK1 CK2]. rewrite (parse_checksum_ok bcks cks) by auto. cbn [bind].
    destruct (Z.eqb_spec dl (zlen (bt ++ di :: bnd ++ bni ++ bna ++ bcks ++ l) - zlen l + nd + ni + na)) as [_|N]; [reflexivity|].
    exfalso. apply N. rewrite DL. rewrite !zlen_app, !zlen_cons, !zlen_app, !zlen_nil. lia.
  - destruct CK as [-> ->]. cbn [bind app].
    destruct (Z.eqb_spec dl (zlen (bt ++ di :: bnd ++ bni ++ bna ++ l) - zlen l + nd + ni + na)) as [_|N]; [reflexivity|].
    exfalso. apply N. rewrite DL. rewrite !zlen_app, !zlen_cons, !zlen_app, !zlen_nil. lia.
Qed.

Lemma decode_window_long : forall c ns ss t wb T rest,
  core_ok ns ss c -> ns <= 253 -> ns + ss <= 254 -> d_win c = None -> bytes_ok wb -> bytes_ok rest ->
  Spec.window t (fmt c ns ss) (d_dict c) (d_target c) wb T -> t_slack t = false -> target_segment_low wb T ->
  zlen wb <= int32_max -> would_exceed c (zlen T) = false ->
  zlen (d_dict c) <= int32_max -> zlen T <= int32_max ->
  zlen (d_dict c) + zlen T <= int32_max + 1 ->
  decode_window c (wb ++ rest) =
    XOk (set_win c None (zlen (d_target c ++ T)) (d_target c ++ T) (to_size (d_total c + zlen T)), rest).
Proof.
  intros c ns ss t wb T rest CO N253 NSS DW BW BR W SL LOW ZW WE ZD ZT LD.
  inversion W as [ind sb seg bd dl bt di bnd nd bni ni bna na bcks items body hist T1 BI SG VD VT BDI DI VND VNI VNA CF LA DL IM EW ET].
  subst T1.
  assert (zlen body = nd + ni + na) as ZB.
  { destruct LA as [(I1 & I2 & I3)|(I1 & I2 & I3 & I4 & I5)].
    - destruct I1 as (_ & -> & ->). destruct I3 as [->|[I3 _]]; [lia|congruence].
    - rewrite I5, !zlen_app. lia. }
  pose proof (varint_nonneg _ _ VND). pose proof (varint_nonneg _ _ VNI). pose proof (varint_nonneg _ _ VNA).
  assert (dl <= zlen wb) as DLW.
  { rewrite <- EW, DL. rewrite !zlen_app. pose proof (zlen_nonneg _ [ind]). pose proof (zlen_nonneg _ sb). pose proof (zlen_nonneg _ bd). lia. }
  assert (0 <= dl) as DL0 by (eapply varint_nonneg; eauto).
  assert (nd <= int32_max /\ ni <= int32_max /\ na <= int32_max) as (L1 & L2 & L3).
  { pose proof (zlen_nonneg _ (bt ++ [di] ++ bnd ++ bni ++ bna ++ bcks)). lia. }
  set (has := allow_extensions c && Z.testbit ind 2).
  set (cks := if has then adler_sum 0 T else 0).
  assert (CK : if has then varint bcks cks /\ cks <= 4294967295 else bcks = [] /\ cks = 0).
  { unfold checksum_field in CF. cbn [fmt f_ext] in CF. fold has in CF. unfold cks. destruct has; [|auto].
    split; [exact CF|]. pose proof (adler_sum_range 0 T). lia. }
  destruct (header_long c ns ss ind sb seg bd dl bt (zlen T) di bnd nd bni ni bna na bcks cks (body ++ rest))
    as (kind & pos & KN & KO & SLM & HF); auto; try lia.
  { intros b1 len b2 p EB. apply (LOW ind b1 len b2 p (bd ++ bt ++ [di] ++ bnd ++ bni ++ bna ++ bcks ++ body)). rewrite <- EW, EB, <- app_assoc. reflexivity. }
  assert (wb ++ rest = [ind] ++ sb ++ bd ++ bt ++ [di] ++ bnd ++ bni ++ bna ++ bcks ++ body ++ rest) as EWR.
  { rewrite <- EW, <- !app_assoc. reflexivity. }
  rewrite EW, EWR. rewrite (decode_window_none c ns ss) by (auto; apply CO). rewrite HF. clear HF. fold has.
  set (fd := (kind, zlen seg, pos, zlen T, nd, ni, na, cks, has)).
  assert (bytes_ok body) as BB.
  { rewrite <- EW in BW. repeat (apply bytes_ok_app in BW as [_ BW]). exact BW. }
  assert (HR : header_rel c ns ss fd ([ind] ++ sb ++ bd ++ bt ++ [di] ++ bnd ++ bni ++ bna ++ bcks) seg).
  { exists ind, sb, bd, dl, bt, di, bnd, bni, bna, bcks. 
    split; [reflexivity|]. split; [exact BI|]. split; [exact SG|]. split; [exact KO|]. split; [exact SLM|].
    split; [exact VD|]. split; [lia|]. split; [exact VT|]. split; [lia|]. split; [exact WE|]. split; [exact BDI|]. split; [exact DI|].
    split; [exact VND|]. split; [lia|]. split; [exact VNI|]. split; [lia|]. split; [exact VNA|]. split; [lia|].
    split; [reflexivity|]. split; [exact CK|]. exact DL. }
  pose proof (interleaved_iff c ns ss fd) as II. unfold fd in II. cbv iota beta in II. fold fd in II.
  assert (zlen (body ++ rest) <? fields_total fd = false) as SHORT.
  { cbn [fd fields_total]. rewrite zlen_app. pose proof (zlen_nonneg _ rest). lia. }
  rewrite SHORT, andb_false_r.
  destruct (cache_init_some ns ss) as [ca CI]; [apply CO|apply CO|exact NSS|]. rewrite CI. cbv zeta.
  destruct (cache_init_like ns ss ca (co_ns _ _ _ CO) (co_ss _ _ _ CO) CI) as (CR & NS & SS).
  set (w := fields_window c fd ca) in *.
  pose proof (co_table _ _ _ CO) as TO. pose proof (co_win _ _ _ CO) as CW. rewrite DW in CW.
  assert (w_len w = zlen T) as WL by reflexivity.
  assert (w_seglen w = zlen seg) as WS by reflexivity.
  assert (BT : bytes_ok T -> w_has_cks w = true -> compute_adler32 T = w_cks w).
  { intros BT HC. cbn [w fd fields_window w_has_cks w_cks] in *. unfold cks. rewrite HC. apply compute_adler32_ok. exact BT. }
  assert (zlen seg + zlen T <= int32_max + 1) as SB.
  { destruct KO as [_ KK]. destruct kind.
    - rewrite KK. pose proof (zlen_nonneg _ (d_dict c)). lia.
    - apply slice_inv in KK. lia.
    - apply KN. reflexivity. }
  (* running the loop on any state that contains exactly the sections *)
  assert (RUN : forall st0, b_target st0 = d_target c -> b_pending st0 = None -> b_cache st0 = ca ->
     binv (d_dict c) (d_table c) w (d_target c) seg st0 [] [] -> sec st0 = items_sec (b_il st0) items ->
     exists st', body_loop (body_fuel st0) (d_dict c) (d_table c) w (d_start c) st0 = XOk st' /\ 
       b_target st' = d_target c ++ T /\ b_inst st' = [] /\ b_data st' = [] /\ b_addr st' = [] /\ b_il st' = b_il st0 /\
       end_ok w (d_start c) st' = true).
  { intros st0 TG PN CA BV SE. rewrite CW.
    assert (w_seglen w + w_len w <= int32_max + 1) as SB' by (rewrite WL, WS; exact SB).
    assert (sec st0 = app3 ([], [], []) (app3 (items_sec (b_il st0) items) nil3)) as SE0.
    { rewrite app3_nil_r, SE. symmetry. apply app3_nil_l. }
    assert (near_size (b_cache st0) = ns) as NS0 by (rewrite CA; exact NS).
    assert (same_size (b_cache st0) = ss) as SS0 by (rewrite CA; exact SS).
    destruct (body_loop_complete (d_dict c) (d_table c) w (d_target c) seg (t_drop t) ns ss items ([], []) (hist, T) IM eq_refl SB'
      [] st0 nil3 (Forall_nil _) (or_introl eq_refl) BV PN NS0 N253 SS0 SE0) as (fuel & st' & RL & SE' & BV' & IL' & _ & _).
    assert (body_loop (body_fuel st0) (d_dict c) (d_table c) w (zlen (d_target c)) st0 = XOk st') as RL'.
    { eapply body_loop_fuel; eauto; discriminate. }
    exists st'. rewrite RL'. split; [reflexivity|].
    pose proof (bi_target _ _ _ _ _ _ _ _ BV') as TG'. cbn [snd] in TG'. split; [exact TG'|].
    unfold sec, nil3 in SE'. injection SE' as S1 S2 S3. split; [exact S1|]. split; [exact S2|]. split; [exact S3|]. split; [exact IL'|].
    unfold end_ok. rewrite TG', zlen_app. rewrite zdrop_app_eq by reflexivity.
    replace (zlen (d_target c) + zlen T - zlen (d_target c)) with (zlen T) by lia. rewrite WL, Z.eqb_refl. cbn [andb].
    destruct (w_has_cks w) eqn:HC; [|reflexivity]. cbn [negb orb]. apply Z.eqb_eq. apply BT; auto.
    assert (bytes_ok (b_target st')) as BB'.
    { pose proof (body_loop_bytes (body_fuel st0) _ _ _ _ _ _ _ _ TO BV (co_dict _ _ _ CO)) as X.
      rewrite RL' in X. apply X. rewrite TG. apply CO. }
    rewrite TG' in BB'. apply bytes_ok_app in BB'. tauto. }
  assert (FT : fields_total fd = zlen body) by (cbn [fd fields_total]; lia).
  destruct (fields_il c fd) eqn:IL.
  - assert (interleaved (fmt c ns ss) nd na) as IT by tauto.
    destruct LA as [(I1 & I2 & I3)|(I1 & _)]; [|tauto].
    assert (ni = zlen body) as NI by (destruct I3 as [->|[I3 _]]; [lia|congruence]).
    assert (w_expected w = ni) as EX. { cbn [w fields_window fd w_expected]. fold fd. rewrite IL. reflexivity. }
    rewrite finish_il_eq. unfold loop.
    assert (il_state w (d_target c) (body ++ rest) = {| b_il := true; b_inst := body; b_data := []; b_addr := [];
           b_pending := None; b_cache := ca; b_target := d_target c |}) as IS.
    { unfold il_state. rewrite EX, NI. rewrite ztake_app_eq by reflexivity. reflexivity. }
    rewrite IS. destruct (RUN {| b_il := true; b_inst := body; b_data := []; b_addr := [];
           b_pending := None; b_cache := ca; b_target := d_target c |}) as (st' & RL & TG & N1 & N2 & N3 & IL' & EO); auto.
    { eapply binv_init; eauto; constructor. }
    { cbn. rewrite I2. reflexivity. }
    rewrite RL, EO, N1, IL'. cbn [nonempty negb andb b_il]. rewrite TG.
    rewrite EX, NI. rewrite ztake_app_eq by reflexivity. rewrite zdrop_app_eq by reflexivity. reflexivity.
  - assert (~ interleaved (fmt c ns ss) nd na) as IT by (intros X; apply II in X; discriminate).
    destruct LA as [(I1 & _)|(I1 & I2 & I3 & I4 & I5)]; [tauto|].
    set (D := concat (map item_data items)) in *. set (J := concat (map item_inst items)) in *. set (A := concat (map item_addr items)) in *.
    assert (std_state fd ca (d_target c) (body ++ rest) = {| b_il := false; b_inst := J; b_data := D; b_addr := A;
           b_pending := None; b_cache := ca; b_target := d_target c |}) as IS.
    { cbn [std_state fd]. rewrite I5. rewrite <- !app_assoc. f_equal.
      - rewrite zdrop_app_eq by auto. apply ztake_app_eq. auto.
      - apply ztake_app_eq. auto.
      - rewrite (app_assoc D J). rewrite zdrop_app_eq by (rewrite zlen_app; lia). apply ztake_app_eq. auto. }
    assert (bytes_ok D /\ bytes_ok J /\ bytes_ok A) as (BD & BJ & BA).
    { rewrite I5 in BB. apply bytes_ok_app in BB as [X BB]. apply bytes_ok_app in BB. tauto. }
    unfold finish_window, decode_body. rewrite IS.
    destruct (RUN {| b_il := false; b_inst := J; b_data := D; b_addr := A;
           b_pending := None; b_cache := ca; b_target := d_target c |}) as (st' & RL & TG & N1 & N2 & N3 & IL' & EO); auto.
    { eapply binv_init; eauto. discriminate. }
    rewrite RL. unfold end_ok in EO. apply andb_true_iff in EO as [EO1 EO2]. rewrite EO1. cbn [negb].
    replace (w_has_cks w && negb (compute_adler32 (zdrop (d_start c) (b_target st')) =? w_cks w)) with false.
    2:{ destruct (w_has_cks w); cbn in *; [|reflexivity]. rewrite EO2. reflexivity. }
    rewrite N1, N2, N3, IL'. cbn [nonempty b_il negb andb orb]. rewrite TG. rewrite FT.
    rewrite zdrop_app_eq by reflexivity. reflexivity.
Qed.

Lemma arun_long : forall t tl f dict ok prev ws out, windows_each t tl f dict ok prev ws out ->
  forall ns ss k u, t_slack t = false -> t_slack tl = false -> f = fmt k ns ss -> dict = d_dict k -> (forall p w T, ok p w T -> window_sized (d_dict k) (limits k) p w T /\ target_segment_low w T) -> prev = d_target k ->
  core_ok ns ss k -> modes_fit ns ss ws -> (ws <> [] -> ns <= 253) -> d_win k = None -> tot_inv k -> lim_inv k ->
  bytes_ok ws -> bytes_ok u ->
  zlen (d_dict k) <= int32_max ->
  (has_planned k = true -> zlen out = d_planned k /\ (ws = [] -> u = [])) -> (has_planned k = false -> u = []) ->
  arun k (ws ++ u) (XOk (at_target k out, u)).
Proof.
  induction 1 as [prev|prev w T rest out W K H IH]; intros ns ss k u SL SL' -> -> OK -> CO MF N253 WN TI LI BW BU ZD PL UP.
  - assert (u = []) as -> by (destruct (has_planned k); [apply PL; auto|auto]).
    replace (at_target k (d_target k)) with k; [constructor|]. unfold at_target.
    destruct TI as [_ TI]. rewrite WN in TI. destruct TI as [T1 T2]. rewrite <- T1 at 2. rewrite <- T2, <- WN. symmetry. apply set_win_same.
  - pose proof (window_nonempty _ _ _ _ _ _ W) as WNE.
    assert (ns + ss <= 254) as NSS by (destruct MF as [MF|MF]; [apply app_eq_nil in MF; tauto|lia]).
    assert (ns <= 253) as NS1 by (apply N253; destruct w; [congruence|discriminate]).
    apply bytes_ok_app in BW as [BW BR]. destruct (windows_each_prefix _ _ _ _ _ _ _ _ H) as [m EM].
    pose proof (zlen_nonneg _ w). pose proof (zlen_nonneg _ rest). pose proof (zlen_nonneg _ T). pose proof (zlen_nonneg _ m).
    assert (zlen out = zlen (d_target k) + zlen T + zlen m) as ZE by (rewrite EM, !zlen_app; lia).
    pose proof (zlen_nonneg _ (d_target k)). pose proof (zlen_nonneg _ (d_dict k)).
    destruct TI as [T0 TI]. rewrite WN in TI. destruct TI as [T1 T2]. destruct (OK _ _ _ K) as ((([K1 K2] & K3) & ZW & ZT & ZS) & LOW).
    assert (would_exceed k (zlen T) = false) as WE.
    { apply would_exceed_true; auto; lia. }
    assert (decode_window k (w ++ rest ++ u) =
      XOk (set_win k None (zlen (d_target k ++ T)) (d_target k ++ T) (to_size (d_total k + zlen T)), rest ++ u)) as DW.
    { refine (decode_window_long k ns ss _ w T (rest ++ u) CO NS1 NSS WN BW _ W _ LOW ZW WE ZD ZT ZS).
      - apply bytes_ok_app. auto.
      - destruct rest; auto. }
    rewrite to_size_id in DW by (destruct LI as (L1 & L2 & L3 & _); unfold size_max in *; lia).
    rewrite T1, <- zlen_app in DW.
    set (k1 := set_win k None (zlen (d_target k ++ T)) (d_target k ++ T) (zlen (d_target k ++ T))) in *.
    assert (bytes_ok (w ++ rest ++ u)) as BALL by (repeat (apply bytes_ok_app; split); auto).
    pose proof (decode_window_step k ns ss _ [] CO BALL ltac:(constructor)) as ST. rewrite DW in ST.
    destruct ST as (CO' & CS & WN' & _).
    assert (tot_inv k) as TIK by (split; [exact T0|]; rewrite WN; auto).
    pose proof (decode_window_len ns ss k _ CO BALL TIK LI) as DL. rewrite DW in DL. destruct DL as (TI' & LI' & _).
    rewrite <- app_assoc.
    assert (w ++ rest ++ u <> []) as NE by (destruct w; [congruence|discriminate]).
    destruct (reached_planned k1) eqn:RP.
    + assert (has_planned k = true) as HP by (unfold reached_planned in RP; destruct (has_planned k) eqn:X; [reflexivity|]; change (has_planned k1) with (has_planned k) in RP; rewrite X in RP; discriminate).
      assert (rest = [] /\ out = d_target k ++ T) as [-> ->].
      { inversion H as [? E1 E2 E3|? w2 T2' rest2 out2 W2 K2' HH2]; subst; [auto|exfalso].
        destruct (OK _ _ _ K2') as (([_ K3'] & _) & _). rename K3' into K2''. destruct (K2'' HP) as [K2a _]. unfold reached_planned in RP. change (has_planned k1) with (has_planned k) in RP.
        rewrite HP in RP. cbn in RP. lia. }
      apply run_stop; auto.
    + eapply run_step; [exact NE|exact DW|exact RP|].
      replace (at_target k out) with (at_target k1 out) by reflexivity.
      apply (IH ns ss k1 u); auto.
      * destruct MF as [MF|MF]; [apply app_eq_nil in MF; tauto|right; lia].
      * intros HP. destruct (PL HP) as [P1 P2]. split; [exact P1|]. intros ->. exfalso.
        inversion H as [? E1 E2 E3|? w2 T2' rest2 out2 W2 K2' HH2 E1 E2 E3].
        -- rewrite <- E3 in P1. unfold reached_planned in RP. rewrite HP in RP. cbn [andb] in RP. change (d_planned k1) with (d_planned k) in *. change (d_total k1) with (zlen (d_target k ++ T)) in RP. lia.
        -- pose proof (window_nonempty _ _ _ _ _ _ W2). apply app_eq_nil in E2. tauto.
Qed.

Lemma windows_each_ext : forall t tl f f' dict ok prev ws out, same_format f f' ->
  windows_each t tl f dict ok prev ws out -> windows_each t tl f' dict ok prev ws out.
Proof.
  intros t tl f f' dict ok prev ws out SF H. induction H as [prev|prev w T rest out W K H IH]; [constructor|].
  apply we_cons with (T := T); auto. eapply window_ext; eauto.
Qed.

Lemma windows_each_weaken : forall t tl f dict (ok ok' : list Z -> list Z -> list Z -> Prop) prev ws out,
  (forall p w T, ok p w T -> ok' p w T) -> windows_each t tl f dict ok prev ws out -> windows_each t tl f dict ok' prev ws out.
Proof.
  intros t tl f dict ok ok' prev ws out OK H. induction H as [prev|prev w T rest out W K H IH]; [constructor|].
  apply we_cons with (T := T); auto.
Qed.

(** The file before the windows may also be followed by more than 2^31 bytes. *)
Lemma acr_complete_rest : forall t tl h v tbl ns ss, head t tl h v tbl ns ss -> t_slack t = false -> t_slack tl = false ->
  forall tw twl k ws u out, t_slack tw = false -> t_slack twl = false -> base_ok k -> d_sizes k = None -> d_table k = default_table -> modes_fit ns ss ws ->
  windows tw twl (file_format v tbl ns ss (d_allow k)) (d_dict k) (limits k) [] ws out ->
  bytes_ok (h ++ ws ++ u) -> ~ bad_cache (h ++ ws ++ u) -> zlen h <= int32_max -> zlen ws <= int32_max ->
  zlen (d_dict k) <= int32_max -> zlen out <= int32_max -> zlen (d_dict k) + zlen out <= int32_max + 1 ->
  (has_planned k = true -> zlen out = d_planned k /\ (ws = [] -> u = [])) -> (has_planned k = false -> u = []) ->
  exists a', acr (ADec k [] None) (h ++ ws ++ u) (AOk a') /\ d_target (acore a') = out /\ acomplete a' = true /\ arest a' = u.
Proof.
  assert (forall k ns ss ws u out t tl tbl, base_ok k -> d_sizes k = Some (ns, ss) -> sizes_ok ns ss -> t_slack t = false -> t_slack tl = false ->
    same_table tbl (entry (d_table k)) -> modes_fit ns ss ws -> (ws <> [] -> ns <= 253) ->
    windows t tl (file_format (d_version k) tbl ns ss (d_allow k)) (d_dict k) (limits k) [] ws out ->
    bytes_ok ws -> bytes_ok u -> zlen ws <= int32_max ->
    zlen (d_dict k) <= int32_max -> zlen out <= int32_max -> zlen (d_dict k) + zlen out <= int32_max + 1 ->
    (has_planned k = true -> zlen out = d_planned k /\ (ws = [] -> u = [])) -> (has_planned k = false -> u = []) ->
    exists r, arun k (ws ++ u) r /\ collapse r = AOk (ADec (at_target k out) u None) /\ acomplete (ADec (at_target k out) u None) = true) as RUN.
  { intros k ns ss ws u out t tl tbl BO S SO SL SL' ST MF N253 WS BW BU ZW ZD ZO ZS PL UP.
    destruct (base_core k ns ss BO S SO) as (CO & TI & LI & NS).
    exists (XOk (at_target k out, u)). split; [|split; [reflexivity|]].
    - eapply (arun_windows t tl (fmt k ns ss) (d_dict k) (limits k) [] ws out); eauto; [|symmetry; apply BO|apply BO].
      refine (windows_ext _ _ _ _ _ _ _ _ _ (tle_refl _) (tle_refl _) _ (fun _ _ X => X) _ _ _ WS).
      unfold same_format, fmt, file_format, allow_extensions. cbn. auto.
    - cbn. rewrite S. destruct (has_planned k) eqn:HP.
      + destruct (PL eq_refl) as [E _]. unfold reached_planned. change (has_planned (at_target k out)) with (has_planned k). rewrite HP. cbn.
        destruct (Z.leb_spec (d_planned k) (zlen out)); [reflexivity|lia].
      + rewrite (UP eq_refl). destruct (reached_planned _); reflexivity. }
  induction 1 as [tl v ind V BI I0 I1|tl v ind bn ns bs ss h v' tbl' ns' ss' ws' s tbl V BI I0 I1 VN VS NSL SSL HD IH MF' WS' L UC];
    intros SL SL' tw twl k ws u out SLW SLW' BO S DT MF WS BX NB ZH ZW ZD ZO ZS PL UP.
  - change (file_header v ind ++ ws ++ u) with (hd5 v ind (ws ++ u)) in *.
    assert (aheader k None ([] ++ hd5 v ind (ws ++ u)) = Ok (set_file k v (Some (4, 3)) [] (d_table k), None, ws ++ u)) as AH.
    { cbn [app]. rewrite aheader_hd5 by auto. rewrite I0, I1. reflexivity. }
    destruct (aheader_ok k None _ _ _ _ BX S BO AH) as (BO' & BR & _). apply bytes_ok_app in BR as [BW BU].
    destruct (RUN (set_file k v (Some (4, 3)) [] (d_table k)) 4 3 ws u out tw twl rfc_table) as (r & R & C & A); auto.
    { apply default_sizes_ok. } { cbn. rewrite DT. intros op O. symmetry. apply default_same. exact O. }
    eexists. split; [rewrite <- C; eapply acr_win; eauto|]. split; [reflexivity|]. split; [exact A|reflexivity].
  - pose proof (varint_nonneg _ _ VN). pose proof (varint_nonneg _ _ VS).
    replace ((file_header v ind ++ bn ++ bs ++ h ++ ws') ++ ws ++ u) with (hd5 v ind (bn ++ bs ++ (h ++ ws' ++ ws ++ u))) in *
      by (change (hd5 v ind (bn ++ bs ++ h ++ ws' ++ ws ++ u)) with (file_header v ind ++ bn ++ bs ++ h ++ ws' ++ ws ++ u); rewrite <- !app_assoc; reflexivity).
    assert (~ (ns = 254 /\ ss = 0)) as NB254. { intros [-> ->]. apply NB. apply bad_here; auto. }
    assert (aheader k None ([] ++ hd5 v ind (bn ++ bs ++ h ++ ws' ++ ws ++ u)) = Ok (set_file k v (Some (ns, ss)) [] (d_table k), Some a_table, h ++ ws' ++ ws ++ u)) as AH.
    { cbn [app]. rewrite aheader_hd5 by auto. rewrite I0, I1, (parse_cache_sizes_ok bn bs ns ss) by auto. reflexivity. }
    destruct (aheader_ok k None _ _ _ _ BX S BO AH) as (BO' & BR & _).
    rewrite !zlen_app in ZH. pose proof (zlen_nonneg _ h). pose proof (zlen_nonneg _ ws'). pose proof (zlen_nonneg _ bn). pose proof (zlen_nonneg _ bs).
    pose proof (zlen_nonneg _ (file_header v ind)).
    destruct a_table_fields as (kt & EKT & KS & KB & KT & KAL & KD & KW & KF & KP).
    assert (zlen (d_dict kt) = 1536) as ZDT by (rewrite KD; vm_compute; reflexivity).
    assert (ws' <> []) as WSN. { intros ->. inversion WS' as [? E1 E2 E3|? w2 T2' rest2 out2 W2 K2' HH2 E1 E2 E3]; subst.
      - rewrite zlen_nil in L. discriminate. - pose proof (window_nonempty _ _ _ _ _ _ W2). apply app_eq_nil in E2. tauto. }
    destruct (IH SL SL t tl kt ws' (ws ++ u) s SL SL' KB KS KT MF') as (nd & AC & TG & CP & RS); auto; try (unfold int32_max in *; lia).
    { rewrite KAL, KD. refine (windows_ext _ _ _ _ _ _ _ _ _ (tle_refl _) (tle_refl _) _ _ _ _ _ WS').
      - unfold same_format. repeat split.
      - intros p T (A & B & C). unfold limits. rewrite KW, KF, KP. auto. }
    { intros B. apply NB. eapply bad_nested; eauto. }
    { intros _. rewrite KP. split; [exact L|]. intros. congruence. }
    { intros X. rewrite (planned_1536 kt KP) in X. discriminate. }
    rewrite <- EKT in AC.
    assert (aok a_table /\ ~ stopped (acore a_table)) as [TO TN].
    { split; [apply a_table_ok|]. intros [_ X]. revert X. vm_compute. discriminate. }
    pose proof (acr_ok _ _ _ AC TO TN BR) as (AO & _). apply aok_target_bytes in AO. rewrite TG in AO.
    assert (0 <= (ns + ss + 1) mod 256 <= 255) as MR by lia.
    destruct (use_code_table_usable default_table s _ AO L MR) as (t0 & b & U & CASES).
    assert (same_table tbl (entry t0) /\ table_ok t0) as [ST TOK].
    { destruct CASES as [(_ & UT & ->)|(_ & UT & ->)]; (destruct UC as [[UC ->]|[UC ->]]; [|]); try tauto.
      - split; [intros op O; symmetry; apply entry_of_bytes; exact O|]. apply table_of_bytes_ok; auto.
      - split; [intros op O; symmetry; apply default_same; exact O|]. apply default_table_ok. }
    assert (sizes_ok ns ss) as SO by (unfold sizes_ok; lia).
    apply bytes_ok_app in BR as [_ BR]. apply bytes_ok_app in BR as [_ BR]. apply bytes_ok_app in BR as [BW BU].
    destruct (RUN (set_file (set_file k v (Some (ns, ss)) [] (d_table k)) v (Some (ns, ss)) [] t0) ns ss ws u out tw twl tbl) as (r & R & C & A); auto.
    { apply base_file; auto. } { intros WN. destruct MF as [MF|MF]; [congruence|lia]. }
    eexists. split; [rewrite <- C; eapply acr_table; [exact AH|exact AC|]|].
    + eapply (after_done _ _ nd ns ss t0 b r); auto.
      * rewrite TG. exact L.
      * rewrite TG, last_mode_mod. cbn [set_file d_table]. rewrite DT. exact U.
      * rewrite RS. rewrite (app_assoc h ws'), finish_except_app. exact R.
    + split; [reflexivity|]. split; [exact A|reflexivity].
Qed.

(** Both conditions on a window. *)
Definition sized_low (dict : list Z) (admits : list Z -> list Z -> Prop) (prev w T : list Z) : Prop :=
  window_sized dict admits prev w T /\ target_segment_low w T.

(** A window without VCD_TARGET meets the second. *)
Lemma window_no_target : forall t f g dict prev w T, same_format (no_target f) (no_target g) ->
  Spec.window t (no_target f) dict prev w T -> Spec.window t g dict prev w T /\ target_segment_low w T.
Proof.
  intros t [e1 t1 n1 s1 g1] [e2 t2 n2 s2 g2] dict prev wb T (E1 & E2 & E3 & E4 & _) W. cbn in *. subst e2 n2 s2.
  inversion W as [ind sb seg bd dl bt di bnd nd bni ni bna na bcks items body hist T1 BI SG VD VT BDI DI VND VNI VNA CF LA DL IM EW ET].
  subst. cbn in *. split.
  - eapply window_intro; eauto.
    + inversion SG; subst; [apply seg_none|eapply seg_dict|discriminate]; eauto.
    + cbn. eapply items_mean_ext; eauto.
  - intros i b1 len b2 pos r EQ B1. injection EQ as EI _. subst i. inversion SG; subst; try congruence. discriminate.
Qed.

Lemma windows_each_no_target : forall t tl f g dict ad prev ws out, same_format (no_target f) (no_target g) ->
  windows_each t tl (no_target f) dict (window_sized dict ad) prev ws out -> windows_each t tl g dict (sized_low dict ad) prev ws out.
Proof.
  intros t tl f g dict ad prev ws out SF H. induction H as [prev|prev w T rest out W K H IH]; [constructor|].
  apply window_no_target with (g := g) in W as [W L]; [|exact SF]. apply we_cons with (T := T); auto. split; auto.
Qed.

Lemma acr_long : forall t tl h v tbl ns ss, head t tl h v tbl ns ss -> t_slack t = false -> t_slack tl = false ->
  forall tw twl k ws u out, t_slack tw = false -> t_slack twl = false -> base_ok k -> d_sizes k = None -> d_table k = default_table -> modes_fit ns ss ws ->
  windows_each tw twl (file_format v tbl ns ss (d_allow k)) (d_dict k) (sized_low (d_dict k) (limits k)) [] ws out ->
  bytes_ok (h ++ ws ++ u) -> ~ bad_cache (h ++ ws ++ u) -> zlen h <= int32_max ->
  zlen (d_dict k) <= int32_max ->
  (has_planned k = true -> zlen out = d_planned k /\ (ws = [] -> u = [])) -> (has_planned k = false -> u = []) ->
  exists a', acr (ADec k [] None) (h ++ ws ++ u) (AOk a') /\ d_target (acore a') = out /\ acomplete a' = true /\ arest a' = u.
Proof.
  assert (forall k ns ss ws u out t tl tbl, base_ok k -> d_sizes k = Some (ns, ss) -> sizes_ok ns ss -> t_slack t = false -> t_slack tl = false ->
    same_table tbl (entry (d_table k)) -> modes_fit ns ss ws -> (ws <> [] -> ns <= 253) ->
    windows_each t tl (file_format (d_version k) tbl ns ss (d_allow k)) (d_dict k) (sized_low (d_dict k) (limits k)) [] ws out ->
    bytes_ok ws -> bytes_ok u ->
    zlen (d_dict k) <= int32_max ->
    (has_planned k = true -> zlen out = d_planned k /\ (ws = [] -> u = [])) -> (has_planned k = false -> u = []) ->
    exists r, arun k (ws ++ u) r /\ collapse r = AOk (ADec (at_target k out) u None) /\ acomplete (ADec (at_target k out) u None) = true) as RUN.
  { intros k ns ss ws u out t tl tbl BO S SO SL SL' ST MF N253 WS BW BU ZD PL UP.
    destruct (base_core k ns ss BO S SO) as (CO & TI & LI & NS).
    exists (XOk (at_target k out, u)). split; [|split; [reflexivity|]].
    - eapply (arun_long t tl (fmt k ns ss) (d_dict k) (sized_low (d_dict k) (limits k)) [] ws out); eauto; [|symmetry; apply BO|apply BO].
      refine (windows_each_ext _ _ _ _ _ _ _ _ _ _ WS).
      unfold same_format, fmt, file_format, allow_extensions. cbn. auto.
    - cbn. rewrite S. destruct (has_planned k) eqn:HP.
      + destruct (PL eq_refl) as [E _]. unfold reached_planned. change (has_planned (at_target k out)) with (has_planned k). rewrite HP. cbn.
        destruct (Z.leb_spec (d_planned k) (zlen out)); [reflexivity|lia].
      + rewrite (UP eq_refl). destruct (reached_planned _); reflexivity. }
  intros t tl h0 v0 tbl0 ns0 ss0 HD0. destruct HD0 as [v ind V BI I0 I1|v ind bn ns bs ss h v' tbl' ns' ss' ws' s tbl V BI I0 I1 VN VS NSL SSL HD MF' WS' L UC];
    intros SL SL' tw twl k ws u out SLW SLW' BO S DT MF WS BX NB ZH ZD PL UP.
  - change (file_header v ind ++ ws ++ u) with (hd5 v ind (ws ++ u)) in *.
    assert (aheader k None ([] ++ hd5 v ind (ws ++ u)) = Ok (set_file k v (Some (4, 3)) [] (d_table k), None, ws ++ u)) as AH.
    { cbn [app]. rewrite aheader_hd5 by auto. rewrite I0, I1. reflexivity. }
    destruct (aheader_ok k None _ _ _ _ BX S BO AH) as (BO' & BR & _). apply bytes_ok_app in BR as [BW BU].
    destruct (RUN (set_file k v (Some (4, 3)) [] (d_table k)) 4 3 ws u out tw twl rfc_table) as (r & R & C & A); auto.
    { apply default_sizes_ok. } { cbn. rewrite DT. intros op O. symmetry. apply default_same. exact O. }
    eexists. split; [rewrite <- C; eapply acr_win; eauto|]. split; [reflexivity|]. split; [exact A|reflexivity].
  - pose proof (varint_nonneg _ _ VN). pose proof (varint_nonneg _ _ VS).
    replace ((file_header v ind ++ bn ++ bs ++ h ++ ws') ++ ws ++ u) with (hd5 v ind (bn ++ bs ++ (h ++ ws' ++ ws ++ u))) in *
      by (change (hd5 v ind (bn ++ bs ++ h ++ ws' ++ ws ++ u)) with (file_header v ind ++ bn ++ bs ++ h ++ ws' ++ ws ++ u); rewrite <- !app_assoc; reflexivity).
    assert (~ (ns = 254 /\ ss = 0)) as NB254. { intros [-> ->]. apply NB. apply bad_here; auto. }
    assert (aheader k None ([] ++ hd5 v ind (bn ++ bs ++ h ++ ws' ++ ws ++ u)) = Ok (set_file k v (Some (ns, ss)) [] (d_table k), Some a_table, h ++ ws' ++ ws ++ u)) as AH.
    { cbn [app]. rewrite aheader_hd5 by auto. rewrite I0, I1, (parse_cache_sizes_ok bn bs ns ss) by auto. reflexivity. }
    destruct (aheader_ok k None _ _ _ _ BX S BO AH) as (BO' & BR & _).
    rewrite !zlen_app in ZH. pose proof (zlen_nonneg _ h). pose proof (zlen_nonneg _ ws'). pose proof (zlen_nonneg _ bn). pose proof (zlen_nonneg _ bs).
    pose proof (zlen_nonneg _ (file_header v ind)).
    destruct a_table_fields as (kt & EKT & KS & KB & KT & KAL & KD & KW & KF & KP).
    assert (zlen (d_dict kt) = 1536) as ZDT by (rewrite KD; vm_compute; reflexivity).
    assert (ws' <> []) as WSN. { intros ->. inversion WS' as [? E1 E2 E3|? w2 T2' rest2 out2 W2 K2' HH2 E1 E2 E3]; subst.
      - rewrite zlen_nil in L. discriminate. - pose proof (window_nonempty _ _ _ _ _ _ W2). apply app_eq_nil in E2. tauto. }
    destruct (acr_complete_rest _ _ _ _ _ _ _ HD SL SL t tl kt ws' (ws ++ u) s SL SL' KB KS KT MF') as (nd & AC & TG & CP & RS); auto; try (unfold int32_max in *; lia).
    { rewrite KAL, KD. refine (windows_ext _ _ _ _ _ _ _ _ _ (tle_refl _) (tle_refl _) _ _ _ _ _ WS').
      - unfold same_format. repeat split.
      - intros p T (A & B & C). unfold limits. rewrite KW, KF, KP. auto. }
    { intros B. apply NB. eapply bad_nested; eauto. }
    { intros _. rewrite KP. split; [exact L|]. intros. congruence. }
    { intros X. rewrite (planned_1536 kt KP) in X. discriminate. }
    rewrite <- EKT in AC.
    assert (aok a_table /\ ~ stopped (acore a_table)) as [TO TN].
    { split; [apply a_table_ok|]. intros [_ X]. revert X. vm_compute. discriminate. }
    pose proof (acr_ok _ _ _ AC TO TN BR) as (AO & _). apply aok_target_bytes in AO. rewrite TG in AO.
    assert (0 <= (ns + ss + 1) mod 256 <= 255) as MR by lia.
    destruct (use_code_table_usable default_table s _ AO L MR) as (t0 & b & U & CASES).
    assert (same_table tbl (entry t0) /\ table_ok t0) as [ST TOK].
    { destruct CASES as [(_ & UT & ->)|(_ & UT & ->)]; (destruct UC as [[UC ->]|[UC ->]]; [|]); try tauto.
      - split; [intros op O; symmetry; apply entry_of_bytes; exact O|]. apply table_of_bytes_ok; auto.
      - split; [intros op O; symmetry; apply default_same; exact O|]. apply default_table_ok. }
    assert (sizes_ok ns ss) as SO by (unfold sizes_ok; lia).
    apply bytes_ok_app in BR as [_ BR]. apply bytes_ok_app in BR as [_ BR]. apply bytes_ok_app in BR as [BW BU].
    destruct (RUN (set_file (set_file k v (Some (ns, ss)) [] (d_table k)) v (Some (ns, ss)) [] t0) ns ss ws u out tw twl tbl) as (r & R & C & A); auto.
    { apply base_file; auto. } { intros WN. destruct MF as [MF|MF]; [congruence|lia]. }
    eexists. split; [rewrite <- C; eapply acr_table; [exact AH|exact AC|]|].
    + eapply (after_done _ _ nd ns ss t0 b r); auto.
      * rewrite TG. exact L.
      * rewrite TG, last_mode_mod. cbn [set_file d_table]. rewrite DT. exact U.
      * rewrite RS. rewrite (app_assoc h ws'), finish_except_app. exact R.
    + split; [reflexivity|]. split; [exact A|reflexivity].
Qed.

Theorem long_complete : forall t d dict h v tbl ns ss ws out pieces,
  idle_plain d -> bytes_ok dict -> t_slack t = false ->
  head t t h v tbl ns ss -> modes_fit ns ss ws -> zlen h <= int32_max -> zlen dict <= int32_max ->
  windows_each t t (file_format v tbl ns ss (target_allowed d)) dict (sized_low dict (admits d)) [] ws out ->
  Forall bytes_ok pieces -> concat pieces = h ++ ws -> ~ bad_cache (concat pieces) ->
  decode_stream d dict pieces = Some (true, out).
Proof.
  intros t d dict h v tbl ns ss ws out pieces IP BD SL HD MF ZH ZD WS F EP NB. pose proof (idle_plain_idle d IP) as [ID _].
  destruct (start_facts d dict IP BD) as (k & EA & S & BO & DT & DD & DA & UP & LM).
  pose proof (bytes_concat _ F) as BX. rewrite EP in *.
  destruct (acr_long t t h v tbl ns ss HD SL SL t t k ws [] out SL SL BO S DT MF) as (a & A & TG & AC & AR); rewrite ?app_nil_r; auto.
  - rewrite DD, DA. refine (windows_each_weaken _ _ _ _ _ _ _ _ _ _ WS). intros p w T ((X & Y) & Z0). split; [split; [apply LM; exact X|exact Y]|exact Z0].
  - rewrite DD. exact ZD.
  - rewrite UP. discriminate.
  - rewrite app_nil_r in A. rewrite <- EA in A. rewrite <- EP in BX, A.
    destruct (one_call _ _ _ _ ID BD BX A) as (d1 & E & FD & _). rewrite TG in E.
    destruct (split_success d dict pieces d1 out ID BD F E) as (d2 & E2 & FD2). unfold decode_stream. rewrite E2, FD2, FD, AC. reflexivity.
Qed.

