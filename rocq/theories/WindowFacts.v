(** DecodeWindow accepts exactly the windows of the specification. *)

From Verif Require Import Base Spec Varint VarintFacts AddrCache AddrCacheFacts CodeTable
  InstructionMap DecodeTable HeaderParser Adler AdlerFacts Decoder CopyFacts BodyFacts BodyExt WindowExt
  WindowHeader WindowStep.
From Coq Require Import ZifyBool ZifyNat.


Lemma items_mean_any : forall drop tbl ns ss L seg l s s',
  items_mean drop tbl ns ss L seg l s s' -> items_mean true tbl ns ss L seg l s s'.
Proof. intros [|] *; auto using items_mean_weaken. Qed.

Lemma interleaved_iff : forall c ns ss fd,
  let '(_, _, _, _, nd, _, na, _, _) := fd in
  fields_il c fd = true <-> interleaved (fmt c ns ss) nd na.
Proof.
  intros c ns ss [[[[[[[[kind seglen] pos] tl] nd] ni] na] cks] has]. cbn [fields_il]. unfold interleaved. cbn [fmt f_ext].
  destruct (allow_extensions c); cbn [andb]; split; intros H; lia.
Qed.

Lemma fields_window_cache : forall c fd ca, w_cache (fields_window c fd ca) = ca.
Proof. intros c [[[[[[[[kind seglen] pos] tl] nd] ni] na] cks] has] ca. reflexivity. Qed.

(** The end of a window that was decoded completely. *)
Lemma window_end : forall c ns ss fd hdr seg ca il l items T hist slack,
  core_ok ns ss c -> header_rel c ns ss fd hdr seg -> 
  il = fields_il c fd ->
  items_mean true (entry (d_table c)) ns ss (w_len (fields_window c fd ca)) seg items ([], []) (hist, T) ->
  zlen T = w_len (fields_window c fd ca) -> bytes_ok T ->
  (w_has_cks (fields_window c fd ca) = true -> compute_adler32 T = w_cks (fields_window c fd ca)) ->
  (let '(_, _, _, _, nd, ni, na, _, _) := fd in
   if il then ztake ni l = concat (map item_bytes items) /\ (slack = true \/ ni <= zlen l)
   else ztake nd l = concat (map item_data items) /\ ztake ni (zdrop nd l) = concat (map item_inst items) /\
        ztake na (zdrop (nd + ni) l) = concat (map item_addr items) /\ fields_total fd <= zlen l) ->
  exists body, 
    l = body ++ zdrop (fields_total fd) l /\
    Spec.window (tol (il && slack)) (fmt c ns ss) (d_dict c) (d_target c) (hdr ++ body) T.
Proof.
  intros c ns ss fd hdr seg ca il l items T hist slack CO HR IL IM LT BT CK LA.
  pose proof (interleaved_iff c ns ss fd) as II. rewrite <- IL in II.
  pose proof (header_rel_lens _ _ _ _ _ _ HR) as LE.
  destruct fd as [[[[[[[[kind seglen] pos] tl] nd] ni] na] cks] has].
  destruct HR as (ind & sb & bd & dl & bt & di & bnd & bni & bna & bcks & -> & BI & SG & KO & SLM & VD & LD & VT & LTL & WE & BDI & DI & VND & LND & VNI & LNI & VNA & LNA & HC & CKF & DL).
  cbn [fields_window w_len w_has_cks w_cks fields_total] in *.
  assert (checksum_field (fmt c ns ss) ind bcks T) as CF.
  { unfold checksum_field. cbn [fmt f_ext]. rewrite <- HC. destruct has.
    - destruct CKF as [CKF _]. rewrite <- (CK eq_refl) in CKF. rewrite compute_adler32_ok in CKF by exact BT. exact CKF.
    - tauto. }
  exists (ztake (nd + ni + na) l). split; [symmetry; apply ztake_zdrop|].
  rewrite <- !app_assoc. eapply (window_intro _ _ _ _ ind sb seg bd dl bt di bnd nd bni ni bna na bcks items _ hist T); eauto.
  - rewrite LT. exact VT.
  - destruct il.
    + left. split; [tauto|]. assert (nd = 0 /\ na = 0) as [-> ->] by (destruct II as [II _]; destruct (II eq_refl) as (_ & A & B); auto).
      replace (0 + ni + 0) with ni in * by lia. destruct LA as [LA SL]. split; [exact LA|].
      rewrite zlen_ztake by lia. destruct slack; [right; split; [reflexivity|lia]|left].
      destruct SL as [SL|SL]; [discriminate|lia].
    + right. split; [intros X; apply II in X; discriminate|]. destruct LA as (A & B & C & D).
      split; [rewrite <- A, zlen_ztake; lia|]. split; [rewrite <- B, zlen_ztake by lia; rewrite zlen_zdrop by lia; lia|].
      split; [rewrite <- C, zlen_ztake by lia; rewrite zlen_zdrop by lia; lia|].
      rewrite <- A, <- B, <- C.
      apply get_ext. intros i Hi.
      rewrite <- (ztake_zdrop _ nd (ztake (nd + ni + na) l)). rewrite ztake_ztake. replace (Z.min nd (nd + ni + na)) with nd by lia.
      f_equal. f_equal. rewrite zdrop_ztake by lia. replace (nd + ni + na - nd) with (ni + na) by lia.
      rewrite <- (ztake_zdrop _ ni (ztake (ni + na) (zdrop nd l))). rewrite ztake_ztake. replace (Z.min ni (ni + na)) with ni by lia.
      f_equal. rewrite zdrop_ztake by lia. replace (ni + na - ni) with na by lia. rewrite zdrop_zdrop by lia. f_equal. f_equal. lia.
  - cbn [fmt f_table f_near f_same t_drop tol]. rewrite LT. exact IM.
Qed.

Lemma end_ok_inv : forall w start st prev T, end_ok w start st = true -> b_target st = prev ++ T -> start = zlen prev ->
  zlen T = w_len w /\ (w_has_cks w = true -> compute_adler32 T = w_cks w).
Proof.
  intros w start st prev T E TG SE. unfold end_ok in E. rewrite TG, SE, zlen_app in E.
  rewrite zdrop_app_eq in E by reflexivity. split; [lia|]. intros HC. rewrite HC in E. cbn [negb orb] in E. lia.
Qed.

Theorem decode_window_sound : forall c ns ss data c' rest,
  core_ok ns ss c -> d_win c = None -> bytes_ok data -> decode_window c data = XOk (c', rest) ->
  exists wb T slack,
    data = wb ++ rest /\ Spec.window (tol slack) (fmt c ns ss) (d_dict c) (d_target c) wb T /\
    (slack = true -> allow_extensions c = true /\ rest = []) /\
    would_exceed c (zlen T) = false /\ bytes_ok T /\ zlen T <= int32_max /\ wb <> [] /\
    c' = set_win c None (zlen (d_target c ++ T)) (d_target c ++ T) (to_size (d_total c + zlen T)).
Proof.
  intros c ns ss data c' rest CO DW BD H.
  rewrite (decode_window_none c ns ss) in H by (auto; apply CO).
  destruct (header_fields c data) as [[fd l]| | |] eqn:HF; try discriminate.
  destruct (header_sound c ns ss data fd l BD HF) as (hdr & seg & ED & HR & BL).
  pose proof (header_rel_lens _ _ _ _ _ _ HR) as LE.
  destruct (negb (fields_il c fd) && (zlen l <? fields_total fd)) eqn:SHORT; [discriminate|].
  destruct (cache_init ns ss) as [ca|] eqn:CI; [|discriminate]. cbv zeta in H.
  pose proof (co_table _ _ _ CO) as TO. pose proof (co_win _ _ _ CO) as CW. rewrite DW in CW.
  destruct (cache_init_like ns ss ca (co_ns _ _ _ CO) (co_ss _ _ _ CO) CI) as (CR & NS & SS).
  assert (WE : would_exceed c (w_len (fields_window c fd ca)) = false /\ w_len (fields_window c fd ca) <= int32_max /\ hdr <> []).
  { destruct fd as [[[[[[[[kind seglen] pos] tl] nd] ni] na] cks] has].
    destruct HR as (ind & sb & bd & dl & bt & di & bnd & bni & bna & bcks & EH & BI & SG & KO & SLM & VD & LD & VT & LTL & WE & _).
    cbn [fields_window w_len]. split; [exact WE|]. split; [exact LTL|]. subst hdr. discriminate. }
  destruct WE as (WE & WL & HNE).
  set (w := fields_window c fd ca) in *.
  destruct (fields_il c fd) eqn:IL.
  - rewrite finish_il_eq in H. rewrite CW in H.
    assert (BI : binv (d_dict c) (d_table c) w (d_target c) seg (il_state w (d_target c) l) [] []).
    { destruct (il_inv_init c ns ss fd hdr seg ca l CO DW HR CI BL) as (prev & seg' & h & T0 & SE & E0 & _ & _ & BI').
      clear BI'.
      replace (il_state w (d_target c) l) with
        {| b_il := true; b_inst := ztake (w_expected w) l; b_data := []; b_addr := [];
           b_pending := None; b_cache := ca; b_target := d_target c |}.
      2:{ unfold w. destruct fd as [[[[[[[[kind seglen] pos] tl] nd] ni] na] cks] has]. reflexivity. }
      eapply binv_init; eauto; try constructor; auto. apply bytes_ok_ztake. auto. }
    pose proof (body_loop_sound (d_dict c) (d_table c) w (d_target c) seg (body_fuel (il_state w (d_target c) l)) _ [] [] TO BI) as S.
    pose proof (body_loop_bytes (body_fuel (il_state w (d_target c) l)) _ _ _ _ _ _ _ _ TO BI (co_dict _ _ _ CO) (co_target _ _ _ CO)) as BB.
    pose proof (loop_il _ _ _ _ _ _ _ _ TO BI) as LI. unfold loop in *.
    destruct (body_loop _ _ _ _ _ (il_state w (d_target c) l)) as [st'|st'| | |] eqn:LOOP; try discriminate.
    2:{ cbv zeta in H. destruct (_ <? _) in H; discriminate. }
    cbn [il_state b_il] in LI. rewrite LI in H.
    destruct (end_ok w (zlen (d_target c)) st') eqn:EO; cbn [andb] in H; [|discriminate].
    destruct (b_inst st') as [|b inst'] eqn:EI; cbn [nonempty negb andb] in H; [|discriminate].
    injection H as <- <-.
    destruct S as (h' & T' & BI' & IL' & LT' & IM).
    assert (w_pending w = None) as PN by (unfold w; destruct fd as [[[[[[[[kind seglen] pos] tl] nd] ni] na] cks] has]; reflexivity).
    cbn [il_state b_pending b_cache b_il] in IM. rewrite PN in IM. destruct IM as (items & IM & SE).
    pose proof (fields_window_cache c fd ca) as WC. fold w in WC. rewrite WC, NS, SS in IM.
    pose proof (bi_target _ _ _ _ _ _ _ _ BI') as TG.
    assert (bytes_ok T') as BT'. { rewrite TG in BB. apply bytes_ok_app in BB. tauto. }
    destruct (end_ok_inv w (zlen (d_target c)) st' (d_target c) T' EO TG eq_refl) as [ZT CK].
    destruct (window_end c ns ss fd hdr seg ca true l items T' h' (zlen l <? w_expected w) CO HR) as (body & EB & W); auto.
    { apply items_mean_any in IM. exact IM. }
    { unfold w in *. destruct fd as [[[[[[[[kind seglen] pos] tl] nd] ni] na] cks] has].
      cbn [fields_window w_expected] in *. rewrite IL in *. cbn [il_state w_expected] in SE.
      unfold sec in SE. cbn [items_sec app3] in SE. rewrite EI in SE.
      cbn [il_state b_inst b_data b_addr app w_expected] in SE. injection SE as SE _ _. rewrite app_nil_r in SE.
      split; [exact SE|]. lia. }
    rewrite andb_true_l in W.
    assert (w_expected w = fields_total fd) as EX.
    { unfold w. pose proof (interleaved_iff c ns ss fd) as II. destruct fd as [[[[[[[[kind seglen] pos] tl] nd] ni] na] cks] has].
      rewrite IL in II. cbn [fields_window w_expected fields_total]. rewrite IL. destruct II as [II _]. destruct (II eq_refl) as (_ & -> & ->). lia. }
    assert (0 <= fields_total fd) as FT0 by (destruct fd as [[[[[[[[kind seglen] pos] tl] nd] ni] na] cks] has]; cbn [fields_total]; lia).
    assert (zdrop (zlen (ztake (w_expected w) l)) l = zdrop (fields_total fd) l) as ER.
    { rewrite EX. rewrite zlen_ztake by exact FT0. destruct (Z.leb_spec (fields_total fd) (zlen l)).
      - rewrite Z.min_l by lia. reflexivity.
      - rewrite Z.min_r by lia. rewrite !zdrop_all by lia. reflexivity. }
    rewrite ER. exists (hdr ++ body), T', (zlen l <? w_expected w).
    split. { rewrite <- app_assoc, <- EB. exact ED. }
    split; [exact W|]. split.
    { intros SLK. split; [|rewrite zdrop_all; [reflexivity|lia]].
      destruct fd as [[[[[[[[kind seglen] pos] tl] nd] ni] na] cks] has]. cbn [fields_il] in IL. lia. }
    rewrite ZT. split; [exact WE|]. split; [exact BT'|]. split; [lia|].
    split; [destruct hdr; [congruence|discriminate]|]. rewrite TG. reflexivity.
  - unfold finish_window, decode_body in H. rewrite CW in H.
    set (st0 := std_state fd ca (d_target c) l) in *.
    assert (BI : binv (d_dict c) (d_table c) w (d_target c) seg st0 [] []).
    { unfold st0, w. destruct fd as [[[[[[[[kind seglen] pos] tl] nd] ni] na] cks] has]. cbn [std_state].
      eapply binv_init; eauto; try (intros; discriminate); repeat first [apply bytes_ok_ztake | apply bytes_ok_zdrop]; auto. }
    assert (b_target st0 = d_target c /\ b_pending st0 = None /\ b_cache st0 = ca /\ b_il st0 = false) as (TG0 & PN0 & CA0 & IL0).
    { unfold st0. destruct fd as [[[[[[[[kind seglen] pos] tl] nd] ni] na] cks] has]. auto. }
    assert (BT0 : bytes_ok (b_target st0)) by (rewrite TG0; apply CO).
    pose proof (body_loop_sound (d_dict c) (d_table c) w (d_target c) seg (body_fuel st0) _ [] [] TO BI) as S.
    pose proof (body_loop_bytes (body_fuel st0) _ _ _ _ _ _ _ _ TO BI (co_dict _ _ _ CO) BT0) as BB.
    pose proof (loop_il _ _ _ _ _ _ _ _ TO BI) as LI. unfold loop in *.
    destruct (body_loop _ _ _ _ _ st0) as [st'|st'| | |] eqn:LOOP; try discriminate.
    2:{ cbv zeta in H. rewrite IL0 in H. discriminate. }
    rewrite LI in H. rewrite IL0 in *. cbn [negb andb] in H.
    destruct (zlen (b_target st') - zlen (d_target c) =? w_len w) eqn:E1; [|discriminate]. cbn [negb] in H.
    destruct (w_has_cks w && negb (compute_adler32 (zdrop (zlen (d_target c)) (b_target st')) =? w_cks w)) eqn:E2; [discriminate|].
    assert (end_ok w (zlen (d_target c)) st' = true) as EO.
    { unfold end_ok. rewrite E1. destruct (w_has_cks w); cbn in *; [|reflexivity]. lia. }
    destruct (b_inst st') as [|b inst'] eqn:EI; cbn [nonempty negb andb] in H; [|discriminate].
    destruct (b_data st') as [|b2 dat'] eqn:EDA; cbn [nonempty orb] in H; [|discriminate].
    destruct (b_addr st') as [|b3 addr'] eqn:EA; cbn [nonempty] in H; [|discriminate].
    injection H as <- <-.
    destruct S as (h' & T' & BI' & IL' & LT' & IM). rewrite PN0, CA0, NS, SS, IL0 in IM. destruct IM as (items & IM & SE).
    pose proof (bi_target _ _ _ _ _ _ _ _ BI') as TG.
    assert (bytes_ok T') as BT'. { rewrite TG in BB. apply bytes_ok_app in BB. tauto. }
    destruct (end_ok_inv w (zlen (d_target c)) st' (d_target c) T' EO TG eq_refl) as [ZT CK].
    destruct (window_end c ns ss fd hdr seg ca false l items T' h' false CO HR) as (body & EB & W); auto.
    { apply items_mean_any in IM. exact IM. }
    { unfold sec in SE. rewrite EI, EDA, EA in SE. unfold st0 in SE. cbn [negb andb] in SHORT.
      destruct fd as [[[[[[[[kind seglen] pos] tl] nd] ni] na] cks] has]. cbn [items_sec app3 std_state b_inst b_data b_addr] in SE.
      rewrite !app_nil_r in SE. injection SE as SE1 SE2 SE3. 
      split; [exact SE2|]. split; [exact SE1|]. split; [exact SE3|]. lia. }
    exists (hdr ++ body), T', false.
    split. { rewrite <- app_assoc, <- EB. exact ED. }
    split; [exact W|]. split; [discriminate|].
    rewrite ZT. split; [exact WE|]. split; [exact BT'|]. split; [lia|].
    split; [destruct hdr; [congruence|discriminate]|]. rewrite TG. reflexivity.
Qed.

Theorem decode_window_complete : forall c ns ss t wb T rest,
  core_ok ns ss c -> ns <= 253 -> ns + ss <= 254 -> d_win c = None -> bytes_ok wb -> bytes_ok rest ->
  Spec.window t (fmt c ns ss) (d_dict c) (d_target c) wb T -> t_slack t = false ->
  zlen wb <= int32_max -> would_exceed c (zlen T) = false ->
  zlen (d_dict c) <= int32_max -> zlen (d_target c) <= int32_max -> zlen T <= int32_max ->
  zlen (d_dict c) + zlen T <= int32_max + 1 -> zlen (d_target c) + zlen T <= int32_max + 1 ->
  decode_window c (wb ++ rest) =
    XOk (set_win c None (zlen (d_target c ++ T)) (d_target c ++ T) (to_size (d_total c + zlen T)), rest).
Proof.
  intros c ns ss t wb T rest CO N253 NSS DW BW BR W SL ZW WE ZD ZT0 ZT LD LT.
  inversion W as [ind sb seg bd dl bt di bnd nd bni ni bna na bcks items body hist T1 BI SG VD VT BDI DI VND VNI VNA CF LA DL IM EW ET].
  subst T1.
  assert (zlen body = nd + ni + na) as ZB.
  { destruct LA as [(I1 & I2 & I3)|(I1 & I2 & I3 & I4 & I5)].
    - destruct I1 as (_ & -> & ->). destruct I3 as [->|[I3 _]]; [lia|congruence].
    - rewrite I5, !zlen_app. lia. }
  pose proof (varint_nonneg _ _ VND). pose proof (varint_nonneg _ _ VNI). pose proof (varint_nonneg _ _ VNA).
  assert (dl <= zlen wb) as DLW.
  { rewrite <- EW, DL. rewrite !zlen_app. pose proof (zlen_nonneg _ [ind]). pose proof (zlen_nonneg _ sb). pose proof (zlen_nonneg _ bd). lia. }
  assert (0 <= dl) as DL0 by (eapply varint_nonneg; eauto).
  assert (nd <= int32_max /\ ni <= int32_max /\ na <= int32_max) as (L1 & L2 & L3).
  { pose proof (zlen_nonneg _ (bt ++ [di] ++ bnd ++ bni ++ bna ++ bcks)). lia. }
  set (has := allow_extensions c && Z.testbit ind 2).
  set (cks := if has then adler_sum 0 T else 0).
  assert (CK : if has then varint bcks cks /\ cks <= 4294967295 else bcks = [] /\ cks = 0).
  { unfold checksum_field in CF. cbn [fmt f_ext] in CF. fold has in CF. unfold cks. destruct has; [|auto].
    split; [exact CF|]. pose proof (adler_sum_range 0 T). lia. }
  destruct (header_complete c ns ss ind sb seg bd dl bt (zlen T) di bnd nd bni ni bna na bcks cks (body ++ rest))
    as (kind & pos & KO & SLM & HF); auto; try lia.
  assert (wb ++ rest = [ind] ++ sb ++ bd ++ bt ++ [di] ++ bnd ++ bni ++ bna ++ bcks ++ body ++ rest) as EWR.
  { rewrite <- EW, <- !app_assoc. reflexivity. }
  rewrite EW, EWR. rewrite (decode_window_none c ns ss) by (auto; apply CO). rewrite HF. clear HF. fold has.
  set (fd := (kind, zlen seg, pos, zlen T, nd, ni, na, cks, has)).
  assert (bytes_ok body) as BB.
  { rewrite <- EW in BW. repeat (apply bytes_ok_app in BW as [_ BW]). exact BW. }
  assert (HR : header_rel c ns ss fd ([ind] ++ sb ++ bd ++ bt ++ [di] ++ bnd ++ bni ++ bna ++ bcks) seg).
  { exists ind, sb, bd, dl, bt, di, bnd, bni, bna, bcks. 
    split; [reflexivity|]. split; [exact BI|]. split; [exact SG|]. split; [exact KO|]. split; [exact SLM|].
    split; [exact VD|]. split; [lia|]. split; [exact VT|]. split; [lia|]. split; [exact WE|]. split; [exact BDI|]. split; [exact DI|].
    split; [exact VND|]. split; [lia|]. split; [exact VNI|]. split; [lia|]. split; [exact VNA|]. split; [lia|].
    split; [reflexivity|]. split; [exact CK|]. exact DL. }
  pose proof (interleaved_iff c ns ss fd) as II. unfold fd in II. cbv iota beta in II. fold fd in II.
  assert (zlen (body ++ rest) <? fields_total fd = false) as SHORT.
  { cbn [fd fields_total]. rewrite zlen_app. pose proof (zlen_nonneg _ rest). lia. }
  rewrite SHORT, andb_false_r.
  destruct (cache_init_some ns ss) as [ca CI]; [apply CO|apply CO|exact NSS|]. rewrite CI. cbv zeta.
  destruct (cache_init_like ns ss ca (co_ns _ _ _ CO) (co_ss _ _ _ CO) CI) as (CR & NS & SS).
  set (w := fields_window c fd ca) in *.
  pose proof (co_table _ _ _ CO) as TO. pose proof (co_win _ _ _ CO) as CW. rewrite DW in CW.
  assert (w_len w = zlen T) as WL by reflexivity.
  assert (w_seglen w = zlen seg) as WS by reflexivity.
  assert (BT : bytes_ok T -> w_has_cks w = true -> compute_adler32 T = w_cks w).
  { intros BT HC. cbn [w fd fields_window w_has_cks w_cks] in *. unfold cks. rewrite HC. apply compute_adler32_ok. exact BT. }
  assert (zlen seg + zlen T <= int32_max + 1) as SB.
  { destruct KO as [_ KK]. destruct kind.
    - rewrite KK. pose proof (zlen_nonneg _ (d_dict c)). lia.
    - apply slice_inv in KK. lia.
    - apply slice_inv in KK. lia. }
  (* running the loop on any state that contains exactly the sections *)
  assert (RUN : forall st0, b_target st0 = d_target c -> b_pending st0 = None -> b_cache st0 = ca ->
     binv (d_dict c) (d_table c) w (d_target c) seg st0 [] [] -> sec st0 = items_sec (b_il st0) items ->
     exists st', body_loop (body_fuel st0) (d_dict c) (d_table c) w (d_start c) st0 = XOk st' /\ 
       b_target st' = d_target c ++ T /\ b_inst st' = [] /\ b_data st' = [] /\ b_addr st' = [] /\ b_il st' = b_il st0 /\
       end_ok w (d_start c) st' = true).
  { intros st0 TG PN CA BV SE. rewrite CW.
    assert (w_seglen w + w_len w <= int32_max + 1) as SB' by (rewrite WL, WS; exact SB).
    assert (sec st0 = app3 ([], [], []) (app3 (items_sec (b_il st0) items) nil3)) as SE0.
    { rewrite app3_nil_r, SE. symmetry. apply app3_nil_l. }
    assert (near_size (b_cache st0) = ns) as NS0 by (rewrite CA; exact NS).
    assert (same_size (b_cache st0) = ss) as SS0 by (rewrite CA; exact SS).
    destruct (body_loop_complete (d_dict c) (d_table c) w (d_target c) seg (t_drop t) ns ss items ([], []) (hist, T) IM eq_refl SB'
      [] st0 nil3 (Forall_nil _) (or_introl eq_refl) BV PN NS0 N253 SS0 SE0) as (fuel & st' & RL & SE' & BV' & IL' & _ & _).
    assert (body_loop (body_fuel st0) (d_dict c) (d_table c) w (zlen (d_target c)) st0 = XOk st') as RL'.
    { eapply body_loop_fuel; eauto; discriminate. }
    exists st'. rewrite RL'. split; [reflexivity|].
    pose proof (bi_target _ _ _ _ _ _ _ _ BV') as TG'. cbn [snd] in TG'. split; [exact TG'|].
    unfold sec, nil3 in SE'. injection SE' as S1 S2 S3. split; [exact S1|]. split; [exact S2|]. split; [exact S3|]. split; [exact IL'|].
    unfold end_ok. rewrite TG', zlen_app. rewrite zdrop_app_eq by reflexivity.
    replace (zlen (d_target c) + zlen T - zlen (d_target c)) with (zlen T) by lia. rewrite WL, Z.eqb_refl. cbn [andb].
    destruct (w_has_cks w) eqn:HC; [|reflexivity]. cbn [negb orb]. apply Z.eqb_eq. apply BT; auto.
    assert (bytes_ok (b_target st')) as BB'.
    { pose proof (body_loop_bytes (body_fuel st0) _ _ _ _ _ _ _ _ TO BV (co_dict _ _ _ CO)) as X.
      rewrite RL' in X. apply X. rewrite TG. apply CO. }
    rewrite TG' in BB'. apply bytes_ok_app in BB'. tauto. }
  assert (FT : fields_total fd = zlen body) by (cbn [fd fields_total]; lia).
  destruct (fields_il c fd) eqn:IL.
  - assert (interleaved (fmt c ns ss) nd na) as IT by tauto.
    destruct LA as [(I1 & I2 & I3)|(I1 & _)]; [|tauto].
    assert (ni = zlen body) as NI by (destruct I3 as [->|[I3 _]]; [lia|congruence]).
    assert (w_expected w = ni) as EX. { cbn [w fields_window fd w_expected]. fold fd. rewrite IL. reflexivity. }
    rewrite finish_il_eq. unfold loop.
    assert (il_state w (d_target c) (body ++ rest) = {| b_il := true; b_inst := body; b_data := []; b_addr := [];
           b_pending := None; b_cache := ca; b_target := d_target c |}) as IS.
    { unfold il_state. rewrite EX, NI. rewrite ztake_app_eq by reflexivity. reflexivity. }
    rewrite IS. destruct (RUN {| b_il := true; b_inst := body; b_data := []; b_addr := [];
           b_pending := None; b_cache := ca; b_target := d_target c |}) as (st' & RL & TG & N1 & N2 & N3 & IL' & EO); auto.
    { eapply binv_init; eauto; constructor. }
    { cbn. rewrite I2. reflexivity. }
    rewrite RL, EO, N1, IL'. cbn [nonempty negb andb b_il]. rewrite TG.
    rewrite EX, NI. rewrite ztake_app_eq by reflexivity. rewrite zdrop_app_eq by reflexivity. reflexivity.
  - assert (~ interleaved (fmt c ns ss) nd na) as IT by (intros X; apply II in X; discriminate).
    destruct LA as [(I1 & _)|(I1 & I2 & I3 & I4 & I5)]; [tauto|].
    set (D := concat (map item_data items)) in *. set (J := concat (map item_inst items)) in *. set (A := concat (map item_addr items)) in *.
    assert (std_state fd ca (d_target c) (body ++ rest) = {| b_il := false; b_inst := J; b_data := D; b_addr := A;
           b_pending := None; b_cache := ca; b_target := d_target c |}) as IS.
    { cbn [std_state fd]. rewrite I5. rewrite <- !app_assoc. f_equal.
      - rewrite zdrop_app_eq by auto. apply ztake_app_eq. auto.
      - apply ztake_app_eq. auto.
      - rewrite (app_assoc D J). rewrite zdrop_app_eq by (rewrite zlen_app; lia). apply ztake_app_eq. auto. }
    assert (bytes_ok D /\ bytes_ok J /\ bytes_ok A) as (BD & BJ & BA).
    { rewrite I5 in BB. apply bytes_ok_app in BB as [X BB]. apply bytes_ok_app in BB. tauto. }
    unfold finish_window, decode_body. rewrite IS.
    destruct (RUN {| b_il := false; b_inst := J; b_data := D; b_addr := A;
           b_pending := None; b_cache := ca; b_target := d_target c |}) as (st' & RL & TG & N1 & N2 & N3 & IL' & EO); auto.
    { eapply binv_init; eauto. discriminate. }
    rewrite RL. unfold end_ok in EO. apply andb_true_iff in EO as [EO1 EO2]. rewrite EO1. cbn [negb].
    replace (w_has_cks w && negb (compute_adler32 (zdrop (d_start c) (b_target st')) =? w_cks w)) with false.
    2:{ destruct (w_has_cks w); cbn in *; [|reflexivity]. rewrite EO2. reflexivity. }
    rewrite N1, N2, N3, IL'. cbn [nonempty b_il negb andb orb]. rewrite TG. rewrite FT.
    rewrite zdrop_app_eq by reflexivity. reflexivity.
Qed.
