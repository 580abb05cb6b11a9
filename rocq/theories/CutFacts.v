(** What the decoder does with a part of an interleaved window. *)

From Verif Require Import Base ListFacts Spec Varint VarintFacts AddrCache AddrCacheFacts CodeTable CodeTableFacts
  InstructionMap DecodeTable HeaderParser Adler AdlerFacts Decoder CopyFacts BodyFacts BodyExt WindowExt
  WindowHeader WindowStep WindowFacts Refine Totals Abstract FileHeader Chunk Sim Stream Session Reuse Usable Sound Complete Truncate Unique Files
  SpecParts Output OutputFacts Chunked OutputCalls Count Kept SpecCut.
From Coq Require Import ZifyBool ZifyNat.

Lemma items_mean_app : forall tbl ns ss L seg a s s1, items_mean false tbl ns ss L seg a s s1 ->
  forall b s2, items_mean false tbl ns ss L seg b s1 s2 -> items_mean false tbl ns ss L seg (a ++ b) s s2.
Proof.
  intros tbl ns ss L seg a s s1 H. induction H as [s|i l s s1 s2 s3 OB LT H1 H2 IM IH|i s s1 DR OB LT H1 NP TE]; intros b s4 HB.
  - exact HB.
  - cbn [app]. eapply im_cons; eauto.
  - discriminate DR.
Qed.

(** A divided window is a window. *)
Lemma cut_is_window : forall f dict prev p q T1 T, cut_window f dict prev p q T1 T -> Spec.window strict f dict prev (p ++ q) T.
Proof.
  intros f dict prev p q T1 T H. destruct H as [ind sb seg bd dl bt di bnd bni ni bna bcks done todo h1 T1 hist T FE BI SG VD VT BDI DI VND VNI VNA CF NI DL M1 M2].
  rewrite <- !app_assoc. rewrite <- concat_app, <- map_app.
  apply (window_intro strict f dict prev ind sb seg bd dl bt di bnd 0 bni ni bna 0 bcks (done ++ todo) _ hist T); auto.
  - left. split; [split; [exact FE|split; reflexivity]|]. split; [reflexivity|]. left. exact NI.
  - lia.
  - eapply items_mean_app; eauto.
Qed.

(** The loop reads all instructions that it finds. *)
Lemma body_loop_run : forall dict t w prev seg ns ss items s s',
  items_mean false (entry t) ns ss (w_len w) seg items s s' ->
  zlen (snd s') < w_len w -> w_seglen w + w_len w <= int32_max + 1 ->
  forall nops st,
  Forall (is_nop t) nops ->
  binv dict t w prev seg st (fst s) (snd s) -> b_pending st = None ->
  near_size (b_cache st) = ns -> ns <= 253 -> same_size (b_cache st) = ss ->
  sec st = app3 (nops, [], []) (items_sec (b_il st) items) ->
  exists fuel st', body_loop fuel dict t w (zlen prev) st = XEod st' /\ b_inst st' = [] /\
    b_target st' = prev ++ snd s'.
Proof.
  intros dict t w prev seg ns ss items s s' IM.
  induction IM as [s|i l s s1 s2 s3 OB LT H1 H2 IM IH|i s s1 DR OB LT H1 NP TE]; intros TL HL nops st FN BI PE NS N253 SS SE; [| |discriminate DR].
  - exists 1%nat. destruct (binv_lens _ _ _ _ _ _ _ _ BI) as (TL0 & _).
    replace (items_sec (b_il st) []) with nil3 in SE by (destruct (b_il st); reflexivity). rewrite app3_nil_r in SE.
    unfold sec in SE. injection SE as E1 E2 E3.
    exists (with_inst st None []). cbn [body_loop]. rewrite TL0.
    destruct (Z.ltb_spec (zlen prev + zlen (snd s) - zlen prev) (w_len w)); [|lia].
    rewrite PE, E1. unfold get_next_instruction. rewrite <- (app_nil_r nops), inst_loop_nops by exact FN. cbn [inst_loop].
    split; [reflexivity|]. split; [reflexivity|]. cbn [with_inst b_target]. apply (bi_target _ _ _ _ _ _ _ _ BI).
  - specialize (IH TL HL). destruct s as [h T], s1 as [h1 T1], s2 as [h2 T2]. cbn [fst snd] in *.
    pose proof (items_mean_grow _ _ _ _ _ _ _ _ _ IM) as G. cbn [snd] in G.
    pose proof (half_means_grow _ _ _ _ _ _ _ _ H2) as G2. cbn [snd] in G2.
    rewrite items_sec_cons, item_sec_split in SE.
    destruct i as [op p1 p2]. cbn [i_op i_first i_second entry fst snd] in *.
    destruct (Z.eq_dec (tget (inst1 t) op) VCD_NOOP) as [N1|N1].
    + rewrite N1, half_of_noop in H1. apply half_means_noop in H1 as [-> E]. injection E as -> ->.
      rewrite piece_sec_no, app3_nil_l in SE.
      destruct (Z.eq_dec (tget (inst2 t) op) VCD_NOOP) as [N2|N2].
      * rewrite N2, half_of_noop in H2. apply half_means_noop in H2 as [-> E]. injection E as -> ->.
        apply (IH (nops ++ [op]) st); auto.
        -- apply Forall_app. split; [auto|]. constructor; [|constructor]. repeat split; auto; apply OB.
        -- rewrite SE, piece_sec_no, ?app3_nil_r, ?app3_nil_l. change (nops ++ [op], [], []) with (app3 (nops, [], []) ([op], [], [])). rewrite !app3_assoc, ?app3_nil_r, ?app3_nil_l. reflexivity.
      * destruct (body_step dict t w prev seg st h T (tget (inst2 t) op) (tget (size2 t) op) (tget (mode2 t) op) None
                    (nops ++ [op]) p2 h2 T2 (items_sec (b_il st) l)) as (st' & X1 & X2 & X3 & X4 & X5 & X6 & X7); auto; try (match goal with |- near_size _ <= 253 => lia end).
        -- exact I.
        -- intros r. rewrite PE. rewrite <- app_assoc. cbn [app]. apply found_second; auto.
        -- rewrite NS, SS. exact H2.
        -- lia.
        -- rewrite SE. rewrite !app3_assoc. reflexivity.
        -- destruct (IH [] st') as (f & st'' & Y1 & Y2 & Y3); auto; try congruence.
           { rewrite X2, X4. rewrite app3_nil_l. reflexivity. }
           exists (S f), st''. rewrite X1. auto.
    + destruct (body_step dict t w prev seg st h T (tget (inst1 t) op) (tget (size1 t) op) (tget (mode1 t) op)
                    (if tget (inst2 t) op =? VCD_NOOP then None else Some op)
                    (nops ++ [op]) p1 h1 T1 (app3 (piece_sec (b_il st) p2) (items_sec (b_il st) l)))
        as (st1 & X1 & X2 & X3 & X4 & X5 & X6 & X7); auto; try (match goal with |- near_size _ <= 253 => lia end).
      * destruct (Z.eqb_spec (tget (inst2 t) op) VCD_NOOP); cbn; auto.
      * intros r. rewrite PE. rewrite <- app_assoc. cbn [app]. apply found_first; auto.
      * rewrite NS, SS. exact H1.
      * lia.
      * rewrite SE. rewrite !app3_assoc. reflexivity.
      * destruct (Z.eqb_spec (tget (inst2 t) op) VCD_NOOP) as [N2|N2].
        -- rewrite N2, half_of_noop in H2. apply half_means_noop in H2 as [-> E]. injection E as -> ->.
           rewrite piece_sec_no, app3_nil_l in X2.
           destruct (IH [] st1) as (f & st'' & Y1 & Y2 & Y3); auto; try congruence.
           { rewrite X2, X4. rewrite app3_nil_l. reflexivity. }
           exists (S f), st''. rewrite X1. auto.
        -- destruct (body_step dict t w prev seg st1 h1 T1 (tget (inst2 t) op) (tget (size2 t) op) (tget (mode2 t) op) None
                    [] p2 h2 T2 (items_sec (b_il st) l)) as (st' & Z1 & Z2 & Z3 & Z4 & Z5 & Z6 & Z7); auto; try (match goal with |- near_size _ <= 253 => lia end).
           ++ exact I.
           ++ intros r. rewrite X5. apply found_pending; auto.
           ++ rewrite X6, X7, NS, SS. exact H2.
           ++ lia.
           ++ rewrite X2, X4, app3_nil_l. reflexivity.
           ++ destruct (IH [] st') as (f & st'' & Y1 & Y2 & Y3); auto; try congruence.
              { rewrite Z2, Z4, X4. rewrite app3_nil_l. reflexivity. }
              exists (S (S f)), st''. rewrite X1, Z1. auto.
Qed.

Lemma cut_window_ext : forall f f' dict prev p q T1 T, Sound.same_format f f' -> cut_window f dict prev p q T1 T -> cut_window f' dict prev p q T1 T.
Proof.
  intros [e tb n s a] [e' tb' n' s' a'] dict prev p q T1 T SF H.
  destruct H as [ind sb seg bd dl bt di bnd bni ni bna bcks done todo h1 T1 hist T FE BI SG VD VT BDI DI VND VNI VNA CF NI DL M1 M2].
  destruct SF as (X1 & X2 & X3 & X4 & X5). cbn in *. subst e' n' s' a'.
  apply (cut_window_intro _ dict prev ind sb seg bd dl bt di bnd bni ni bna bcks done todo h1 T1 hist T); auto; cbn.
  - inversion SG; subst; [apply seg_none|eapply seg_dict|eapply seg_target]; eauto.
  - eapply items_mean_table; [exact X2|exact M1].
  - eapply items_mean_table; [exact X2|exact M2].
Qed.

(** The first part of a divided window: all its instructions are carried out. *)
Lemma decode_window_cut : forall c ns ss p q T1 T, core_ok ns ss c -> ns <= 253 -> ns + ss <= 254 -> d_win c = None ->
  bytes_ok (p ++ q) -> cut_window (fmt c ns ss) (d_dict c) (d_target c) p q T1 T -> q <> [] ->
  zlen (p ++ q) <= int32_max -> zlen T <= int32_max -> would_exceed c (zlen T) = false -> zlen (d_dict c) <= int32_max ->
  zlen (d_target c) <= int32_max -> zlen (d_dict c) + zlen T <= int32_max + 1 -> zlen (d_target c) + zlen T <= int32_max + 1 ->
  exists c', decode_window c p = XEod (c', []) /\ d_target c' = d_target c ++ T1.
Proof.
  intros c ns ss p q T1 T CO N253 NSS DW BW H QN ZP ZT WE ZD ZTG SB1 SB2.
  remember (fmt c ns ss) as f eqn:EF.
  destruct H as [ind sb seg bd dl bt di bnd bni ni bna bcks done todo h1 T1 hist T FE BI SG VD VT BDI DI VND VNI VNA CF NI DL M1 M2].
  subst f. cbn [fmt f_table f_near f_same f_ext] in *.
  set (body := concat (map item_bytes done)) in *.
  assert (zlen (concat (map item_bytes (done ++ todo))) = zlen body + zlen (concat (map item_bytes todo))) as NI2.
  { rewrite map_app, concat_app, zlen_app. reflexivity. }
  assert (0 < zlen (concat (map item_bytes todo))) as QP.
  { pose proof (zlen_nonneg _ (concat (map item_bytes todo))). destruct (Z.eq_dec (zlen (concat (map item_bytes todo))) 0) as [E|E]; [|lia].
    apply zlen_0_nil in E. congruence. }
  assert (zlen T1 < zlen T) as LT.
  { inversion M2 as [s E1 E2 E3|i l s s1 s2 s3 OB LT H1 H2 IM E1 E2 E3|i s s1 DR]; [|exact LT|discriminate DR].
    exfalso. subst todo. apply QN. reflexivity. }
  assert (dl + zlen sb + zlen bd + 1 <= int32_max) as DLM.
  { rewrite DL, NI, NI2. rewrite zlen_app in ZP. rewrite !zlen_app in ZP. rewrite !zlen_app. change (zlen [ind]) with 1 in ZP. lia. }
  pose proof (zlen_nonneg _ sb). pose proof (zlen_nonneg _ bd). pose proof (zlen_nonneg _ body).
  assert (ni <= int32_max) as LNI.
  { pose proof (zlen_nonneg _ (bt ++ [di] ++ bnd ++ bni ++ bna ++ bcks)). lia. }
  set (has := allow_extensions c && Z.testbit ind 2).
  set (cks := if has then adler_sum 0 T else 0).
  assert (CK : if has then varint bcks cks /\ cks <= 4294967295 else bcks = [] /\ cks = 0).
  { unfold checksum_field in CF. cbn [fmt f_ext] in CF. fold has in CF. unfold cks. destruct has; [|auto].
    split; [exact CF|]. pose proof (adler_sum_range 0 T). lia. }
  assert (0 <= int32_max) as I32 by (unfold int32_max; lia).
  destruct (header_complete c ns ss ind sb seg bd dl bt (zlen T) di bnd 0 bni ni bna 0 bcks cks body)
    as (kind & pos & KO & SLM & HF); auto; try lia.
  rewrite (decode_window_none c ns ss) by (auto; apply CO). rewrite HF. clear HF. fold has.
  set (fd := (kind, zlen seg, pos, zlen T, 0, ni, 0, cks, has)).
  assert (HR : header_rel c ns ss fd ([ind] ++ sb ++ bd ++ bt ++ [di] ++ bnd ++ bni ++ bna ++ bcks) seg).
  { exists ind, sb, bd, dl, bt, di, bnd, bni, bna, bcks.
    split; [reflexivity|]. split; [exact BI|]. split; [exact SG|]. split; [exact KO|]. split; [exact SLM|].
    split; [exact VD|]. split; [lia|]. split; [exact VT|]. split; [lia|]. split; [exact WE|]. split; [exact BDI|]. split; [exact DI|].
    split; [exact VND|]. split; [lia|]. split; [exact VNI|]. split; [lia|]. split; [exact VNA|]. split; [lia|].
    split; [reflexivity|]. split; [exact CK|]. lia. }
  pose proof (interleaved_iff c ns ss fd) as II. unfold fd in II. cbv iota beta in II. fold fd in II.
  assert (fields_il c fd = true) as IL by (apply II; split; [exact FE|split; reflexivity]).
  rewrite IL. cbn [negb andb].
  destruct (cache_init_some ns ss) as [ca CI]; [apply CO|apply CO|exact NSS|]. rewrite CI. cbv zeta.
  destruct (cache_init_like ns ss ca (co_ns _ _ _ CO) (co_ss _ _ _ CO) CI) as (CR & NS & SS).
  set (w := fields_window c fd ca) in *.
  pose proof (co_table _ _ _ CO) as TO. pose proof (co_win _ _ _ CO) as CW. rewrite DW in CW.
  assert (w_len w = zlen T) as WL by reflexivity.
  assert (w_seglen w = zlen seg) as WS by reflexivity.
  assert (w_expected w = ni) as EX. { cbn [w fields_window fd w_expected]. fold fd. rewrite IL. reflexivity. }
  assert (zlen seg + zlen T <= int32_max + 1) as SB.
  { destruct KO as [_ KK]. destruct kind.
    - rewrite KK. pose proof (zlen_nonneg _ (d_dict c)). lia.
    - apply slice_inv in KK. lia.
    - apply slice_inv in KK. lia. }
  assert (bytes_ok body) as BB.
  { apply bytes_ok_app in BW as [BW _]. repeat (apply bytes_ok_app in BW as [_ BW]). exact BW. }
  rewrite finish_il_eq. unfold loop.
  assert (ztake ni body = body) as TK.
  { apply ztake_all. lia. }
  set (st0 := {| b_il := true; b_inst := body; b_data := []; b_addr := [];
           b_pending := None; b_cache := ca; b_target := d_target c |}).
  assert (il_state w (d_target c) body = st0) as IS.
  { unfold il_state. rewrite EX, TK. reflexivity. }
  rewrite IS, EX, TK.
  assert (binv (d_dict c) (d_table c) w (d_target c) seg st0 [] []) as BV.
  { eapply binv_init; eauto; constructor. }
  destruct (body_loop_run (d_dict c) (d_table c) w (d_target c) seg ns ss done ([], []) (h1, T1) M1 ltac:(cbn [snd]; lia) ltac:(lia)
    [] st0 (Forall_nil _) BV eq_refl NS N253 SS) as (fuel & st' & RL & IN & TG).
  { cbn. reflexivity. }
  rewrite CW. rewrite (body_loop_fuel (d_dict c) (d_table c) w (d_target c) seg st0 [] [] fuel (XEod st') TO BV RL ltac:(discriminate)).
  rewrite IN, zlen_nil. cbv zeta. replace (zlen body - 0) with (zlen body) by lia.
  destruct (Z.ltb_spec 0 (ni - zlen body)); [|lia].
  rewrite zdrop_all by lia. eexists. split; [reflexivity|]. exact TG.
Qed.

(** Complete windows before it. *)
Lemma arun_then : forall t f dict ok prev ws out, windows t t f dict ok prev ws out ->
  forall ns ss k, t_slack t = false -> f = fmt k ns ss -> dict = d_dict k -> ok = limits k -> prev = d_target k ->
  core_ok ns ss k -> ns <= 253 -> ns + ss <= 254 -> d_win k = None -> tot_inv k -> lim_inv k ->
  bytes_ok ws -> zlen ws <= int32_max ->
  zlen (d_dict k) <= int32_max -> zlen out <= int32_max -> zlen (d_dict k) + zlen out <= int32_max + 1 ->
  has_planned k = false ->
  exists k', core_ok ns ss k' /\ d_win k' = None /\ tot_inv k' /\ lim_inv k' /\ d_target k' = out /\ d_dict k' = d_dict k /\
    limits k' = limits k /\ fmt k' ns ss = fmt k ns ss /\ has_planned k' = false /\
    forall y r, bytes_ok y -> arun k' y r -> arun k (ws ++ y) r.
Proof.
  induction 1 as [prev|prev w T rest out W K H IH]; intros ns ss k SL -> -> -> -> CO NS1 NSS WN TI LI BW ZW ZD ZO ZS UP.
  - exists k. cbn [app]. auto 12.
  - assert (Spec.window t (fmt k ns ss) (d_dict k) (d_target k) w T) as W' by (destruct rest; exact W). clear W.
    pose proof (window_nonempty _ _ _ _ _ _ W') as WNE.
    apply bytes_ok_app in BW as [BW BR]. destruct (windows_prefix _ _ _ _ _ _ _ _ H) as [m EM].
    rewrite zlen_app in ZW. pose proof (zlen_nonneg _ w). pose proof (zlen_nonneg _ rest). pose proof (zlen_nonneg _ T). pose proof (zlen_nonneg _ m).
    assert (zlen out = zlen (d_target k) + zlen T + zlen m) as ZE by (rewrite EM, !zlen_app; lia).
    pose proof (zlen_nonneg _ (d_target k)). pose proof (zlen_nonneg _ (d_dict k)).
    pose proof TI as TIK. destruct TI as [T0 TI]. rewrite WN in TI. destruct TI as [T1 T2]. destruct K as [[K1 K2] K3].
    assert (would_exceed k (zlen T) = false) as WE by (apply would_exceed_true; auto; lia).
    assert (forall y, bytes_ok y -> decode_window k (w ++ y) =
      XOk (set_win k None (zlen (d_target k ++ T)) (d_target k ++ T) (to_size (d_total k + zlen T)), y)) as DW.
    { intros y BY. refine (decode_window_complete k ns ss _ w T y CO NS1 NSS WN BW BY W' _ _ WE ZD _ _ _ _); auto; lia. }
    rewrite to_size_id in DW by (destruct LI as (L1 & L2 & L3 & _); unfold size_max in *; lia).
    rewrite T1, <- zlen_app in DW.
    set (k1 := set_win k None (zlen (d_target k ++ T)) (d_target k ++ T) (zlen (d_target k ++ T))) in *.
    pose proof (DW [] ltac:(constructor)) as DW0.
    assert (bytes_ok (w ++ [])) as BALL by (rewrite app_nil_r; auto).
    pose proof (decode_window_step k ns ss _ [] CO BALL ltac:(constructor)) as ST. rewrite DW0 in ST.
    destruct ST as (CO' & CS & WN' & _).
    pose proof (decode_window_len ns ss k _ CO BALL TIK LI) as DL. rewrite DW0 in DL. destruct DL as (TI' & LI' & _).
    destruct (IH ns ss k1) as (k' & A1 & A2 & A3 & A4 & A5 & A6 & A7 & A8 & A9 & A10); auto; try lia.
    exists k'. split; [exact A1|]. split; [exact A2|]. split; [exact A3|]. split; [exact A4|]. split; [exact A5|]. split; [exact A6|].
    split; [exact A7|]. split; [exact A8|]. split; [exact A9|].
    intros y r BY R. rewrite <- app_assoc. eapply run_step; [| | |apply (A10 y r BY R)].
    + intros E. apply app_eq_nil in E. tauto.
    + apply DW. apply bytes_ok_app. auto.
    + unfold reached_planned. change (has_planned k1) with (has_planned k). rewrite UP. reflexivity.
Qed.

Lemma item_bytes_nonempty : forall l, concat (map item_bytes l) = [] -> l = [].
Proof. intros [|i l] H; [reflexivity|]. discriminate H. Qed.

(** The input in several pieces, when the input in one piece leaves nothing unread. *)
Lemma pieces : forall d dict chunks k, idle d -> bytes_ok dict -> Forall bytes_ok chunks -> concat chunks <> [] ->
  acr (astart d dict) (concat chunks) (AOk (ADec k [] None)) ->
  exists d', decode_chunks (start_decoding d dict) chunks [] = Some (d', true, d_target k) /\ retained d' = [].
Proof.
  intros d dict chunks k ID BD F NE A1. pose proof (idle_ready d ID) as RD.
  destruct (stream_start d dict chunks RD BD F) as (R2 & A2 & M2).
  destruct (start_ok d dict RD BD) as (DR & OK & UP & MF).
  assert (chunks <> []) as CN by (intros ->; apply NE; reflexivity).
  destruct (acrs_concat _ _ _ _ F OK UP A2 A1 CN) as [SM|[_ X]]; [|discriminate X].
  destruct R2 as [a2| |]; try contradiction. cbn in SM.
  destruct (decode_chunks (start_decoding d dict) chunks []) as [[[d2 [|]] out2]|].
  - destruct M2 as (a2' & E & D2 & O2 & U2). injection E as <-. exists d2.
    inversion SM as [k2 u2 k' u' SR E1 E2|]; subst. destruct (srel_fields _ _ _ _ SR) as (TG & _).
    pose proof (drel_out _ _ _ D2) as O. cbn [acore] in O. split; [congruence|].
    rewrite (drel_unparsed _ _ _ _ D2). destruct SR as [E|(w & nops & _ & _ & _ & _ & E)]; [congruence|].
    assert ([] = nops ++ u2) as E' by (apply (f_equal snd) in E; exact E). symmetry in E'. apply app_eq_nil in E'. tauto.
  - destruct M2 as (E & _). discriminate E.
  - destruct M2 as (E & _). discriminate E.
Qed.

Theorem live : forall t d dict h v tbl ns ss ws out p q T1 T chunks, idle_plain d -> bytes_ok dict ->
  t_slack t = false -> head t t h v tbl ns ss -> ns + ss + 1 <= 255 ->
  let f := file_format v tbl ns ss (target_allowed d) in
  windows t t f dict (admits d) [] ws out -> cut_window f dict out p q T1 T -> admits d out T ->
  bytes_ok (h ++ ws ++ p ++ q) -> ~ bad_cache (h ++ ws ++ p ++ q) -> sizes_fit dict (h ++ ws ++ p ++ q) (out ++ T) ->
  Forall bytes_ok chunks -> concat chunks = h ++ ws ++ p ->
  exists d', decode_chunks (start_decoding d dict) chunks [] = Some (d', true, out ++ T1) /\ retained d' = [].
Proof.
  intros t d dict h v tbl ns ss ws out p q T1 T chunks IP BD SL HD MF f WS CU AD BX NB (Z1 & Z2 & Z3 & Z4) FC EQ.
  pose proof (idle_plain_idle d IP) as [ID _].
  destruct (start_facts d dict IP BD) as (k & EA & S & BO & DT & DD & DA & UP & LM).
  assert (bytes_ok (h ++ ws ++ p) /\ bytes_ok q) as [BP BQ].
  { rewrite !app_assoc in BX. apply bytes_ok_app in BX. rewrite app_assoc. tauto. }
  assert (~ bad_cache (h ++ ws ++ p)) as NBP.
  { intros B. apply NB. rewrite !app_assoc. apply bad_cache_app. rewrite <- app_assoc. exact B. }
  rewrite !zlen_app in Z1. rewrite zlen_app in Z3, Z4.
  pose proof (zlen_nonneg _ h). pose proof (zlen_nonneg _ ws). pose proof (zlen_nonneg _ p). pose proof (zlen_nonneg _ q). pose proof (zlen_nonneg _ out). pose proof (zlen_nonneg _ T). pose proof (zlen_nonneg _ dict).
  pose proof (cut_is_window _ _ _ _ _ _ _ CU) as WI.
  destruct (acr_head t t h v tbl ns ss k (ws ++ p) HD SL SL BO S DT) as (k1 & BO1 & S1 & SO & N254 & V1 & ST & DA1 & DD1 & LM1 & UP1 & HR1); auto.
  { rewrite !zlen_app. lia. }
  destruct (base_core k1 ns ss BO1 S1 SO) as (CO & TI & LI & _).
  assert (Sound.same_format f (fmt k1 ns ss)) as SF.
  { assert (Sound.same_format (fmt k1 ns ss) f) as SF.
    { unfold f. rewrite <- V1, <- DA, <- DA1. apply fmt_file. intros op O. symmetry. apply ST. exact O. }
    destruct SF as (X1 & X2 & X3 & X4 & X5). unfold Sound.same_format in *. repeat split; auto; try (intros op O; symmetry; auto). }
  assert (windows t t (fmt k1 ns ss) (d_dict k1) (limits k1) [] ws out) as WS1.
  { rewrite DD1, DD. refine (windows_ext _ _ _ _ _ _ _ _ _ (tle_refl _) (tle_refl _) SF _ _ _ _ WS).
    intros p0 T0. rewrite LM1. apply LM. }
  assert (ns <= 253 /\ ns + ss <= 254) as [N253 NSS] by (destruct SO; lia).
  assert (bytes_ok ws /\ bytes_ok p) as [BW BPP].
  { apply bytes_ok_app in BP as [_ BP]. apply bytes_ok_app in BP. exact BP. }
  destruct (arun_then t _ _ _ _ _ _ WS1 ns ss k1) as (k' & CO' & WN' & TI' & LI' & TG' & DD' & LM' & FM' & UP' & RUN); auto; rewrite ?DD1, ?DD; try lia.
  { rewrite (bo_target _ BO1). reflexivity. }
  { apply BO1. }
  assert (cut_window (fmt k' ns ss) (d_dict k') (d_target k') p q T1 T) as CU'.
  { rewrite FM', DD', DD1, DD, TG'. eapply cut_window_ext; eauto. }
  apply LM in AD. destruct AD as [[K1 K2] K3].
  assert (would_exceed k' (zlen T) = false) as WE.
  { assert (limits k' out T) as LK. { rewrite LM', LM1. split; [split; assumption|assumption]. }
    destruct LK as [[Y1 Y2] Y3]. pose proof TI' as [T0 TT]. rewrite WN' in TT. destruct TT as [TT1 TT2].
    apply would_exceed_true; auto; rewrite ?TT1, ?TG'; try lia. }
  assert (zlen (d_dict k') <= int32_max) as ZD' by (rewrite DD', DD1, DD; exact Z2).
  assert (exists r kk, arun k' p r /\ collapse r = AOk (ADec kk [] None) /\ d_target kk = out ++ T1) as (r & kk & R & CR & TG).
  { destruct (list_eq_dec Z.eq_dec q []) as [-> |QN].
    - (* the whole window *)
      assert (T1 = T) as ->.
      { inversion CU as [ind sb seg bd dl bt di bnd bni ni bna bcks done todo hh1 T1' hist T' FE BI SG VD VT BDI DI VND VNI VNA CF NI DL M1 M2 E1 E2 E3 E4]; subst.
        apply item_bytes_nonempty in E2. subst todo. inversion M2; subst; reflexivity. }
      rewrite app_nil_r in WI.
      pose proof (decode_window_complete k' ns ss strict p T [] CO' N253 NSS WN' BPP ltac:(constructor)) as DW.
      rewrite FM', DD', DD1, DD, TG' in DW. rewrite app_nil_r in DW.
      eexists (XOk (_, [])), _. split; [eapply run_step; [apply (window_nonempty _ _ _ _ _ _ WI)|apply DW| |apply run_nil]|].
      + eapply window_ext; eauto.
      + reflexivity.
      + lia.
      + exact WE.
      + lia.
      + lia.
      + lia.
      + lia.
      + lia.
      + unfold reached_planned. change (has_planned (set_win _ _ _ _ _)) with (has_planned k'). rewrite UP'. reflexivity.
      + split; [reflexivity|]. reflexivity.
    - destruct (decode_window_cut k' ns ss p q T1 T) as (kk & DW & TG); auto; rewrite ?DD', ?DD1, ?DD, ?TG'; try lia.
      { apply bytes_ok_app; auto. }
      { rewrite zlen_app. lia. }
      exists (XEod (kk, [])), kk. split; [apply run_eod; [|exact DW]|].
      { inversion CU; discriminate. }
      split; [reflexivity|]. rewrite TG, TG'. reflexivity. }
  pose proof (HR1 r (RUN p r BPP R)) as A. rewrite CR in A. rewrite <- EA in A. rewrite <- EQ in A.
  destruct (pieces d dict chunks kk ID BD FC) as (d' & DC & RT); auto.
  { rewrite EQ. intros E. apply app_eq_nil in E as [_ E]. apply app_eq_nil in E as [_ E]. inversion CU; subst; discriminate. }
  exists d'. rewrite <- TG. auto.
Qed.
