(** A stalled window of the interleaved format stays stalled, whatever follows. *)

From Verif Require Import Base ListFacts Spec SpecParts SpecBegun SpecYield SpecStalled Varint VarintFacts AddrCache CodeTable HeaderParser InstructionMap DecodeTable Decoder
  BodyFacts WindowExt WindowHeader WindowStep WindowFacts Refine Totals Abstract FileHeader Chunk Sim Usable Stream Session Reuse Unique Sound Complete Files Fields OutputCalls Chunked Count Kept Held BegunFacts FailedFacts Prompt InTime.
From Coq Require Import ZifyBool ZifyNat.

Lemma decode_window_stays : forall k ns ss c1 u1 hd D body rest y, core_ok ns ss k -> d_win k = None -> bytes_ok (hd ++ body ++ rest) ->
  decode_window k (hd ++ body ++ rest) = XEod (c1, u1) ->
  declares (allow_extensions k) hd D -> zlen body = h_data_len D + h_inst_len D + h_addr_len D ->
  decode_window k ((hd ++ body ++ rest) ++ y) = XEod (c1, u1 ++ y).
Proof.
  intros k ns ss c1 u1 hd D body rest y CO WN BZ DW DC ZB.
  rewrite (decode_window_none k ns ss) in * by (auto; apply CO).
  pose proof (header_fields_mono k (hd ++ body ++ rest) y) as HM.
  destruct (header_fields k (hd ++ body ++ rest)) as [[fd l]| | |] eqn:HF; try discriminate DW.
  2:{ destruct (declares_not_eod k hd D _ BZ DC HF). }
  rewrite HM.
  destruct (header_sound k ns ss _ fd l BZ HF) as (hdr & seg0 & ED & HR & BL). symmetry in ED.
  pose proof (interleaved_iff k ns ss fd) as II.
  destruct fd as [[[[[[[[kind seglen] pos] tl] nd0] ni0] na0] cks] has].
  destruct (rel_declares _ _ _ _ _ _ _ _ _ _ _ _ _ _ _ _ _ _ HR DC ED) as (-> & -> & E1 & E2 & E3).
  destruct (fields_il _ _) eqn:IL.
  - cbn [negb andb] in *. destruct (cache_init ns ss) as [ca|] eqn:CI; [|discriminate DW]. cbv zeta in *.
    destruct (proj1 II eq_refl) as (EX & N1 & N2).
    set (w := fields_window k (kind, seglen, pos, tl, nd0, ni0, na0, cks, has) ca) in *.
    assert (w_expected w = zlen body) as WE.
    { unfold w. cbn [fields_window w_expected]. rewrite IL. lia. }
    clearbody w. rewrite finish_il_eq in *. rewrite WE in *.
    assert (forall z, ztake (zlen body) ((body ++ rest) ++ z) = body) as ZK.
    { intros z. rewrite <- app_assoc. apply ztake_app_eq. reflexivity. }
    assert (forall z, il_state w (d_target k) ((body ++ rest) ++ z) = il_state w (d_target k) (body ++ rest)) as IS.
    { intros z. unfold il_state. rewrite WE, ZK. rewrite <- (app_nil_r (body ++ rest)) at 1. rewrite ZK. reflexivity. }
    rewrite IS, ZK. pose proof (ZK []) as ZK0. rewrite app_nil_r in ZK0. rewrite ZK0 in DW.
    destruct (loop _ _ _ _ _) as [st'|st'| | |] eqn:LP; try discriminate DW.
    + exfalso. destruct (_ && _ && _); [discriminate DW|]. destruct (_ && _ && _); discriminate DW.
    + cbv zeta in *. destruct (0 <? _) eqn:PP; [|discriminate DW].
      assert (zdrop (zlen body - zlen (b_inst st')) ((body ++ rest) ++ y) = zdrop (zlen body - zlen (b_inst st')) (body ++ rest) ++ y) as ZD.
      { apply zdrop_app_le. pose proof (zlen_nonneg _ (b_inst st')). rewrite zlen_app. pose proof (zlen_nonneg _ rest). lia. }
      rewrite ZD. congruence.
  - exfalso. cbn [negb andb] in DW. cbn [fields_total] in DW.
    destruct (Z.ltb_spec (zlen (body ++ rest)) (nd0 + ni0 + na0)) as [LT|_].
    { rewrite zlen_app in LT. pose proof (zlen_nonneg _ rest). lia. }
    destruct (cache_init ns ss) as [ca|] eqn:CI; [|discriminate DW]. cbv zeta in DW.
    match type of DW with finish_window _ ?total _ _ _ ?after = _ =>
      pose proof (finish_std k ns ss _ hd seg0 ca total (body ++ rest) after CO WN HR CI BL) as FS end.
    rewrite DW in FS. exact FS.
Qed.

(** [wcame_late], and what happens with more data when the window is complete. *)
Lemma wcame_stays : forall k0 ns ss W Ts k u, wcame k0 ns ss W Ts k u -> ~ stopped k -> core_ok ns ss k -> bytes_ok u ->
  exists ws z m, W = ws ++ z /\ windows_parts lax lax (fmt k0 ns ss) (d_dict k0) (limits k0) (d_target k0) ws Ts /\
    (forall f, Unique.same_format (fmt k0 ns ss) f -> exhausted f (d_dict k0) (d_target k0 ++ concat Ts) z m) /\
    forall hd body rest, complete_window (allow_extensions k0) z hd body rest ->
      (d_win k <> None \/ u <> []) /\
      forall y, bytes_ok y -> exists p, decode_window k (u ++ y) = XEod p.
Proof.
  intros k0 ns ss W Ts k u (ks & ws & z & -> & AW & BZ & ALT) NS COK BU.
  pose proof (aw_means _ _ _ _ _ _ AW) as WS. pose proof (aw_target _ _ _ _ _ _ AW) as TG.
  destruct ALT as [(_ & <- & ST)|[(_ & -> & _ & ->)|(NSK & ZN & [c1 u1] & DW & SR)]]; [contradiction| |].
  - exists ws, [], []. rewrite !app_nil_r. split; [reflexivity|]. split; [exact WS|]. split; [intros; apply exhausted_nil|].
    intros hd body rest C. destruct (complete_ne _ _ _ _ _ C eq_refl).
  - pose proof (aw_core _ _ _ _ _ _ AW) as CO.
    pose proof (decode_window_step ks ns ss z [] CO BZ ltac:(constructor)) as STP. rewrite DW in STP.
    destruct STP as (_ & CS & _ & _ & OPEN & _). destruct (cstep_out _ _ CS) as (_ & (m & EM) & _).
    exists ws, z, m. split; [reflexivity|]. split; [exact WS|].
    destruct (aw_step _ _ _ _ _ _ AW) as (w0 & s0 & m0 & t0 & EK). rewrite <- TG.
    replace (fmt k0 ns ss) with (fmt ks ns ss) by (rewrite EK; reflexivity).
    replace (d_dict k0) with (d_dict ks) by (rewrite EK; reflexivity).
    replace (allow_extensions k0) with (allow_extensions ks) by (rewrite EK; reflexivity).
    split.
    + intros f SF. destruct (decode_window_prompt ks ns ss z c1 u1 f CO (aw_win _ _ _ _ _ _ AW) BZ DW SF) as [P1 P2].
      split; [exact P1|]. intros w rest L m' E B. destruct (P2 w rest L m' E B) as (e & T1). exists e.
      apply (app_inv_head (d_target ks)). congruence.
    + intros hd body rest (EZ & D & DC & ZB). split.
      * destruct SR as [E|(w & nops & DWK & _)]; [|left; cbn [fst] in DWK; congruence].
        destruct OPEN as [[-> ->]|(_ & w' & W')]; [right; congruence|left; congruence].
      * intros y BY. subst z. pose proof (decode_window_stays ks ns ss c1 u1 hd D body rest y CO (aw_win _ _ _ _ _ _ AW) BZ DW DC ZB) as DY.
        pose proof (decode_window_step ks ns ss _ y CO BZ BY) as STY. rewrite DW in STY. destruct STY as (_ & _ & _ & _ & _ & WR). rewrite DY in WR.
        pose proof (decode_window_srel ns ss k u c1 u1 y COK SR BU BY) as WR0.
        destruct (decode_window c1 (u1 ++ y)); try discriminate WR.
        destruct (decode_window k (u ++ y)); try discriminate WR0. eauto.
Qed.

(** One more call for a decoder that waits for a stalled window. *)
Lemma stays_call : forall d a O k u y, drel O d a -> a = ADec k u None -> aok a -> unplanned a -> bytes_ok y -> d_sizes k <> None ->
  (forall y, bytes_ok y -> exists p, decode_window k (u ++ y) = XEod p) -> (d_win k <> None \/ u <> []) ->
  exists d' o, decode_chunk d y = CRet d' true o.
Proof.
  intros d a O k u y DR EA OK UP BY SZ ST OPEN. pose proof (unplanned_stopped a UP) as NS.
  pose proof (decode_chunk_sim d y O a DR OK NS BY) as SM.
  assert (exists r, acr a y r /\ exists a', r = AOk a') as (r & AC & a' & ->).
  { subst a. destruct (ST y BY) as ([k' u'] & DW).
    assert (aheader k None (u ++ y) = Ok (k, None, u ++ y)) as AH by (unfold aheader; destruct (d_sizes k); [reflexivity|congruence]).
    destruct (list_eq_dec Z.eq_dec (u ++ y) []) as [E|NE].
    - eexists. split; [eapply acr_win; [exact AH|rewrite E; constructor]|]. eexists. reflexivity.
    - eexists. split; [eapply acr_win; [exact AH|apply run_eod; [exact NE|exact DW]]|]. eexists. reflexivity. }
  destruct (decode_chunk d y) as [d' [|] o| |].
  - eauto.
  - destruct SM as (A & _). pose proof (acr_fun _ _ _ A _ AC). congruence.
  - pose proof (acr_fun _ _ _ SM _ AC). congruence.
  - contradiction.
Qed.

(** The state of a decoder that has received a complete invalid window. *)
Lemma chunks_stay : forall d dict chunks d' out, idle_plain d -> bytes_ok dict -> Forall bytes_ok chunks ->
  decode_chunks (start_decoding d dict) chunks [] = Some (d', true, out) ->
  forall t tl t' tl' ok allow h v tbl ns ss ws hd body rest Ts D, concat chunks = h ++ ws ++ hd ++ body ++ rest -> head t tl h v tbl ns ss ->
    windows_parts t' tl' (file_format v tbl ns ss allow) dict ok [] ws Ts ->
    declares (v =? 83) hd D -> zlen body = h_data_len D + h_inst_len D + h_addr_len D ->
    ~ (exists w1 w2 T, hd ++ body = w1 ++ w2 /\
       Spec.window lax (file_format v tbl ns ss (target_allowed d)) dict (concat Ts) w1 T /\ admits d (concat Ts) T) ->
    snd (finish_decoding d') = false /\ forall y, bytes_ok y -> exists d'' o, decode_chunk d' y = CRet d'' true o.
Proof.
  intros d dict chunks d' out IP BD F DC t tl t' tl' ok allow h v tbl ns ss ws hd body rest Ts D EC HD WP DCL ZB INV.
  pose proof (idle_plain_idle d IP) as [ID _]. pose proof (idle_ready d ID) as RD.
  destruct (start_facts d dict IP BD) as (k & EA & S & BO & DT & DD & DA & UP & LM).
  destruct (start_ok d dict RD BD) as (DR0 & OK & U & _). rewrite EA in *.
  destruct (chunks_within chunks _ [] _ k [] [] [] d' out DR0 OK U (came_start k []) S BO DT ltac:(constructor) F DC)
      as (Ts0 & more & a & CM & DR & OKA & UA & EO & _). cbn [app] in *. subst more.
  destruct (came_header _ _ _ _ CM OKA S BO _ _ _ _ _ _ _ _ EC HD) as (k1 & k2 & u & -> & BO1 & S1 & ST & EV & EAL & EDI & ELM & WC).
  assert (~ stopped k2) as NS by (apply unplanned_stopped in UA; exact UA).
  pose proof (wcame_core _ _ _ _ _ _ _ WC) as SK.
  assert (core_ok ns ss k2 /\ bytes_ok u) as [COK BU].
  { inversion OKA as [k0 u0 B0 S0 BU HE E|k0 n0 ns0 ss0 B0 S0 SO0 ON PN TN E|ns0 ss0 k0 u0 CO0 BU0 Q TI LI EX E]; subst; [congruence|].
    split; [|exact BU0]. pose proof (co_sizes _ _ _ CO0) as S2. rewrite SK in S2. injection S2 as -> ->. exact CO0. }
  destruct (wcame_stays _ _ _ _ _ _ _ WC NS COK BU) as (ws0 & z & m & EW & WS & EXH & STAY).
  rewrite (bo_target _ BO1) in WS, EXH. cbn [app] in *. rewrite EDI, DD in WS, EXH.
  assert (Unique.same_format (fmt k1 ns ss) (file_format v tbl ns ss allow)) as SF.
  { pose proof (head_near _ _ _ _ _ _ _ HD) as HN. pose proof (fmt_file k1 ns ss tbl ST) as (Q1 & Q2 & Q3 & Q4 & _). rewrite EV in Q1.
    split; [cbn in *; congruence|split; [exact HN|split; [reflexivity|split; [reflexivity|]]]]. exact Q2. }
  assert (Sound.same_format (fmt k1 ns ss) (file_format v tbl ns ss (target_allowed d))) as SF2.
  { pose proof (fmt_file k1 ns ss tbl ST) as Q. rewrite EV, EAL, DA in Q. exact Q. }
  assert (allow_extensions k1 = (v =? 83)) as AE.
  { destruct SF2 as (Q & _). cbn in Q. exact Q. }
  assert (complete_window (v =? 83) (hd ++ body ++ rest) hd body rest) as CW by (split; [reflexivity|eauto]).
  destruct (parts_align _ _ _ _ _ _ _ _ WS _ _ _ _ _ _ _ _ SF WP (eq_sym EW)) as [(-> & -> & ->)|[(t1 & w & T & r & EZ & W & K & TT)|(t1 & w & T & r & EZ & W)]].
  - rewrite AE in STAY. destruct (STAY hd body rest CW) as [OPEN STEP]. split.
    + destruct (drel_finish _ _ _ DR OKA) as (c & n & ED & FI & _). rewrite FI. cbn [acomplete]. rewrite SK.
      destruct (d_win k2) eqn:DWK; [reflexivity|]. destruct OPEN as [X|UN]; [congruence|].
      unfold reached_planned. unfold unplanned in UA. cbn [acore] in UA. rewrite UA. cbn [andb]. destruct u; [congruence|reflexivity].
    + intros y BY. eapply (stays_call d' (ADec k2 u None) out k2 u); eauto. congruence.
  - exfalso. apply INV. assert (Spec.window lax (file_format v tbl ns ss (target_allowed d)) dict (concat Ts) w T) as W'.
    { destruct TT as [-> | ->]; eapply window_ext; eauto. }
    destruct (complete_covers _ _ _ _ _ _ _ _ _ _ _ W' EZ CW) as (w2 & E2 & V2).
    exists w, w2, T. split; [exact E2|]. split; [exact W'|]. cbn [app] in K. rewrite ELM in K. apply LM. exact K.
  - exfalso. destruct (EXH _ SF) as [NW _]. exact (NW _ _ _ _ EZ W).
Qed.

Lemma stalled_same : forall f dict prev w m m', stalled f dict prev w m -> stalled f dict prev w m' -> m = m'.
Proof.
  intros f dict prev w m m' (b & r & L & E & _ & B & MX) (b' & r' & L' & E' & _ & B' & MX').
  destruct (MX b' r' L' m' E' B') as (e & E1). destruct (MX' b r L m E B) as (e' & E2).
  assert (e = []) as ->; [|rewrite app_nil_r in E1; exact E1].
  rewrite E1, <- app_assoc in E2. rewrite <- (app_nil_r m') in E2 at 1. apply app_inv_head in E2. symmetry in E2. apply app_eq_nil in E2. tauto.
Qed.
