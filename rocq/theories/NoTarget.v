(** SetAllowVcdTarget: decoding with and without it. *)

From Verif Require Import Base Spec Varint VarintFacts AddrCache AddrCacheFacts CodeTable CodeTableFacts
  InstructionMap DecodeTable HeaderParser Adler AdlerFacts Decoder CopyFacts BodyFacts BodyExt WindowExt
  WindowHeader WindowStep WindowFacts Refine Totals Abstract FileHeader Chunk Sim Stream Session Reuse Usable Sound Complete Truncate Files Chunked.
From Coq Require Import ZifyBool ZifyNat.

(** The same state with the other setting *)
Definition wa (b : bool) (k : core) : core := set_limits k (d_max_file k) (d_max_window k) b (d_planned k).
Definition wap (b : bool) (p : core * list Z) : core * list Z := (wa b (fst p), snd p).
Definition wad (b : bool) (r : dres) : dres := xmap (wap b) r.
Definition waa (b : bool) (a : adec) : adec := let '(ADec k u n) := a in ADec (wa b k) u n.
Definition war (b : bool) (r : ares) : ares := match r with AOk a => AOk (waa b a) | AErr => AErr | AUB => AUB end.

Lemma wa_same : forall k, wa (d_allow k) k = k.
Proof. intros []. reflexivity. Qed.
Lemma wa_wa : forall a b k, wa a (wa b k) = wa a k.
Proof. intros a b []. reflexivity. Qed.
Lemma waa_waa : forall a b x, waa a (waa b x) = waa a x.
Proof. intros a b [k u n]. cbn. rewrite wa_wa. reflexivity. Qed.
Lemma wad_collapse : forall b r, collapse (wad b r) = war b (collapse r).
Proof. intros b [[k u]|[k u]| | |]; reflexivity. Qed.

(** A window with the flag VCD_TARGET begins here. *)
Definition wflag (k : core) (data : list Z) : Prop :=
  d_win k = None /\ exists ind tl, data = ind :: tl /\ Z.testbit ind 1 = true.
Lemma wflag_dec : forall k data, {wflag k data} + {~ wflag k data}.
Proof.
  intros k data. unfold wflag. destruct (d_win k); [right; intros [H _]; discriminate|].
  destruct data as [|ind tl]; [right; intros [_ (i & t & H & _)]; discriminate|].
  destruct (Z.testbit ind 1) eqn:E; [left; split; eauto|]. right. intros [_ (i & t & H & F)]. injection H as <- <-. congruence.
Qed.

Lemma read_header_wa : forall b k data, (forall ind tl, data = ind :: tl -> Z.testbit ind 1 = false) ->
  read_header (wa b k) data = read_header k data.
Proof.
  intros b k data NF. unfold read_header.
  assert (parse_win_indicator (zlen (d_dict (wa b k))) (zlen (d_target (wa b k))) (d_allow (wa b k)) data =
          parse_win_indicator (zlen (d_dict k)) (zlen (d_target k)) (d_allow k) data) as ->; [|reflexivity].
  unfold parse_win_indicator. destruct data as [|ind tl]; [reflexivity|]. cbn [parse_byte bind]. rewrite (NF ind tl eq_refl). reflexivity.
Qed.

Lemma decode_window_wa : forall b k data, ~ wflag k data -> decode_window (wa b k) data = wad b (decode_window k data).
Proof.
  intros b k data NF. unfold decode_window. change (d_win (wa b k)) with (d_win k). destruct (d_win k) as [w|] eqn:W.
  - cbv zeta. change (d_target (wa b k)) with (d_target k). unfold finish_window. cbn [wa set_limits d_dict d_table d_start d_total].
    destruct (decode_body _ _ _ _ _) as [st'|st'| | |]; try reflexivity. cbv zeta. destruct (_ && _); reflexivity.
  - rewrite read_header_wa; [|intros ind tl E; destruct (Z.testbit ind 1) eqn:T; [destruct NF; split; eauto|reflexivity]].
    destruct (read_header k data) as [[[[w st] after] l]| | |]; try reflexivity.
    unfold finish_window. cbn [wa set_limits d_dict d_table d_start d_total].
    destruct (decode_body _ _ _ _ _) as [st'|st'| | |]; try reflexivity. cbv zeta. destruct (_ && _); reflexivity.
Qed.

Lemma decode_window_flag : forall k data, wflag k data -> d_allow k = false -> decode_window k data = XErr.
Proof.
  intros k data (W & ind & tl & -> & F) A. unfold decode_window. rewrite W.
  assert (read_header k (ind :: tl) = Err) as ->; [|reflexivity].
  unfold read_header, parse_win_indicator. cbn [parse_byte bind]. rewrite F, A. cbn [negb]. destruct (Z.testbit ind 0); reflexivity.
Qed.

(** The setting does not change. *)
Lemma decode_window_allow : forall k data, match decode_window k data with XOk (k', _) | XEod (k', _) => d_allow k' = d_allow k | _ => True end.
Proof.
  intros k data. unfold decode_window, finish_window. destruct (d_win k).
  - cbv zeta. destruct (decode_body _ _ _ _ _) as [st'|st'| | |]; try exact Logic.I; [reflexivity|]. destruct (_ && _); reflexivity.
  - destruct (read_header k data) as [[[[w st] after] l]| | |]; try exact Logic.I; [|reflexivity].
    destruct (decode_body _ _ _ _ _) as [st'|st'| | |]; try exact Logic.I; [reflexivity|]. cbv zeta. destruct (_ && _); reflexivity.
Qed.
Lemma arun_keeps : forall k data r, arun k data r -> match r with XOk (k', _) | XEod (k', _) => d_allow k' = d_allow k | _ => True end.
Proof.
  induction 1 as [k|k data k' rest NE DW RP|k data k' rest r NE DW RP H IH|k data p NE DW|k data NE DW|k data NE DW]; auto;
    pose proof (decode_window_allow k data) as D; rewrite DW in D; auto.
  destruct r as [[k2 u2]|[k2 u2]| | |]; auto; congruence.
Qed.

(** ** From "not allowed" to "allowed" *)

Lemma arun_allow : forall k data r, arun k data r -> d_allow k = false -> r <> XErr -> arun (wa true k) data (wad true r).
Proof.
  induction 1 as [k|k data k' rest NE DW RP|k data k' rest r NE DW RP H IH|k data p NE DW|k data NE DW|k data NE DW]; intros A N.
  - constructor.
  - destruct (wflag_dec k data) as [F|F]; [rewrite (decode_window_flag _ _ F A) in DW; discriminate|].
    pose proof (decode_window_wa true k data F) as E. rewrite DW in E. eapply run_stop; eauto.
  - destruct (wflag_dec k data) as [F|F]; [rewrite (decode_window_flag _ _ F A) in DW; discriminate|].
    pose proof (decode_window_wa true k data F) as E. rewrite DW in E. eapply run_step; eauto. apply IH; [|exact N].
    pose proof (decode_window_allow k data) as D. rewrite DW in D. congruence.
  - destruct (wflag_dec k data) as [F|F]; [rewrite (decode_window_flag _ _ F A) in DW; discriminate|].
    pose proof (decode_window_wa true k data F) as E. rewrite DW in E. eapply run_eod; eauto.
  - congruence.
  - destruct (wflag_dec k data) as [F|F]; [rewrite (decode_window_flag _ _ F A) in DW; discriminate|].
    pose proof (decode_window_wa true k data F) as E. rewrite DW in E. eapply run_ub; eauto.
Qed.

Lemma aheader_wa : forall b k n data, aheader (wa b k) n data =
  match aheader k n data with Ok (k', n', rest) => Ok (wa b k', n', rest) | Eod => Eod | Err => Err | UB => UB end.
Proof.
  intros b k n data. unfold aheader. change (d_sizes (wa b k)) with (d_sizes k). destruct (d_sizes k); [reflexivity|].
  destruct (check_magic data); cbn [bind]; try reflexivity. cbv zeta. destruct (Z.testbit _ 0); [reflexivity|]. destruct (Z.testbit _ 1); [|reflexivity].
  destruct (parse_cache_sizes _) as [[[ns ss] rest]| | |]; cbn [bind]; reflexivity.
Qed.

Lemma aheader_allow : forall k n data k' n' rest, aheader k n data = Ok (k', n', rest) -> d_allow k' = d_allow k.
Proof.
  intros k n data k' n' rest H. unfold aheader in H. destruct (d_sizes k); [injection H as <- _ _; reflexivity|].
  destruct (check_magic data); cbn [bind] in H; try discriminate. cbv zeta in H. destruct (Z.testbit _ 0); [discriminate|]. destruct (Z.testbit _ 1); [|injection H as <- _ _; reflexivity].
  destruct (parse_cache_sizes _) as [[[ns ss] r]| | |]; cbn [bind] in H; try discriminate. injection H as <- _ _. reflexivity.
Qed.

Lemma acr_keeps : forall a x a', acr a x (AOk a') -> d_allow (acore a') = d_allow (acore a).
Proof.
  assert (forall r a' k data, arun k data r -> collapse r = AOk a' -> d_allow (acore a') = d_allow k) as C.
  { intros r a' k data R E. apply arun_keeps in R. destruct r as [[k2 u2]|[k2 u2]| | |]; try discriminate; injection E as <-; exact R. }
  intros a x a' H. inversion H as [| k u n data E1| |k u n data k1 rest r E1 R E2 E3 E4|k u n data k1 nd rest r1 r E1 H1 AF E2 E3 E4]; subst; cbn [acore]; auto.
  - rewrite <- (aheader_allow _ _ _ _ _ _ E1). eauto.
  - rewrite <- (aheader_allow _ _ _ _ _ _ E1). inversion AF as [| |nd0 L F1 F2| |nd0 ns ss t b r L CP S2 U R F1 F2]; subst; [reflexivity|].
    rewrite (C _ _ _ _ R F2). reflexivity.
Qed.

Lemma acr_allow : forall a x a', acr a x (AOk a') -> d_allow (acore a) = false -> acr (waa true a) x (AOk (waa true a')).
Proof.
  intros a x a' H A. inversion H as [| k u n data E1| |k u n data k1 rest r E1 R E2 E3 E4|k u n data k1 nd rest r1 r E1 H1 AF E2 E3 E4]; subst; cbn [waa acore] in *.
  - apply acr_eod. rewrite aheader_wa, E1. reflexivity.
  - change (AOk (waa true a')) with (war true (AOk a')). rewrite <- E4, <- wad_collapse. eapply acr_win; [rewrite aheader_wa, E1; reflexivity|].
    apply arun_allow; [exact R|rewrite (aheader_allow _ _ _ _ _ _ E1); exact A|]. intros ->. discriminate.
  - eapply acr_table; [rewrite aheader_wa, E1; reflexivity|exact H1|]. pose proof (aheader_allow _ _ _ _ _ _ E1) as A1.
    inversion AF as [| |nd0 L F1 F2| |nd0 ns ss t b r L CP S2 U R F1 F2]; subst.
    + apply after_more. exact L.
    + change (AOk (waa true a')) with (war true (AOk a')). rewrite <- F2, <- wad_collapse.
      eapply after_done; eauto. eapply (arun_allow _ _ _ R); [rewrite <- A, <- A1; reflexivity|]. intros ->. discriminate.
Qed.

(** ** The other direction *)

Definition flagged_windows (k0 : core) (ns ss : Z) (W : list Z) : Prop :=
  exists ws Ts ks ind rest, W = ws ++ ind :: rest /\ at_window k0 ns ss ws Ts ks /\ Z.testbit ind 1 = true.

Lemma arun_same : forall b ks data r, arun ks data r -> forall k0 ns ss ws Ts, at_window k0 ns ss ws Ts ks -> ~ stopped ks -> bytes_ok data ->
  arun (wa b ks) data (wad b r) \/ flagged_windows k0 ns ss (ws ++ data).
Proof.
  induction 1 as [k1|k1 data k2 rest NE DW RP|k1 data k2 rest r NE DW RP H IH|k1 data p NE DW|k1 data NE DW|k1 data NE DW]; intros k0 ns ss ws Ts AW NS BD;
    try (destruct (wflag_dec k1 data) as [(_ & ind & tl & E & F)|NF]; [right; exists ws, Ts, k1, ind, tl; rewrite E; auto|pose proof (decode_window_wa b k1 data NF) as E; rewrite DW in E]).
  - left. constructor.
  - left. eapply run_stop; eauto.
  - destruct (at_window_next _ _ _ _ _ _ _ _ _ AW NS BD DW) as (wb & T & -> & BR & AW').
    destruct (IH k0 ns ss (ws ++ wb) _ AW') as [R|(ws' & Ts' & ks' & ind & tl & EW & AW2 & F)]; [intros [_ X]; congruence|exact BR| |].
    + left. eapply run_step; eauto.
    + right. exists ws', Ts', ks', ind, tl. rewrite <- EW, <- app_assoc. auto.
  - left. eapply run_eod; eauto.
  - left. eapply run_err; eauto.
  - left. eapply run_ub; eauto.
Qed.

Lemma wcame_same : forall b k0 ns ss W Ts k u y r, wcame k0 ns ss W Ts k u -> core_ok ns ss k -> ~ stopped k -> bytes_ok u -> bytes_ok y ->
  arun k (u ++ y) r -> arun (wa b k) (u ++ y) (wad b r) \/ flagged_windows k0 ns ss (W ++ y).
Proof.
  intros b k0 ns ss W Ts k u y r (ks & ws & z & -> & AW & BZ & ALT) CO NS BU BY H.
  destruct ALT as [(_ & _ & ST)|[(NS' & -> & -> & ->)|(NS' & ZN & p & DW & SR)]]; [tauto| |].
  - rewrite app_nil_r. cbn [app] in *. eapply arun_same; eauto.
  - destruct p as [c1 u1]. pose proof (decode_window_step ks ns ss z y (aw_core _ _ _ _ _ _ AW) BZ BY) as ST. rewrite DW in ST.
    destruct ST as (_ & _ & _ & _ & ALT & WR).
    destruct (wflag_dec k (u ++ y)) as [(WN & ind & tl & E & F)|NF].
    { right. destruct SR as [SR|(w & nops & WS & _)]; [|cbn [fst] in WS; congruence]. injection SR as -> ->.
      destruct ALT as [[<- <-]|[_ (w & WS)]]; [|congruence]. exists ws, Ts, c1, ind, tl. rewrite <- E, <- app_assoc. auto. }
    pose proof (decode_window_srel ns ss k u c1 u1 y CO SR BU BY) as WR0.
    assert (bytes_ok (z ++ y)) as BZY by (apply bytes_ok_app; auto).
    pose proof (decode_window_wa b k (u ++ y) NF) as E. rewrite <- app_assoc.
    inversion H as [k1 E1 E2|k1 data k2 rest NE' D RP E1 E2|k1 data k2 rest r' NE' D RP H' E1 E2|k1 data p NE' D E1 E2|k1 data NE' D E1 E2|k1 data NE' D E1 E2]; subst.
    + left. constructor.
    + left. rewrite D in E. eapply run_stop; eauto.
    + rewrite D in E. rewrite D in WR0. cbn in WR0. rewrite <- WR0 in WR. cbn in WR. symmetry in WR.
      destruct (at_window_next _ _ _ _ _ _ _ _ _ AW NS' BZY WR) as (wb & T & EZ & BR & AW').
      destruct (arun_same b _ _ _ H' k0 ns ss (ws ++ wb) _ AW') as [R|FW]; [intros [_ X]; congruence|exact BR| |].
      * left. eapply run_step; eauto.
      * right. rewrite EZ, app_assoc. exact FW.
    + left. rewrite D in E. eapply run_eod; eauto.
    + left. rewrite D in E. eapply run_err; eauto.
    + left. rewrite D in E. eapply run_ub; eauto.
Qed.

(** A window with the flag follows a well-formed beginning. *)
Definition flagged (k : core) (X : list Z) : Prop :=
  exists h v tbl ns ss ws prev ind rest, X = h ++ ws ++ ind :: rest /\ head lax lax h v tbl ns ss /\
    windows lax lax (file_format v tbl ns ss (d_allow k)) (d_dict k) (limits k) [] ws prev /\ Z.testbit ind 1 = true.

Lemma flagged_app : forall k X y, flagged k X -> flagged k (X ++ y).
Proof.
  intros k X y (h & v & tbl & ns & ss & ws & prev & ind & rest & -> & HD & WS & F).
  exists h, v, tbl, ns, ss, ws, prev, ind, (rest ++ y). split; [|auto]. rewrite <- !app_assoc. reflexivity.
Qed.

Lemma flagged_intro : forall k k1 h v tbl ns ss W, head lax lax h v tbl ns ss -> base_ok k1 -> d_sizes k1 = Some (ns, ss) ->
  same_table (entry (d_table k1)) tbl -> d_version k1 = v -> d_allow k1 = d_allow k -> d_dict k1 = d_dict k -> limits k1 = limits k ->
  flagged_windows k1 ns ss W -> flagged k (h ++ W).
Proof.
  intros k k1 h v tbl ns ss W HD BO S ST EV EA ED EL (ws & Ts & ks & ind & rest & -> & AW & F).
  exists h, v, tbl, ns, ss, ws, (d_target ks), ind, rest. split; [reflexivity|]. split; [exact HD|]. split; [|exact F].
  pose proof (windows_of_parts _ _ _ _ _ _ _ _ (aw_means _ _ _ _ _ _ AW)) as WS. rewrite <- (aw_target _ _ _ _ _ _ AW), (bo_target _ BO) in WS. rewrite <- ED, <- EL, <- EA, <- EV.
  refine (windows_ext _ _ _ _ _ _ _ _ _ (tle_refl _) (tle_refl _) (fmt_file _ _ _ _ ST) (fun _ _ X => X) _ _ _ WS).
Qed.

(** One more call, with the other setting *)
Lemma acr_same : forall b a y a', acr a y (AOk a') -> forall k X Ts, came k a X Ts -> d_sizes k = None -> base_ok k -> d_table k = default_table ->
  aok a -> ~ stopped (acore a) -> bytes_ok X -> bytes_ok y -> acr (waa b a) y (AOk (waa b a')) \/ flagged k (X ++ y).
Proof.
  intros b.
  assert (forall k1 ns ss data r k h v tbl, head lax lax h v tbl ns ss -> sizes_ok ns ss -> base_ok k1 -> d_sizes k1 = Some (ns, ss) ->
    same_table (entry (d_table k1)) tbl -> d_version k1 = v -> d_allow k1 = d_allow k -> d_dict k1 = d_dict k -> limits k1 = limits k ->
    bytes_ok data -> arun k1 data r -> arun (wa b k1) data (wad b r) \/ flagged k (h ++ data)) as RUN.
  { intros k1 ns ss data r k h v tbl HD SO BO S ST EV EA ED EL BD H.
    destruct (base_core k1 ns ss BO S SO) as (CO & TI & LI & NS).
    destruct (arun_same b _ _ _ H k1 ns ss [] []) as [R|FW]; [|exact NS|exact BD|left; exact R|].
    - constructor; auto; [apply BO|left; reflexivity|apply cstep_refl|constructor|]. cbn [concat]. rewrite app_nil_r. reflexivity.
    - right. eapply flagged_intro; eauto. }
  assert (forall kt nd X Tn k v ind p q ns ss rest r, a_table = ADec kt [] None -> came kt nd X Tn -> aok nd -> bytes_ok X ->
    (exists p0, X = p0 ++ rest) -> (stopped (acore nd) -> zlen (arest nd) <= zlen rest) -> d_planned (acore nd) = 1536 ->
    v = 0 \/ v = 83 -> byte_ok ind -> Z.testbit ind 0 = false -> Z.testbit ind 1 = true -> varint p ns -> varint q ss -> ns <= 255 -> ss <= 255 -> sizes_ok ns ss ->
    base_ok k -> d_table k = default_table ->
    after (set_file k v (Some (ns, ss)) [] (d_table k)) rest (AOk nd) r ->
    after (wa b (set_file k v (Some (ns, ss)) [] (d_table k))) rest (AOk nd) (war b r) \/ flagged k (file_header v ind ++ p ++ q ++ X)) as AFTER.
  { intros kt nd X Tn k v ind p q ns ss rest r EKT CM OK BX (p0 & EP) ZR PL V BI I0 I1 VP VQ LN LS SO BO DT AF. subst X.
    inversion AF as [| |nd0 L E1 E2|nd0 L ALT E1 E2|nd0 ns' ss' t bb r' L CP S2 U R E1 E2]; subst.
    { left. apply after_more. exact L. }
    { left. apply after_bad; auto. }
    injection S2 as <- <-. assert (zlen (arest nd) <= zlen rest) as ZR' by (apply ZR, (aok_stopped nd OK PL), L). clear ZR. rename ZR' into ZR.
    destruct a_table_fields as (kt' & EKT' & KS & KB & KT & KAL & KD & KW & KF & KP). rewrite EKT in EKT'. injection EKT' as <-.
    assert (p0 ++ rest <> []) as XN.
    { intros E. apply app_eq_nil in E as [-> ->]. rewrite zlen_nil in ZR. cbn [app] in CM.
      assert (forall h v tbl ns ss y, head lax lax h v tbl ns ss -> h ++ y <> []) as HN.
      { intros h0 v0 t0 n0 s0 y0 H0 E0. inversion H0; subst; discriminate. }
      remember [] as x eqn:EX in CM. destruct CM as [u| |h v0 tbl ns0 ss0 k1 W Tw k2 u HD].
      - cbn [acore] in L. rewrite (bo_target _ KB), zlen_nil in L. lia.
      - discriminate.
      - destruct (HN _ _ _ _ _ _ HD EX). }
    destruct (came_end kt nd _ _ CM OK KS XN CP) as (h' & v' & tbl' & ns' & ss' & ws' & ER & HD & MF' & WP' & TG' & ALT').
    pose proof (windows_of_parts _ _ _ _ _ _ _ _ WP') as WS'. cbn [app] in WS'. rewrite <- TG' in WS'.
    assert (finish_except (zlen (arest nd)) rest = arest nd) as FE.
    { assert (exists p1, rest = p1 ++ arest nd) as [p1 ->]; [|apply finish_except_app].
      rewrite app_assoc in ER. apply app_eq_app in ER as (l & [[F1 F2]|[F1 F2]]).
      - exists []. rewrite F2 in ZR. rewrite zlen_app in ZR. assert (l = []) as ->; [|symmetry; exact F2].
        destruct l; [reflexivity|]. rewrite zlen_cons in ZR. pose proof (zlen_nonneg _ l). lia.
      - exists l. exact F2. }
    pose proof U as U0. rewrite FE in R.
    assert (bytes_ok (d_target (acore nd))) as BS by (apply aok_target_bytes; exact OK).
    rewrite last_mode_mod in U.
    assert (0 <= (ns + ss + 1) mod 256 <= 255) as MR by lia.
    cbn [set_file d_table] in U. rewrite DT in U.
    destruct (use_code_table_usable default_table (d_target (acore nd)) _ BS L MR) as (t' & b' & U' & CASES). rewrite U in U'. injection U' as <- <-.
    assert (exists tbl, same_table (entry t) tbl /\ table_ok t /\ ((usable_table ((ns + ss + 1) mod 256) (d_target (acore nd)) /\ tbl = table_of_string (d_target (acore nd))) \/
       (~ usable_table ((ns + ss + 1) mod 256) (d_target (acore nd)) /\ tbl = rfc_table))) as (tbl & ST & TOK & UC).
    { destruct CASES as [(_ & UT & ->)|(_ & UT & ->)].
      - exists (table_of_string (d_target (acore nd))). split; [intros op O; apply entry_of_bytes; exact O|]. split; [apply table_of_bytes_ok; auto|auto].
      - exists rfc_table. split; [apply default_same|]. split; [apply default_table_ok|auto]. }
    replace (file_header v ind ++ p ++ q ++ p0 ++ rest) with ((file_header v ind ++ p ++ q ++ h' ++ ws') ++ arest nd).
    2:{ rewrite ER, <- !app_assoc. reflexivity. }
    pose (kk := set_file (set_file k v (Some (ns, ss)) [] (d_table k)) v (Some (ns, ss)) [] t).
    destruct (RUN kk ns ss (arest nd) r' k (file_header v ind ++ p ++ q ++ h' ++ ws') v tbl) as [RR|FF]; [| | | | | | | | | |exact R| |].
    - eapply head_custom; [exact V|exact BI|exact I0|exact I1|exact VP|exact VQ|exact LN|exact LS|exact HD|exact MF'| |exact L|exact UC].
      rewrite KAL, KD in WS'. refine (windows_ext _ _ _ _ _ _ _ _ _ (tle_refl _) (tle_refl _) _ _ _ _ _ WS').
      + unfold same_format. repeat split.
      + intros pp TT [W1 W2]. unfold table_limit. rewrite KW, KF in W1. rewrite KP in W2. split; [exact W1|]. apply W2. apply planned_1536. exact KP.
    - exact SO.
    - apply base_file; [apply base_file; [exact BO|apply BO]|exact TOK].
    - reflexivity.
    - exact ST.
    - reflexivity.
    - reflexivity.
    - reflexivity.
    - reflexivity.
    - rewrite ER in BX. apply bytes_ok_app in BX as [_ BX]. apply bytes_ok_app in BX as [_ BX]. exact BX.
    - left. rewrite <- wad_collapse. eapply after_done; [exact L|exact CP|reflexivity|exact U0|]. rewrite FE. exact RR.
    - right. exact FF. }
  intros a y a' H k0 X Ts CM S BO DT OK NS BX BY.
  inversion H as [|k u n data E1 E2 E3 E4| |k u n data k1 rest r E1 R E2 E3 E4|k u n data k1 nd rest r1 r E1 A AF E2 E3 E4]; subst.
  - left. cbn [waa]. apply acr_eod. rewrite aheader_wa, E1. reflexivity.
  - rename E1 into HH. change (AOk (waa b a')) with (war b (AOk a')). rewrite <- E4, <- wad_collapse. cbn [waa].
    assert (forall P, arun (wa b k1) rest (wad b r) \/ P -> acr (ADec (wa b k) u n) y (collapse (wad b r)) \/ P) as LIFT.
    { intros P [RR|PP]; [left|right; exact PP]. eapply acr_win; [rewrite aheader_wa, HH; reflexivity|exact RR]. }
    apply LIFT. clear LIFT.
    inversion CM as [u0 E5 E6|v ind p ns q ss kt nd X' Tn V BI I0 I1 VP VQ LN LS SO EK C E5 E6|h v tbl ns ss k2 W Tw k3 u0 HD SO BO1 S1 ST EV EA ED EL WC E5 E6]; subst.
    + assert (bytes_ok (X ++ y)) as BXD by (apply bytes_ok_app; auto).
      destruct (aheader_inv k None _ _ _ _ BXD S HH) as (v & ind & tl & EX & V & I0 & BI & ALT).
      destruct ALT as [(I1 & -> & _ & EK)|(I1 & Z & _)]; [|discriminate].
      destruct (aheader_ok k None _ k1 None rest BXD S BO HH) as (BO' & BR & (ns & ss & S' & SO) & _).
      rewrite EX. change (hd5 v ind rest) with (file_header v ind ++ rest). subst k1. cbn in S'. injection S' as <- <-.
      eapply (RUN _ 4 3 rest r k _ v rfc_table); eauto; try reflexivity.
      * constructor; auto.
      * cbn. rewrite DT. apply default_same.
    + discriminate.
    + pose proof (wcame_core _ _ _ _ _ _ _ WC) as SK. unfold aheader in HH. rewrite SK in HH. injection HH as <- <-.
      assert (core_ok ns ss k /\ bytes_ok u) as [CO BU].
      { inversion OK as [k0' u0 BO0 S2 BU HE E|k0' n0 ns1 ss1 BO0 S2 SO2 ON PN TN E|ns1 ss1 k0' u0 CO BU Q TI LI EX E]; subst; [congruence|].
        pose proof (co_sizes _ _ _ CO) as SK'. rewrite SK in SK'. injection SK' as <- <-. auto. }
      rewrite <- app_assoc. destruct (wcame_same b _ _ _ _ _ _ _ _ _ WC CO NS BU BY R) as [RR|FF]; [left; exact RR|].
      right. eapply flagged_intro; eauto.
  - rename E1 into HH. destruct r1 as [nd'| |]; [|inversion AF; subst; discriminate|inversion AF; subst; discriminate].
    assert (forall P, after (wa b k1) rest (AOk nd') (war b (AOk a')) \/ P -> acr (waa b (ADec k u n)) y (AOk (waa b a')) \/ P) as LIFT.
    { intros P [RR|PP]; [left|right; exact PP]. cbn [waa]. eapply acr_table; [rewrite aheader_wa, HH; reflexivity|exact A|exact RR]. }
    apply LIFT. clear LIFT.
    inversion CM as [u0 E1 E2|v ind p ns q ss kt nd0 X' Tn V BI I0 I1 VP VQ LN LS SO EK C E1 E2|h v tbl ns ss k2 W Tw k3 u0 HD SO BO1 S1 ST EV EA ED EL WC E1 E2]; subst.
    + assert (bytes_ok (X ++ y)) as BXD by (apply bytes_ok_app; auto).
      destruct (aheader_inv k None _ _ _ _ BXD S HH) as (v & ind & tl & EX & V & I0 & BI & ALT).
      destruct ALT as [(_ & _ & Z & _)|(I1 & EN & p & q & ns & ss & -> & VP & VQ & NSR & SSR & EK & _)]; [discriminate|]. injection EN as ->.
      destruct (aheader_ok k None _ k1 _ rest BXD S BO HH) as (BO' & BR & _).
      destruct a_table_fields as (kt & EKT & KS & KB & KT & KAL & KD & KW & KF & KP).
      assert (aok a_table /\ ~ stopped (acore a_table)) as [TO TN].
      { split; [apply a_table_ok|]. intros [_ Z]. revert Z. vm_compute. discriminate. }
      destruct (came_more _ _ _ A kt [] [] nd') as (Tm & CT & _); auto; [rewrite EKT; constructor|constructor|].
      pose proof (acr_ok _ _ _ A TO TN BR) as (AO & PL & ZR). destruct a_table_ok as (_ & PT & _). rewrite PT in PL.
      rewrite EX. change (hd5 v ind (p ++ q ++ rest)) with (file_header v ind ++ p ++ q ++ rest). subst k1.
      eapply (AFTER kt nd' rest Tm k v ind p q ns ss rest); eauto; try lia; [exists []; reflexivity|unfold sizes_ok; lia].
    + cbn [app aheader set_file d_sizes] in HH. injection HH as <- <- <-.
      destruct a_table_fields as (kt' & EKT' & KS & KB & KT & KAL & KD & KW & KF & KP). rewrite EK in EKT'. injection EKT' as <-.
      inversion OK as [k0' u0 BO0 S2 BU HE E|k0' n0 ns1 ss1 BO0 S2 SO2 ON PN TN E|ns1 ss1 k0' u0 CO BU Q TI LI EX E]; subst.
      assert (~ stopped (acore nd0)) as NSN by (intros Z; apply (aok_stopped nd0 ON PN) in Z; lia).
      assert (bytes_ok X') as BX'.
      { apply bytes_ok_app in BX as [_ BX]. apply bytes_ok_app in BX as [_ BX]. apply bytes_ok_app in BX as [_ BX]. exact BX. }
      destruct (came_more _ _ _ A kt X' Tn nd') as (Tm & CT & _); auto.
      pose proof (acr_ok _ _ _ A ON NSN BY) as (AO & PL & ZR). rewrite PN in PL.
      rewrite <- !app_assoc. eapply (AFTER kt nd' (X' ++ y) (Tn ++ Tm) k0 v ind p q ns ss y); eauto. apply bytes_ok_app; auto.
    + unfold aheader in HH. rewrite (wcame_core _ _ _ _ _ _ _ WC) in HH. discriminate.
Qed.

Lemma acrs_allow : forall chunks a R, acrs a chunks R -> forall a', R = AOk a' -> d_allow (acore a) = false -> aok a -> unplanned a -> Forall bytes_ok chunks ->
  acrs (waa true a) chunks (AOk (waa true a')).
Proof.
  induction 1 as [a|a x tl r A N|a x tl a1 r A B IH]; intros a' ER AL OK UP F.
  - injection ER as <-. constructor.
  - destruct (N _ ER).
  - inversion F as [|? ? BY F']; subst. pose proof (unplanned_stopped a UP) as NS. pose proof (acr_ok _ _ _ A OK NS BY) as (AO & PL & _).
    eapply acrs_cons; [apply acr_allow; eauto|]. apply IH; auto.
    + rewrite (acr_keeps _ _ _ A). exact AL.
    + unfold unplanned, has_planned in *. rewrite PL. exact UP.
Qed.

Lemma acrs_same : forall b chunks a R, acrs a chunks R -> forall a' k X Ts, R = AOk a' -> came k a X Ts -> d_sizes k = None -> base_ok k -> d_table k = default_table ->
  aok a -> unplanned a -> bytes_ok X -> Forall bytes_ok chunks ->
  acrs (waa b a) chunks (AOk (waa b a')) \/ flagged k (X ++ concat chunks).
Proof.
  induction 1 as [a|a x tl r A N|a x tl a1 r A B IH]; intros a' k X Ts ER CM S BO DT OK UP BX F.
  - injection ER as <-. left. constructor.
  - destruct (N _ ER).
  - inversion F as [|? ? BY F']; subst. pose proof (unplanned_stopped a UP) as NS. pose proof (acr_ok _ _ _ A OK NS BY) as (AO & PL & _).
    cbn [concat]. rewrite app_assoc.
    destruct (acr_same b _ _ _ A k X Ts CM S BO DT OK NS BX BY) as [AS|FL]; [|right; apply flagged_app; exact FL].
    destruct (came_more _ _ _ A k X Ts a1 CM S BO DT OK NS BX BY eq_refl) as (Ts1 & CM1 & _).
    destruct (IH a' k (X ++ x) _ eq_refl CM1) as [R|FL]; auto.
    + unfold unplanned, has_planned in *. rewrite PL. exact UP.
    + apply bytes_ok_app; auto.
    + left. eapply acrs_cons; eauto.
Qed.

Lemma acrs_fun : forall a l r, acrs a l r -> forall r', acrs a l r' -> r' = r.
Proof.
  induction 1 as [a|a x tl r A N|a x tl a1 r A B IH]; intros r' H'; inversion H'; subst; auto.
  - eapply acr_fun; eauto.
  - match goal with X : acr a x (AOk ?z) |- _ => destruct (N z); symmetry; eapply acr_fun; eauto end.
  - match goal with X : acr a x r', Y : forall z, r' <> AOk z |- _ => destruct (Y a1); eapply acr_fun; [exact A|exact X] end.
  - match goal with X : acr a x (AOk ?z), Y : acrs ?z tl r' |- _ => pose proof (acr_fun _ _ _ A _ X) as E; injection E as ->; apply IH; exact Y end.
Qed.

(** ** Whole streams *)

Lemma waa_complete : forall b a, acomplete (waa b a) = acomplete a.
Proof. intros b [k u n]. reflexivity. Qed.
Lemma waa_target : forall b a, d_target (acore (waa b a)) = d_target (acore a).
Proof. intros b [k u n]. reflexivity. Qed.

Lemma astart_allow : forall d dict b, idle_plain d -> astart (set_allow_vcd_target d b) dict = waa b (astart d dict).
Proof.
  intros d dict b IP. apply idle_plain_idle in IP as [ID _]. apply idle_ready in ID. destruct d as [c n]. destruct ID as (ST & _).
  cbn [set_allow_vcd_target]. rewrite ST. reflexivity.
Qed.

Lemma stream_end : forall d dict chunks a, idle_plain d -> bytes_ok dict -> Forall bytes_ok chunks ->
  acrs (astart d dict) chunks (AOk a) -> decode_stream d dict chunks = Some (acomplete a, d_target (acore a)).
Proof.
  intros d dict chunks a IP BD F A. pose proof (idle_plain_idle d IP) as [ID _]. pose proof (idle_ready d ID) as RD.
  destruct (stream_start d dict chunks RD BD F) as (R & A' & M). pose proof (acrs_fun _ _ _ A _ A') as ->. unfold decode_stream.
  destruct (decode_chunks (start_decoding d dict) chunks []) as [[[d' [|]] o]|]; [|destruct M as [M _]; discriminate|destruct M as [M _]; discriminate].
  destruct M as (a0 & E & DR & OKA & UA). injection E as <-. destruct (drel_finish _ _ _ DR OKA) as (c & n & -> & FN & _). rewrite FN. cbn [snd].
  rewrite (drel_out _ _ _ DR). reflexivity.
Qed.

Lemma stream_acrs : forall d dict chunks out, idle_plain d -> bytes_ok dict -> Forall bytes_ok chunks ->
  decode_stream d dict chunks = Some (true, out) -> exists a, acrs (astart d dict) chunks (AOk a) /\ acomplete a = true /\ d_target (acore a) = out.
Proof.
  intros d dict chunks out IP BD F H. pose proof (idle_plain_idle d IP) as [ID _]. pose proof (idle_ready d ID) as RD.
  destruct (stream_start d dict chunks RD BD F) as (R & A & M). unfold decode_stream in H.
  destruct (decode_chunks (start_decoding d dict) chunks []) as [[[d' [|]] o]|]; try discriminate.
  injection H as FN <-. destruct M as (a & -> & DR & OKA & UA). destruct (drel_finish _ _ _ DR OKA) as (c & n & -> & E & _). rewrite E in FN. cbn [snd] in FN.
  exists a. split; [exact A|]. split; [exact FN|]. exact (drel_out _ _ _ DR).
Qed.

Theorem allowing_more : forall d dict chunks out, idle_plain d -> bytes_ok dict -> Forall bytes_ok chunks ->
  decode_stream (set_allow_vcd_target d false) dict chunks = Some (true, out) ->
  decode_stream (set_allow_vcd_target d true) dict chunks = Some (true, out).
Proof.
  intros d dict chunks out IP BD F H.
  destruct (stream_acrs _ _ _ _ (ip_allow _ false IP) BD F H) as (a & A & C & T).
  rewrite (astart_allow d dict false IP) in A.
  assert (aok (waa false (astart d dict)) /\ unplanned (waa false (astart d dict))) as [OK UP].
  { rewrite <- (astart_allow d dict false IP). pose proof (idle_plain_idle _ (ip_allow _ false IP)) as [ID _].
    destruct (start_ok _ dict (idle_ready _ ID) BD) as (_ & OK & UP & _). auto. }
  pose proof (acrs_allow _ _ _ A a eq_refl) as AA. rewrite waa_waa, <- (astart_allow d dict true IP) in AA.
  rewrite (stream_end _ dict chunks (waa true a) (ip_allow _ true IP) BD F); [rewrite waa_complete, waa_target, C, T; reflexivity|].
  apply AA; auto. destruct d as [c n]. reflexivity.
Qed.

Theorem same_without_target : forall d dict chunks out, idle_plain d -> bytes_ok dict -> Forall bytes_ok chunks ->
  (forall h v tbl ns ss ws prev ind rest, concat chunks = h ++ ws ++ ind :: rest -> head lax lax h v tbl ns ss ->
     windows lax lax (file_format v tbl ns ss true) dict (fun _ _ => True) [] ws prev -> Z.testbit ind 1 = false) ->
  decode_stream (set_allow_vcd_target d true) dict chunks = Some (true, out) ->
  decode_stream (set_allow_vcd_target d false) dict chunks = Some (true, out).
Proof.
  intros d dict chunks out IP BD F NT H. pose proof (ip_allow _ true IP) as IP1.
  destruct (stream_acrs _ _ _ _ IP1 BD F H) as (a & A & C & T).
  destruct (start_facts _ dict IP1 BD) as (k & EA & S & BO & DT & DD & DA & UP & LM).
  pose proof (idle_plain_idle _ IP1) as [ID _]. destruct (start_ok _ dict (idle_ready _ ID) BD) as (_ & OK & U & _).
  rewrite EA in *. destruct (acrs_same false _ _ _ A a k [] [] eq_refl (came_start k []) S BO DT OK U ltac:(constructor) F) as [AS|FL].
  - rewrite <- EA in AS. rewrite (astart_allow d dict true IP), waa_waa, <- (astart_allow d dict false IP) in AS.
    rewrite (stream_end _ dict chunks _ (ip_allow _ false IP) BD F AS), waa_complete, waa_target, C, T. reflexivity.
  - exfalso. destruct FL as (h & v & tbl & ns & ss & ws & prev & ind & rest & E & HD & WS & FI). cbn [app] in E.
    assert (d_allow k = true) as AL by (rewrite DA; destruct d as [c n]; cbn; destruct (d_started c) eqn:STT; [|reflexivity]; pose proof (idle_ready _ ID) as RD; cbn in RD; rewrite STT in RD; cbn in RD; destruct RD; congruence).
    rewrite AL, DD in WS.
    assert (Z.testbit ind 1 = false); [|congruence]. eapply NT; eauto.
    refine (windows_ext _ _ _ _ _ _ _ _ _ (tle_refl _) (tle_refl _) _ _ _ _ _ WS); [repeat split|auto].
Qed.
