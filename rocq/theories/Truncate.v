(** What the decoder does with the beginning of a file. *)

From Verif Require Import Base Spec Varint VarintFacts AddrCache AddrCacheFacts CodeTable CodeTableFacts
  InstructionMap DecodeTable HeaderParser Adler AdlerFacts Decoder CopyFacts BodyFacts BodyExt WindowExt
  WindowHeader WindowStep WindowFacts Refine Totals Abstract FileHeader Chunk Sim Stream Session Reuse Usable Sound Complete.
From Coq Require Import ZifyBool ZifyNat.

(** Any data after the head of a file. *)
Lemma acr_head : forall t tl h v tbl ns ss k y, head t tl h v tbl ns ss -> t_slack t = false -> t_slack tl = false ->
  base_ok k -> d_sizes k = None -> d_table k = default_table ->
  bytes_ok (h ++ y) -> ~ bad_cache (h ++ y) -> zlen (h ++ y) <= int32_max ->
  exists k1, base_ok k1 /\ d_sizes k1 = Some (ns, ss) /\ sizes_ok ns ss /\ ~ (ns = 254 /\ ss = 0) /\ d_version k1 = v /\ same_table tbl (entry (d_table k1)) /\
    d_allow k1 = d_allow k /\ d_dict k1 = d_dict k /\ limits k1 = limits k /\ has_planned k1 = has_planned k /\
    forall r, arun k1 y r -> acr (ADec k [] None) (h ++ y) (collapse r).
Proof.
  intros t tl h v tbl ns ss k y HD SL SL' BO S DT BX NB ZX.
  inversion HD as [v0 ind V BI I0 I1|v0 ind bn ns0 bs ss0 h' v' tbl' ns' ss' ws' s tbl0 V BI I0 I1 VN VS NSL SSL HD' MF' WS' L UC]; subst.
  - change (file_header v ind ++ y) with (hd5 v ind y) in *.
    assert (aheader k None ([] ++ hd5 v ind y) = Ok (set_file k v (Some (4, 3)) [] (d_table k), None, y)) as AH.
    { cbn [app]. rewrite aheader_hd5 by auto. rewrite I0, I1. reflexivity. }
    destruct (aheader_ok k None _ _ _ _ BX S BO AH) as (BO' & BR & _).
    eexists. split; [exact BO'|]. split; [reflexivity|]. split; [apply default_sizes_ok|]. split; [lia|]. split; [reflexivity|].
    split; [cbn; rewrite DT; intros op O; symmetry; apply default_same; exact O|].
    split; [reflexivity|]. split; [reflexivity|]. split; [reflexivity|]. split; [reflexivity|]. intros r R. eapply acr_win; eauto.
  - pose proof (varint_nonneg _ _ VN). pose proof (varint_nonneg _ _ VS).
    replace ((file_header v ind ++ bn ++ bs ++ h' ++ ws') ++ y) with (hd5 v ind (bn ++ bs ++ (h' ++ ws' ++ y))) in *
      by (change (hd5 v ind (bn ++ bs ++ h' ++ ws' ++ y)) with (file_header v ind ++ bn ++ bs ++ h' ++ ws' ++ y); rewrite <- !app_assoc; reflexivity).
    assert (~ (ns = 254 /\ ss = 0)) as NB254. { intros [-> ->]. apply NB. apply bad_here; auto. }
    assert (aheader k None ([] ++ hd5 v ind (bn ++ bs ++ h' ++ ws' ++ y)) = Ok (set_file k v (Some (ns, ss)) [] (d_table k), Some a_table, h' ++ ws' ++ y)) as AH.
    { cbn [app]. rewrite aheader_hd5 by auto. rewrite I0, I1, (parse_cache_sizes_ok bn bs ns ss) by auto. reflexivity. }
    destruct (aheader_ok k None _ _ _ _ BX S BO AH) as (BO' & BR & _).
    assert (zlen (h' ++ ws' ++ y) <= int32_max) as ZX'.
    { change (hd5 v ind (bn ++ bs ++ h' ++ ws' ++ y)) with (file_header v ind ++ bn ++ bs ++ (h' ++ ws' ++ y)) in ZX. rewrite (zlen_app _ (file_header v ind)), (zlen_app _ bn), (zlen_app _ bs) in ZX.
      pose proof (zlen_nonneg _ bn). pose proof (zlen_nonneg _ bs). pose proof (zlen_nonneg _ (file_header v ind)). lia. }
    destruct a_table_fields as (kt & EKT & KS & KB & KT & KAL & KD & KW & KF & KP).
    assert (zlen (d_dict kt) = 1536) as ZDT by (rewrite KD; vm_compute; reflexivity).
    assert (ws' <> []) as WSN. { intros ->. inversion WS' as [? E1 E2 E3|? w2 T2' rest2 out2 W2 K2' HH2 E1 E2 E3]; subst.
      - rewrite zlen_nil in L. discriminate. - pose proof (window_nonempty _ _ _ _ _ _ W2). apply app_eq_nil in E2. tauto. }
    destruct (acr_complete _ _ _ _ _ _ _ HD' SL SL t tl kt ws' y s SL SL' KB KS KT MF') as (nd & AC & TG & CP & RS); auto; try (unfold int32_max in *; lia).
    { rewrite KAL, KD. refine (windows_ext _ _ _ _ _ _ _ _ _ (tle_refl _) (tle_refl _) _ _ _ _ _ WS').
      - unfold same_format. repeat split.
      - intros p T (A & B & C). unfold limits. rewrite KW, KF, KP. auto. }
    { intros B. apply NB. eapply bad_nested; eauto. }
    { intros _. rewrite KP. split; [exact L|]. intros. congruence. }
    { intros X. rewrite (planned_1536 kt KP) in X. discriminate. }
    rewrite <- EKT in AC.
    assert (aok a_table /\ ~ stopped (acore a_table)) as [TO TN].
    { split; [apply a_table_ok|]. intros [_ X]. revert X. vm_compute. discriminate. }
    pose proof (acr_ok _ _ _ AC TO TN BR) as (AO & _). apply aok_target_bytes in AO. rewrite TG in AO.
    assert (0 <= (ns + ss + 1) mod 256 <= 255) as MR by lia.
    destruct (use_code_table_usable default_table s _ AO L MR) as (t0 & b & U & CASES).
    assert (same_table tbl (entry t0) /\ table_ok t0) as [ST TOK].
    { destruct CASES as [(_ & UT & ->)|(_ & UT & ->)]; (destruct UC as [[UC ->]|[UC ->]]; [|]); try tauto.
      - split; [intros op O; symmetry; apply entry_of_bytes; exact O|]. apply table_of_bytes_ok; auto.
      - split; [intros op O; symmetry; apply default_same; exact O|]. apply default_table_ok. }
    assert (sizes_ok ns ss) as SO by (unfold sizes_ok; lia).
    exists (set_file (set_file k v (Some (ns, ss)) [] (d_table k)) v (Some (ns, ss)) [] t0).
    split; [apply base_file; auto|]. split; [reflexivity|]. split; [exact SO|]. split; [exact NB254|]. split; [reflexivity|]. split; [exact ST|].
    split; [reflexivity|]. split; [reflexivity|]. split; [reflexivity|]. split; [reflexivity|]. intros r R.
    eapply acr_table; [exact AH|exact AC|]. eapply (after_done _ _ nd ns ss t0 b r); auto.
    + rewrite TG. exact L.
    + rewrite TG, last_mode_mod. cbn [set_file d_table]. rewrite DT. exact U.
    + rewrite RS. rewrite (app_assoc h' ws'), finish_except_app. exact R.
Qed.

(** A cut inside the head. *)
Lemma head_cut : forall t tl h v tbl ns ss k p q, head t tl h v tbl ns ss -> t_slack t = false -> t_slack tl = false ->
  base_ok k -> d_sizes k = None -> bytes_ok h -> ~ bad_cache h -> zlen h <= int32_max -> h = p ++ q -> p <> [] -> q <> [] ->
  exists a', acr (ADec k [] None) p (AOk a') /\ acomplete a' = false /\ d_target (acore a') = [].
Proof.
  intros t tl h v tbl ns ss k p q HD SL SL' BO S BH NB ZH EH PN QN.
  assert (bytes_ok p /\ bytes_ok q) as [BP BQ] by (apply bytes_ok_app; rewrite <- EH; exact BH).
  assert (exists x rest, aheader k None (p ++ q) = Ok (x, rest) /\
    ((rest = []) \/ (snd x = Some a_table /\ exists nd, acr a_table rest (AOk nd) /\ zlen (d_target (acore nd)) = 1536 /\ arest nd = []))) as (x & rest0 & AH & NEST).
  { rewrite <- EH. inversion HD as [v0 ind V BI I0 I1|v0 ind bn ns0 bs ss0 h' v' tbl' ns' ss' ws' s tbl0 V BI I0 I1 VN VS NSL SSL HD' MF' WS' L UC].
    - exists (set_file k v (Some (4, 3)) [] (d_table k), None), []. split; [|auto].
      change (file_header v ind) with (hd5 v ind []). rewrite aheader_hd5 by auto. rewrite I0, I1. reflexivity.
    - pose proof (varint_nonneg _ _ VN). pose proof (varint_nonneg _ _ VS).
      assert (h = file_header v ind ++ bn ++ bs ++ h' ++ ws') as EH' by congruence.
      exists (set_file k v (Some (ns, ss)) [] (d_table k), Some a_table), (h' ++ ws').
      assert (~ (ns = 254 /\ ss = 0)) as NB254. { intros [-> ->]. apply NB. rewrite EH'. apply (bad_here v ind bn bs (h' ++ ws')); auto. }
      split.
      { replace (file_header v0 ind) with (file_header v ind) by congruence. change (file_header v ind ++ bn ++ bs ++ h' ++ ws') with (hd5 v ind (bn ++ bs ++ h' ++ ws')).
        rewrite aheader_hd5 by auto. rewrite I0, I1, (parse_cache_sizes_ok bn bs ns ss) by auto. reflexivity. }
      right. split; [reflexivity|].
      destruct a_table_fields as (kt & EKT & KS & KB & KT & KAL & KD & KW & KF & KP).
      assert (zlen (d_dict kt) = 1536) as ZDT by (rewrite KD; vm_compute; reflexivity).
      assert (bytes_ok (h' ++ ws') /\ zlen (h' ++ ws') <= int32_max) as [BR ZX'].
      { rewrite EH' in BH, ZH. apply bytes_ok_app in BH as [_ BH]. apply bytes_ok_app in BH as [_ BH]. apply bytes_ok_app in BH as [_ BH]. split; [exact BH|].
        rewrite (zlen_app _ (file_header v ind)), (zlen_app _ bn), (zlen_app _ bs) in ZH.
        pose proof (zlen_nonneg _ bn). pose proof (zlen_nonneg _ bs). pose proof (zlen_nonneg _ (file_header v ind)). lia. }
      rewrite <- (app_nil_r ws') in BR, ZX'.
      destruct (acr_complete _ _ _ _ _ _ _ HD' SL SL t tl kt ws' [] s SL SL' KB KS KT MF') as (nd & AC & TG & CP & RS); auto; try (unfold int32_max in *; lia).
      { rewrite KAL, KD. refine (windows_ext _ _ _ _ _ _ _ _ _ (tle_refl _) (tle_refl _) _ _ _ _ _ WS').
        - unfold same_format. repeat split.
        - intros p0 T (A & B & C). unfold limits. rewrite KW, KF, KP. auto. }
      { intros B. apply NB. rewrite EH'. rewrite app_nil_r in B. eapply bad_nested; eauto. }
      { intros _. rewrite KP. split; auto. }
      rewrite <- EKT in AC. rewrite app_nil_r in AC. exists nd. split; [exact AC|]. rewrite TG. auto. }
  destruct (aheader k None p) as [[[k1 n1] rest]| | |] eqn:AP.
  - destruct (aheader_local k None p (k1, n1) rest BP S AP) as (pre & EP & _ & LOC).
    pose proof (LOC (rest ++ q)) as X. rewrite app_assoc, <- EP, AH in X. injection X as -> ->.
    destruct NEST as [NEST|(EN & nd & AC & TG & RS)]; [apply app_eq_nil in NEST; tauto|]. cbn [snd] in EN. subst n1.
    assert (aok a_table /\ ~ stopped (acore a_table)) as [TO TN].
    { split; [apply a_table_ok|]. intros [_ X]. revert X. vm_compute. discriminate. }
    assert (bytes_ok rest) as BR by (rewrite EP in BP; apply bytes_ok_app in BP; tauto).
    destruct (acr_total a_table rest TO TN BR) as (r1 & A1).
    pose proof (acr_two _ _ _ A1 q _ TO TN BR BQ AC) as TW. pose proof (acr_ok _ _ _ A1 TO TN BR) as AO.
    destruct r1 as [a1| |]; try discriminate. destruct AO as (AO1 & AO2 & _). destruct a_table_ok as (_ & PL & _). rewrite PL in AO2.
    destruct (aok_stopped a1 AO1 AO2) as [SE LE].
    assert (zlen (d_target (acore a1)) < 1536) as LT.
    { destruct TW as [[ST E]|[[ST _]|(_ & _ & E)]]; [exfalso| |discriminate].
      - injection E as ->. destruct a1 as [k2 u2 n2]. cbn in RS. apply app_eq_nil in RS. tauto.
      - assert (zlen (d_target (acore a1)) <> 1536) by (intros E; apply ST, SE, E). lia. }
    exists (ADec k1 [] (Some a1)). split; [eapply acr_table; [exact AP|exact A1|]; apply after_more; exact LT|].
    destruct (aheader_ok k None _ k1 _ rest BP S BO AP) as (BO' & _ & (ns1 & ss1 & S' & _) & _).
    cbn. rewrite S'. split; [reflexivity|apply BO'].
  - exists (ADec k p None). split; [apply (acr_eod k [] None p); exact AP|]. cbn. rewrite S. split; [destruct p; [congruence|reflexivity]|apply BO].
  - pose proof (aheader_mono k None p q) as M. rewrite AP in M. congruence.
  - exfalso. exact (aheader_ub k None p BP AP).
Qed.

(** A cut inside the windows. *)
Lemma windows_cut : forall t f dict ok prev ws out, windows t t f dict ok prev ws out ->
  forall ns ss k p q, t_slack t = false -> f = fmt k ns ss -> dict = d_dict k -> ok = limits k -> prev = d_target k ->
  core_ok ns ss k -> modes_fit ns ss ws -> (ws <> [] -> ns <= 253) -> d_win k = None -> tot_inv k -> lim_inv k ->
  bytes_ok ws -> zlen ws <= int32_max ->
  zlen (d_dict k) <= int32_max -> zlen out <= int32_max -> zlen (d_dict k) + zlen out <= int32_max + 1 ->
  has_planned k = false -> ws = p ++ q ->
  exists r k' u, arun k p r /\ collapse r = AOk (ADec k' u None) /\
    (acomplete (ADec k' u None) = true ->
     windows t t f dict ok prev p (d_target k') /\ windows t t f dict ok (d_target k') q out).
Proof.
  induction 1 as [prev|prev w T rest out W K H IH]; intros ns ss k p q SL -> -> -> -> CO MF N253 WN TI LI BW ZW ZD ZO ZS UP EW.
  - symmetry in EW. apply app_eq_nil in EW as [-> ->]. exists (XOk (k, [])), k, []. split; [constructor|]. split; [reflexivity|]. intros _. split; constructor.
  - destruct (list_eq_dec Z.eq_dec p []) as [-> |PN].
    { exists (XOk (k, [])), k, []. split; [constructor|]. split; [reflexivity|]. intros _. split; [constructor|].
      cbn [app] in EW. subst q. apply ws_cons with (T := T); auto. }
    assert (Spec.window t (fmt k ns ss) (d_dict k) (d_target k) w T) as W' by (destruct rest; exact W). clear W.
    pose proof (window_nonempty _ _ _ _ _ _ W') as WNE.
    assert (ns + ss <= 254) as NSS by (destruct MF as [MF|MF]; [apply app_eq_nil in MF; tauto|lia]).
    assert (ns <= 253) as NS1 by (apply N253; destruct w; [congruence|discriminate]).
    apply bytes_ok_app in BW as [BW BR]. destruct (windows_prefix _ _ _ _ _ _ _ _ H) as [m EM].
    rewrite zlen_app in ZW. pose proof (zlen_nonneg _ w). pose proof (zlen_nonneg _ rest). pose proof (zlen_nonneg _ T). pose proof (zlen_nonneg _ m).
    assert (zlen out = zlen (d_target k) + zlen T + zlen m) as ZE by (rewrite EM, !zlen_app; lia).
    pose proof (zlen_nonneg _ (d_target k)). pose proof (zlen_nonneg _ (d_dict k)).
    destruct TI as [T0 TI]. rewrite WN in TI. destruct TI as [T1 T2]. destruct K as [[K1 K2] K3].
    assert (would_exceed k (zlen T) = false) as WE by (apply would_exceed_true; auto; lia).
    assert (forall y, bytes_ok y -> decode_window k (w ++ y) =
      XOk (set_win k None (zlen (d_target k ++ T)) (d_target k ++ T) (to_size (d_total k + zlen T)), y)) as DW.
    { intros y BY. refine (decode_window_complete k ns ss _ w T y CO NS1 NSS WN BW BY W' _ _ WE ZD _ _ _ _); auto; lia. }
    rewrite to_size_id in DW by (destruct LI as (L1 & L2 & L3 & _); unfold size_max in *; lia).
    rewrite T1, <- zlen_app in DW.
    set (k1 := set_win k None (zlen (d_target k ++ T)) (d_target k ++ T) (zlen (d_target k ++ T))) in *.
    apply app_eq_app in EW as (l & [[EP EQ]|[EP EQ]]).
    + (* cut inside w *) subst w q. apply bytes_ok_app in BW as [BP BL].
      destruct (list_eq_dec Z.eq_dec l []) as [-> |LN].
      { cbn [app] in *. rewrite app_nil_r in *. specialize (DW [] ltac:(constructor)). rewrite app_nil_r in DW.
        exists (XOk (k1, [])), k1, []. split; [eapply run_step; [exact PN|exact DW| |constructor]|].
        { unfold reached_planned. change (has_planned k1) with (has_planned k). rewrite UP. reflexivity. }
        split; [reflexivity|]. intros _. split; [|exact H].
        rewrite <- (app_nil_r p). apply ws_cons with (T := T); [exact W'|split; [split; lia|congruence]|constructor]. }
      pose proof (decode_window_step k ns ss p l CO BP BL) as ST.
      specialize (DW [] ltac:(constructor)). rewrite app_nil_r in DW.
      destruct (decode_window k p) as [[k' u]|[k' u]| | |] eqn:DP; try contradiction.
      * exfalso. destruct ST as (_ & _ & _ & _ & _ & [E|(_ & _ & E)]); [|specialize (E LN); congruence].
        rewrite DW in E. injection E as _ E. symmetry in E. apply app_eq_nil in E. tauto.
      * exists (XEod (k', u)), k', u. split; [apply run_eod; auto|]. split; [reflexivity|]. intros AC. exfalso.
        destruct ST as (CO' & CS & _ & _ & ALT & _). cbn in AC. rewrite (co_sizes _ _ _ CO') in AC.
        destruct ALT as [[-> ->]|[_ (w2 & E)]]; [|rewrite E in AC; discriminate].
        rewrite WN in AC. unfold reached_planned in AC. rewrite UP in AC. cbn in AC. destruct p; [congruence|discriminate].
      * congruence.
      * destruct ST as [[? _] _]. lia.
    + (* later *) subst p rest. apply bytes_ok_app in BR as [BL BQ].
      pose proof (DW l BL) as DWL.
      assert (bytes_ok (w ++ l)) as BALL by (apply bytes_ok_app; auto).
      pose proof (decode_window_step k ns ss _ [] CO BALL ltac:(constructor)) as ST. rewrite DWL in ST.
      destruct ST as (CO' & CS & WN' & _).
      assert (tot_inv k) as TIK by (split; [exact T0|]; rewrite WN; auto).
      pose proof (decode_window_len ns ss k _ CO BALL TIK LI) as DL. rewrite DWL in DL. destruct DL as (TI' & LI' & _).
      destruct (IH ns ss k1 l q) as (r & k' & u & R & C & A); auto; try lia.
      { destruct MF as [MF|MF]; [apply app_eq_nil in MF; tauto|right; lia]. }
      { apply bytes_ok_app; auto. }
      exists r, k', u. split; [eapply run_step; [exact PN|exact DWL| |exact R]|].
      { unfold reached_planned. change (has_planned k1) with (has_planned k). rewrite UP. reflexivity. }
      split; [exact C|]. intros X. destruct (A X) as [A1 A2]. split; [|exact A2].
      apply ws_cons with (T := T); [destruct l; exact W'|split; [split; lia|congruence]|exact A1].
Qed.
