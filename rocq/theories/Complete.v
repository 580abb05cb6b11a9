(** Completeness: every file in the sense of the specification (without slack) is
    decoded. *)

From Verif Require Import Base Spec Varint VarintFacts AddrCache AddrCacheFacts CodeTable CodeTableFacts
  InstructionMap DecodeTable HeaderParser Adler AdlerFacts Decoder CopyFacts BodyFacts BodyExt WindowExt
  WindowHeader WindowStep WindowFacts Refine Totals Abstract FileHeader Chunk Sim Stream Session Reuse Usable Sound.
From Coq Require Import ZifyBool ZifyNat.

Lemma would_exceed_true : forall c n, lim_inv c -> 0 <= d_total c -> 0 <= n ->
  n <= d_max_window c -> d_total c + n <= d_max_file c -> (has_planned c = true -> d_total c + n <= d_planned c) ->
  would_exceed c n = false.
Proof.
  intros c n (A & B & C & D) T N H1 H2 H3. unfold would_exceed. rewrite (to_size_id (d_max_file c - d_total c)) by lia.
  destruct (has_planned c) eqn:HP; cbn [andb].
  - specialize (D eq_refl). specialize (H3 eq_refl). rewrite to_size_id by lia. lia.
  - lia.
Qed.

Lemma windows_prefix : forall t tl f dict ok prev ws out, windows t tl f dict ok prev ws out -> exists m, out = prev ++ m.
Proof.
  intros t tl f dict ok prev ws out H. induction H as [prev|prev w T rest out W K H [m ->]].
  - exists []. rewrite app_nil_r. reflexivity.
  - exists (T ++ m). rewrite app_assoc. reflexivity.
Qed.

Lemma window_nonempty : forall t f dict prev w T, Spec.window t f dict prev w T -> w <> [].
Proof. intros t f dict prev w T W. inversion W. discriminate. Qed.

Definition at_target (k : core) (out : list Z) : core := set_win k None (zlen out) out (zlen out).

Lemma arun_windows : forall t tl f dict ok prev ws out, windows t tl f dict ok prev ws out ->
  forall ns ss k u, t_slack t = false -> t_slack tl = false -> f = fmt k ns ss -> dict = d_dict k -> ok = limits k -> prev = d_target k ->
  core_ok ns ss k -> modes_fit ns ss ws -> (ws <> [] -> ns <= 253) -> d_win k = None -> tot_inv k -> lim_inv k ->
  bytes_ok ws -> bytes_ok u -> zlen ws <= int32_max ->
  zlen (d_dict k) <= int32_max -> zlen out <= int32_max -> zlen (d_dict k) + zlen out <= int32_max + 1 ->
  (has_planned k = true -> zlen out = d_planned k /\ (ws = [] -> u = [])) -> (has_planned k = false -> u = []) ->
  arun k (ws ++ u) (XOk (at_target k out, u)).
Proof.
  induction 1 as [prev|prev w T rest out W K H IH]; intros ns ss k u SL SL' -> -> -> -> CO MF N253 WN TI LI BW BU ZW ZD ZO ZS PL UP.
  - assert (u = []) as -> by (destruct (has_planned k); [apply PL; auto|auto]).
    replace (at_target k (d_target k)) with k; [constructor|]. unfold at_target.
    destruct TI as [_ TI]. rewrite WN in TI. destruct TI as [T1 T2]. rewrite <- T1 at 2. rewrite <- T2, <- WN. symmetry. apply set_win_same.
  - pose proof (window_nonempty _ _ _ _ _ _ W) as WNE.
    assert (ns + ss <= 254) as NSS by (destruct MF as [MF|MF]; [apply app_eq_nil in MF; tauto|lia]).
    assert (ns <= 253) as NS1 by (apply N253; destruct w; [congruence|discriminate]).
    apply bytes_ok_app in BW as [BW BR]. destruct (windows_prefix _ _ _ _ _ _ _ _ H) as [m EM].
    rewrite zlen_app in ZW. pose proof (zlen_nonneg _ w). pose proof (zlen_nonneg _ rest). pose proof (zlen_nonneg _ T). pose proof (zlen_nonneg _ m).
    assert (zlen out = zlen (d_target k) + zlen T + zlen m) as ZE by (rewrite EM, !zlen_app; lia).
    pose proof (zlen_nonneg _ (d_target k)). pose proof (zlen_nonneg _ (d_dict k)).
    destruct TI as [T0 TI]. rewrite WN in TI. destruct TI as [T1 T2]. destruct K as [[K1 K2] K3].
    assert (would_exceed k (zlen T) = false) as WE.
    { apply would_exceed_true; auto; lia. }
    assert (decode_window k (w ++ rest ++ u) =
      XOk (set_win k None (zlen (d_target k ++ T)) (d_target k ++ T) (to_size (d_total k + zlen T)), rest ++ u)) as DW.
    { refine (decode_window_complete k ns ss _ w T (rest ++ u) CO NS1 NSS WN BW _ W _ _ WE ZD _ _ _ _); try lia.
      - apply bytes_ok_app. auto.
      - destruct rest; auto. }
    rewrite to_size_id in DW by (destruct LI as (L1 & L2 & L3 & _); unfold size_max in *; lia).
    rewrite T1, <- zlen_app in DW.
    set (k1 := set_win k None (zlen (d_target k ++ T)) (d_target k ++ T) (zlen (d_target k ++ T))) in *.
    assert (bytes_ok (w ++ rest ++ u)) as BALL by (repeat (apply bytes_ok_app; split); auto).
    pose proof (decode_window_step k ns ss _ [] CO BALL ltac:(constructor)) as ST. rewrite DW in ST.
    destruct ST as (CO' & CS & WN' & _).
    assert (tot_inv k) as TIK by (split; [exact T0|]; rewrite WN; auto).
    pose proof (decode_window_len ns ss k _ CO BALL TIK LI) as DL. rewrite DW in DL. destruct DL as (TI' & LI' & _).
    rewrite <- app_assoc.
    assert (w ++ rest ++ u <> []) as NE by (destruct w; [congruence|discriminate]).
    destruct (reached_planned k1) eqn:RP.
    + assert (has_planned k = true) as HP by (unfold reached_planned in RP; destruct (has_planned k) eqn:X; [reflexivity|]; change (has_planned k1) with (has_planned k) in RP; rewrite X in RP; discriminate).
      assert (rest = [] /\ out = d_target k ++ T) as [-> ->].
      { inversion H as [? E1 E2 E3|? w2 T2' rest2 out2 W2 K2' HH2]; subst; [auto|exfalso].
        destruct K2' as [_ K2']. destruct (K2' HP) as [K2a _]. unfold reached_planned in RP. change (has_planned k1) with (has_planned k) in RP.
        rewrite HP in RP. cbn in RP. lia. }
      apply run_stop; auto.
    + eapply run_step; [exact NE|exact DW|exact RP|].
      replace (at_target k out) with (at_target k1 out) by reflexivity.
      apply (IH ns ss k1 u); auto.
      * destruct MF as [MF|MF]; [apply app_eq_nil in MF; tauto|right; lia].
      * lia.
      * intros HP. destruct (PL HP) as [P1 P2]. split; [exact P1|]. intros ->. exfalso.
        inversion H as [? E1 E2 E3|? w2 T2' rest2 out2 W2 K2' HH2 E1 E2 E3].
        -- rewrite <- E3 in P1. unfold reached_planned in RP. rewrite HP in RP. cbn [andb] in RP. change (d_planned k1) with (d_planned k) in *. change (d_total k1) with (zlen (d_target k ++ T)) in RP. lia.
        -- pose proof (window_nonempty _ _ _ _ _ _ W2). apply app_eq_nil in E2. tauto.
Qed.

Lemma parse_cache_sizes_ok : forall p q ns ss r, varint p ns -> varint q ss -> ns <= 255 -> ss <= 255 ->
  parse_cache_sizes (p ++ q ++ r) = Ok (ns, ss, r).
Proof.
  intros p q ns ss r VP VQ NS SS. pose proof (varint_nonneg _ _ VP). pose proof (varint_nonneg _ _ VQ).
  unfold parse_cache_sizes, parse_size.
  rewrite (parse_ok I32 p ns (q ++ r)) by (auto using type_ok_I32; cbn; unfold int32_max; lia). cbn [bind].
  rewrite (parse_ok I32 q ss r) by (auto using type_ok_I32; cbn; unfold int32_max; lia). cbn [bind].
  destruct ((255 <? ns) || (255 <? ss)) eqn:E; [lia|reflexivity].
Qed.

Theorem acr_complete : forall t tl h v tbl ns ss, head t tl h v tbl ns ss -> t_slack t = false -> t_slack tl = false ->
  forall tw twl k ws u out, t_slack tw = false -> t_slack twl = false -> base_ok k -> d_sizes k = None -> d_table k = default_table -> modes_fit ns ss ws ->
  windows tw twl (file_format v tbl ns ss (d_allow k)) (d_dict k) (limits k) [] ws out ->
  bytes_ok (h ++ ws ++ u) -> ~ bad_cache (h ++ ws ++ u) -> zlen (h ++ ws ++ u) <= int32_max ->
  zlen (d_dict k) <= int32_max -> zlen out <= int32_max -> zlen (d_dict k) + zlen out <= int32_max + 1 ->
  (has_planned k = true -> zlen out = d_planned k /\ (ws = [] -> u = [])) -> (has_planned k = false -> u = []) ->
  exists a', acr (ADec k [] None) (h ++ ws ++ u) (AOk a') /\ d_target (acore a') = out /\ acomplete a' = true /\ arest a' = u.
Proof.
  assert (forall k ns ss ws u out t tl tbl, base_ok k -> d_sizes k = Some (ns, ss) -> sizes_ok ns ss -> t_slack t = false -> t_slack tl = false ->
    same_table tbl (entry (d_table k)) -> modes_fit ns ss ws -> (ws <> [] -> ns <= 253) ->
    windows t tl (file_format (d_version k) tbl ns ss (d_allow k)) (d_dict k) (limits k) [] ws out ->
    bytes_ok ws -> bytes_ok u -> zlen ws <= int32_max ->
    zlen (d_dict k) <= int32_max -> zlen out <= int32_max -> zlen (d_dict k) + zlen out <= int32_max + 1 ->
    (has_planned k = true -> zlen out = d_planned k /\ (ws = [] -> u = [])) -> (has_planned k = false -> u = []) ->
    exists r, arun k (ws ++ u) r /\ collapse r = AOk (ADec (at_target k out) u None) /\ acomplete (ADec (at_target k out) u None) = true) as RUN.
  { intros k ns ss ws u out t tl tbl BO S SO SL SL' ST MF N253 WS BW BU ZW ZD ZO ZS PL UP.
    destruct (base_core k ns ss BO S SO) as (CO & TI & LI & NS).
    exists (XOk (at_target k out, u)). split; [|split; [reflexivity|]].
    - eapply (arun_windows t tl (fmt k ns ss) (d_dict k) (limits k) [] ws out); eauto; [|symmetry; apply BO|apply BO].
      refine (windows_ext _ _ _ _ _ _ _ _ _ (tle_refl _) (tle_refl _) _ (fun _ _ X => X) _ _ _ WS).
      unfold same_format, fmt, file_format, allow_extensions. cbn. auto.
    - cbn. rewrite S. destruct (has_planned k) eqn:HP.
      + destruct (PL eq_refl) as [E _]. unfold reached_planned. change (has_planned (at_target k out)) with (has_planned k). rewrite HP. cbn.
        destruct (Z.leb_spec (d_planned k) (zlen out)); [reflexivity|lia].
      + rewrite (UP eq_refl). destruct (reached_planned _); reflexivity. }
  induction 1 as [tl v ind V BI I0 I1|tl v ind bn ns bs ss h v' tbl' ns' ss' ws' s tbl V BI I0 I1 VN VS NSL SSL HD IH MF' WS' L UC];
    intros SL SL' tw twl k ws u out SLW SLW' BO S DT MF WS BX NB ZX ZD ZO ZS PL UP.
  - change (file_header v ind ++ ws ++ u) with (hd5 v ind (ws ++ u)) in *.
    assert (aheader k None ([] ++ hd5 v ind (ws ++ u)) = Ok (set_file k v (Some (4, 3)) [] (d_table k), None, ws ++ u)) as AH.
    { cbn [app]. rewrite aheader_hd5 by auto. rewrite I0, I1. reflexivity. }
    destruct (aheader_ok k None _ _ _ _ BX S BO AH) as (BO' & BR & _). apply bytes_ok_app in BR as [BW BU].
    change (hd5 v ind (ws ++ u)) with (file_header v ind ++ ws ++ u) in ZX. rewrite !zlen_app in ZX.
    pose proof (zlen_nonneg _ ws). pose proof (zlen_nonneg _ u). pose proof (zlen_nonneg _ (file_header v ind)).
    destruct (RUN (set_file k v (Some (4, 3)) [] (d_table k)) 4 3 ws u out tw twl rfc_table) as (r & R & C & A); auto.
    { apply default_sizes_ok. } { cbn. rewrite DT. intros op O. symmetry. apply default_same. exact O. } { lia. }
    eexists. split; [rewrite <- C; eapply acr_win; eauto|]. split; [reflexivity|]. split; [exact A|reflexivity].
  - pose proof (varint_nonneg _ _ VN). pose proof (varint_nonneg _ _ VS).
    replace ((file_header v ind ++ bn ++ bs ++ h ++ ws') ++ ws ++ u) with (hd5 v ind (bn ++ bs ++ (h ++ ws' ++ ws ++ u))) in *
      by (change (hd5 v ind (bn ++ bs ++ h ++ ws' ++ ws ++ u)) with (file_header v ind ++ bn ++ bs ++ h ++ ws' ++ ws ++ u); rewrite <- !app_assoc; reflexivity).
    assert (~ (ns = 254 /\ ss = 0)) as NB254. { intros [-> ->]. apply NB. apply bad_here; auto. }
    assert (aheader k None ([] ++ hd5 v ind (bn ++ bs ++ h ++ ws' ++ ws ++ u)) = Ok (set_file k v (Some (ns, ss)) [] (d_table k), Some a_table, h ++ ws' ++ ws ++ u)) as AH.
    { cbn [app]. rewrite aheader_hd5 by auto. rewrite I0, I1, (parse_cache_sizes_ok bn bs ns ss) by auto. reflexivity. }
    destruct (aheader_ok k None _ _ _ _ BX S BO AH) as (BO' & BR & _).
    assert (zlen (h ++ ws' ++ ws ++ u) <= int32_max) as ZX'.
    { change (hd5 v ind (bn ++ bs ++ h ++ ws' ++ ws ++ u)) with (file_header v ind ++ bn ++ bs ++ (h ++ ws' ++ ws ++ u)) in ZX. rewrite (zlen_app _ (file_header v ind)), (zlen_app _ bn), (zlen_app _ bs) in ZX.
      pose proof (zlen_nonneg _ bn). pose proof (zlen_nonneg _ bs). pose proof (zlen_nonneg _ (file_header v ind)). lia. }
    destruct a_table_fields as (kt & EKT & KS & KB & KT & KAL & KD & KW & KF & KP).
    assert (zlen (d_dict kt) = 1536) as ZDT by (rewrite KD; vm_compute; reflexivity).
    assert (ws' <> []) as WSN. { intros ->. inversion WS' as [? E1 E2 E3|? w2 T2' rest2 out2 W2 K2' HH2 E1 E2 E3]; subst.
      - rewrite zlen_nil in L. discriminate. - pose proof (window_nonempty _ _ _ _ _ _ W2). apply app_eq_nil in E2. tauto. }
    destruct (IH SL SL t tl kt ws' (ws ++ u) s SL SL' KB KS KT MF') as (nd & AC & TG & CP & RS); auto; try (unfold int32_max in *; lia).
    { rewrite KAL, KD. refine (windows_ext _ _ _ _ _ _ _ _ _ (tle_refl _) (tle_refl _) _ _ _ _ _ WS').
      - unfold same_format. repeat split.
      - intros p T (A & B & C). unfold limits. rewrite KW, KF, KP. auto. }
    { intros B. apply NB. eapply bad_nested; eauto. }
    { intros _. rewrite KP. split; [exact L|]. intros. congruence. }
    { intros X. rewrite (planned_1536 kt KP) in X. discriminate. }
    rewrite <- EKT in AC.
    assert (aok a_table /\ ~ stopped (acore a_table)) as [TO TN].
    { split; [apply a_table_ok|]. intros [_ X]. revert X. vm_compute. discriminate. }
    pose proof (acr_ok _ _ _ AC TO TN BR) as (AO & _). apply aok_target_bytes in AO. rewrite TG in AO.
    assert (0 <= (ns + ss + 1) mod 256 <= 255) as MR by lia.
    destruct (use_code_table_usable default_table s _ AO L MR) as (t0 & b & U & CASES).
    assert (same_table tbl (entry t0) /\ table_ok t0) as [ST TOK].
    { destruct CASES as [(_ & UT & ->)|(_ & UT & ->)]; (destruct UC as [[UC ->]|[UC ->]]; [|]); try tauto.
      - split; [intros op O; symmetry; apply entry_of_bytes; exact O|]. apply table_of_bytes_ok; auto.
      - split; [intros op O; symmetry; apply default_same; exact O|]. apply default_table_ok. }
    assert (sizes_ok ns ss) as SO by (unfold sizes_ok; lia).
    apply bytes_ok_app in BR as [_ BR]. apply bytes_ok_app in BR as [_ BR]. apply bytes_ok_app in BR as [BW BU].
    rewrite !zlen_app in ZX'. pose proof (zlen_nonneg _ h). pose proof (zlen_nonneg _ ws'). pose proof (zlen_nonneg _ ws). pose proof (zlen_nonneg _ u).
    destruct (RUN (set_file (set_file k v (Some (ns, ss)) [] (d_table k)) v (Some (ns, ss)) [] t0) ns ss ws u out tw twl tbl) as (r & R & C & A); auto.
    { apply base_file; auto. } { intros WN. destruct MF as [MF|MF]; [congruence|lia]. } { lia. }
    eexists. split; [rewrite <- C; eapply acr_table; [exact AH|exact AC|]|].
    + eapply (after_done _ _ nd ns ss t0 b r); auto.
      * rewrite TG. exact L.
      * rewrite TG, last_mode_mod. cbn [set_file d_table]. rewrite DT. exact U.
      * rewrite RS. rewrite (app_assoc h ws'), finish_except_app. exact R.
    + split; [reflexivity|]. split; [exact A|reflexivity].
Qed.
