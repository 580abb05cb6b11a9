(** Larger limits, a longer dictionary and a more liberal setting of
    SetAllowVcdTarget do not change the result of a successful decoding. *)

From Verif Require Import Base ListFacts Spec Varint VarintFacts AddrCache AddrCacheFacts CodeTable CodeTableFacts
  InstructionMap DecodeTable HeaderParser Adler AdlerFacts Decoder CopyFacts BodyFacts BodyExt WindowExt
  WindowHeader WindowStep WindowFacts Refine Totals Abstract FileHeader Chunk Sim Stream Session Reuse Usable Sound Complete Truncate Files Chunked NoTarget.
From Coq Require Import ZifyBool ZifyNat.

Lemma slice_more : forall (d e : list Z) p n s, slice d p n = Some s -> slice (d ++ e) p n = Some s.
Proof. intros. apply slice_app_l. assumption. Qed.

(** ** The body of a window *)

Lemma read_source_more : forall d e w t a n s, read_source d w t a n = Some s -> read_source (d ++ e) w t a n = Some s.
Proof. intros d e w t a n s H. unfold read_source in *. destruct (w_kind w); auto. apply slice_more. exact H. Qed.

Lemma copy_bytes_more : forall d e w start t a n, copy_bytes d w start t a n <> XUB -> copy_bytes (d ++ e) w start t a n = copy_bytes d w start t a n.
Proof.
  intros d e w start t a n H. unfold copy_bytes in *. cbv zeta in *.
  destruct (a + n <=? w_seglen w).
  { destruct (read_source d w t a n) eqn:R; [|congruence]. rewrite (read_source_more _ e _ _ _ _ _ R). reflexivity. }
  destruct (a <? w_seglen w); [|reflexivity].
  destruct (read_source d w t a (w_seglen w - a)) eqn:R; [|congruence]. rewrite (read_source_more _ e _ _ _ _ _ R). reflexivity.
Qed.

Lemma decode_copy_more : forall d e w start st n m, decode_copy d w start st n m <> XUB -> decode_copy (d ++ e) w start st n m = decode_copy d w start st n m.
Proof.
  intros d e w start st n m H. unfold decode_copy in *. cbv zeta in *. destruct (decode_address _ _ _ _) as [[[a r] c]| | |]; try reflexivity.
  rewrite copy_bytes_more; [reflexivity|]. intros E. rewrite E in H. congruence.
Qed.

Lemma body_loop_more : forall f d e t w start st, body_loop f d t w start st <> XUB -> body_loop f (d ++ e) t w start st = body_loop f d t w start st.
Proof.
  induction f as [|f IH]; intros d e t w start st H; cbn [body_loop] in *; [reflexivity|].
  destruct (_ <? w_len w); [|reflexivity]. destruct (get_next_instruction _ _ _) as [ty n m p r|p r|]; try reflexivity.
  destruct (_ || _); [reflexivity|].
  assert (decode_instruction (d ++ e) w start (with_inst st p r) ty n m = decode_instruction d w start (with_inst st p r) ty n m) as ->.
  { unfold decode_instruction in *. destruct (ty =? VCD_ADD); [reflexivity|]. destruct (ty =? VCD_RUN); [reflexivity|]. destruct (ty =? VCD_COPY); [|reflexivity].
    apply decode_copy_more. intros E. rewrite E in H. congruence. }
  destruct (decode_instruction _ _ _ _ _ _ _); auto.
Qed.

Lemma decode_body_more : forall d e t w start st, decode_body d t w start st <> XUB -> decode_body (d ++ e) t w start st = decode_body d t w start st.
Proof.
  intros d e t w start st H. unfold decode_body in *. rewrite body_loop_more; [reflexivity|]. intros E. rewrite E in H. congruence.
Qed.

(** ** The header of a window *)

Lemma parse_source_segment_more : forall n m l, n <= m -> bytes_ok l -> parse_source_segment n l <> Err -> parse_source_segment m l = parse_source_segment n l.
Proof.
  intros n m l L B H. unfold parse_source_segment in *. destruct (parse_size l) as [[len l1]| | |] eqn:P; cbn [bind] in *; try reflexivity.
  destruct (Z.ltb_spec n len); [congruence|]. destruct (Z.ltb_spec m len); [lia|].
  destruct (parse_size l1) as [[pos l2]| | |] eqn:P2; cbn [bind] in *; try reflexivity.
  destruct ((n <=? pos) && (0 <? len)) eqn:E1; [congruence|]. assert ((m <=? pos) && (0 <? len) = false) as -> by lia.
  destruct (Z.ltb_spec n (to_size (pos + len))); [congruence|]. destruct (Z.ltb_spec m (to_size (pos + len))); [lia|]. reflexivity.
Qed.

Section More.
Variables (F W : Z) (b : bool) (D : list Z).

(** The state with the other settings and dictionary *)
Definition wm (k : core) : core :=
  {| d_started := d_started k; d_dict := D; d_unparsed := d_unparsed k; d_target := d_target k; d_version := d_version k; d_sizes := d_sizes k;
     d_string := d_string k; d_planned := d_planned k; d_max_file := F; d_max_window := W; d_total := d_total k; d_out_pos := d_out_pos k;
     d_allow := b; d_win := d_win k; d_start := d_start k; d_table := d_table k |}.
Definition wmd (r : dres) : dres := xmap (fun p => (wm (fst p), snd p)) r.
Definition wma (a : adec) : adec := let '(ADec k u n) := a in ADec (wm k) u n.
Definition wmr (r : ares) : ares := match r with AOk a => AOk (wma a) | AErr => AErr | AUB => AUB end.

Definition less (k : core) : Prop :=
  d_max_file k <= F <= size_max /\ d_max_window k <= W /\ (d_allow k = true -> b = true) /\ exists e, D = d_dict k ++ e.

Lemma less_step : forall k k', cstep k k' -> less k -> less k'.
Proof. intros k k' (w & s & m & t & ->) H. exact H. Qed.

Lemma wmd_collapse : forall r, collapse (wmd r) = wmr (collapse r).
Proof. intros [[k u]|[k u]| | |]; reflexivity. Qed.

Lemma would_exceed_more : forall k n, less k -> lim_inv k -> 0 <= d_total k -> 0 <= n -> would_exceed k n = false -> would_exceed (wm k) n = false.
Proof.
  intros k n (A & B & _ & _) LI T N H. destruct (would_exceed_false k n H LI T N) as (H1 & H2 & H3). destruct LI as (L1 & L2 & L3 & L4).
  unfold would_exceed, has_planned in *. cbn [wm d_max_window d_planned d_total d_max_file] in *.
  rewrite (to_size_id (F - d_total k)) by (unfold size_max in *; lia).
  destruct (d_planned k =? kUnlimitedBytes) eqn:E; cbn [negb andb] in *; [lia|].
  specialize (H3 eq_refl). specialize (L4 eq_refl). rewrite (to_size_id (d_planned k - d_total k)) by (unfold size_max in *; lia). lia.
Qed.

Lemma read_header_more : forall k data, less k -> lim_inv k -> 0 <= d_total k -> bytes_ok data ->
  read_header k data <> Err -> read_header (wm k) data = read_header k data.
Proof.
  intros k data LS LI T BD H. unfold read_header in *. change (allow_extensions (wm k)) with (allow_extensions k). cbn [wm d_dict d_target d_allow d_sizes].
  assert (parse_win_indicator (zlen (d_dict k)) (zlen (d_target k)) (d_allow k) data <> Err -> parse_win_indicator (zlen D) (zlen (d_target k)) b data =
    parse_win_indicator (zlen (d_dict k)) (zlen (d_target k)) (d_allow k) data) as WI.
  { clear H. intros H. unfold parse_win_indicator in *. destruct data as [|ind tl]; [reflexivity|]. cbn [parse_byte bind] in *. inversion BD; subst.
    destruct LS as (_ & _ & AL & e & DE). destruct (Z.testbit ind 0), (Z.testbit ind 1); try reflexivity.
    - rewrite (parse_source_segment_more (zlen (d_dict k)) (zlen D)); [reflexivity| |assumption|].
      + rewrite DE, zlen_app. pose proof (zlen_nonneg _ e). lia.
      + intros E. rewrite E in H. cbn in H. congruence.
    - destruct (d_allow k); cbn [negb] in *; [|congruence]. rewrite AL by reflexivity. reflexivity. }
  rewrite WI by (intros E; rewrite E in H; cbn in H; congruence). clear WI.
  destruct (parse_win_indicator _ _ _ data) as [[[[[ind kind] seglen] pos] l]| | |] eqn:PW; cbn [bind] in *; try reflexivity.
  pose proof (parse_win_indicator_local _ _ _ _ _ _ BD PW) as (p0 & E0 & _). pose proof (bytes_ok_suffix _ _ _ BD E0) as B0.
  destruct (parse_size l) as [[dl start]| | |] eqn:P1; cbn [bind] in *; try reflexivity.
  pose proof (parse_size_local _ _ _ B0 P1) as (p1 & E1 & _). pose proof (bytes_ok_suffix _ _ _ B0 E1) as B1.
  destruct (parse_size start) as [[tl l2]| | |] eqn:P2; cbn [bind] in *; try reflexivity.
  destruct (would_exceed k tl) eqn:WE; [congruence|]. rewrite would_exceed_more; auto.
  destruct (parse_inv I32 start tl l2 type_ok_I32 B1 P2) as (p & _ & _ & R). tauto.
Qed.

Lemma decode_window_more : forall ns ss k data, less k -> lim_inv k -> tot_inv k -> core_ok ns ss k -> bytes_ok data ->
  decode_window k data <> XErr -> decode_window k data <> XUB -> decode_window (wm k) data = wmd (decode_window k data).
Proof.
  intros ns ss k data LS LI [T _] CO BD NE NU. pose proof LS as (_ & _ & _ & e & DE).
  assert (forall total w st avail after, finish_window k total w st avail after <> XUB ->
    finish_window (wm k) total w st avail after = wmd (finish_window k total w st avail after)) as FW.
  { clear NE NU. intros total w st avail after NU. unfold finish_window in *. cbn [wm d_dict d_table d_start]. rewrite DE.
    rewrite decode_body_more by (intros E; rewrite E in NU; congruence).
    destruct (decode_body _ _ _ _ _) as [st'|st'| | |]; try reflexivity. cbv zeta. destruct (_ && _); reflexivity. }
  unfold decode_window in *. change (d_win (wm k)) with (d_win k). destruct (d_win k) as [w|].
  - cbv zeta in *. apply FW. exact NU.
  - rewrite read_header_more; auto; [|intros E; rewrite E in NE; congruence].
    destruct (read_header k data) as [[[[w st] after] l]| | |]; try reflexivity. apply FW. exact NU.
Qed.

Lemma arun_more : forall k data r, arun k data r -> forall ns ss, core_ok ns ss k -> tot_inv k -> lim_inv k -> bytes_ok data -> less k ->
  r <> XErr -> r <> XUB -> arun (wm k) data (wmd r).
Proof.
  induction 1 as [k|k data k' rest NE DW RP|k data k' rest r NE DW RP H IH|k data p NE DW|k data NE DW|k data NE DW]; intros ns ss CO TI LI BD LS N1 N2.
  - constructor.
  - pose proof (decode_window_more ns ss k data LS LI TI CO BD) as E. rewrite DW in E. eapply run_stop; [exact NE|apply E; discriminate|exact RP].
  - pose proof (decode_window_more ns ss k data LS LI TI CO BD) as E. rewrite DW in E.
    pose proof (decode_window_step k ns ss data [] CO BD ltac:(constructor)) as ST. rewrite DW in ST. destruct ST as (CO' & CS & _ & BR & _).
    pose proof (decode_window_len ns ss k data CO BD TI LI) as LN. rewrite DW in LN. destruct LN as (TI' & LI' & _).
    eapply run_step; [exact NE|apply E; discriminate|exact RP|]. apply (IH ns ss); auto. eapply less_step; eauto.
  - pose proof (decode_window_more ns ss k data LS LI TI CO BD) as E. rewrite DW in E. eapply run_eod; [exact NE|]. rewrite E by discriminate. reflexivity.
  - congruence.
  - congruence.
Qed.

Lemma aheader_wm : forall k n data, aheader (wm k) n data =
  match aheader k n data with Ok (k', n', rest) => Ok (wm k', n', rest) | Eod => Eod | Err => Err | UB => UB end.
Proof.
  intros k n data. unfold aheader. change (d_sizes (wm k)) with (d_sizes k). destruct (d_sizes k); [reflexivity|].
  destruct (check_magic data); cbn [bind]; try reflexivity. cbv zeta. destruct (Z.testbit _ 0); [reflexivity|]. destruct (Z.testbit _ 1); [|reflexivity].
  destruct (parse_cache_sizes _) as [[[ns ss] rest]| | |]; cbn [bind]; reflexivity.
Qed.

Lemma aheader_less : forall k n data k' n' rest, aheader k n data = Ok (k', n', rest) -> less k -> less k'.
Proof.
  intros k n data k' n' rest H LS. unfold aheader in H. destruct (d_sizes k); [injection H as <- _ _; exact LS|].
  destruct (check_magic data); cbn [bind] in H; try discriminate. cbv zeta in H. destruct (Z.testbit _ 0); [discriminate|]. destruct (Z.testbit _ 1); [|injection H as <- _ _; exact LS].
  destruct (parse_cache_sizes _) as [[[ns ss] r]| | |]; cbn [bind] in H; try discriminate. injection H as <- _ _. exact LS.
Qed.

Lemma acr_more : forall a x a', acr a x (AOk a') -> aok a -> ~ stopped (acore a) -> bytes_ok x -> less (acore a) ->
  acr (wma a) x (AOk (wma a')) /\ less (acore a').
Proof.
  intros a x a' H OK NS BX LS.
  assert (forall k' rest nd r, after k' rest (AOk nd) r -> forall ns ss, base_ok k' -> d_sizes k' = Some (ns, ss) -> sizes_ok ns ss -> aok nd ->
    bytes_ok rest -> less k' -> r = AOk a' -> after (wm k') rest (AOk nd) (AOk (wma a')) /\ less (acore a')) as AFTER.
  { intros k' rest nd r AF ns ss BO S SO ON BR LS' ER. subst r. inversion AF as [| |nd0 L E1 ER|nd0 L ALT E1 ER|nd0 ns' ss' t bb r' L CP S2 U R E1 ER]; subst nd0; try discriminate.
    - subst a'. split; [|exact LS']. apply after_more. exact L.
    - rewrite S in S2. injection S2 as <- <-. destruct (after_core k' ns ss nd t bb BO S SO ON L U) as (CO & TI & LI & NS' & _).
      assert (less (set_file k' (d_version k') (d_sizes k') [] t)) as LS2 by exact LS'.
      assert (bytes_ok (finish_except (zlen (arest nd)) rest)) as BF by (apply bytes_finish_except; [apply zlen_nonneg|exact BR]).
      split.
      + change (AOk (wma a')) with (wmr (AOk a')). rewrite <- ER, <- wmd_collapse. eapply after_done; eauto.
        apply (arun_more _ _ _ R ns ss); auto; intros ->; discriminate.
      + pose proof (arun_ok _ _ _ R ns ss CO BF NS') as AO. destruct r' as [[k2 u2]|[k2 u2]| | |]; try discriminate; injection ER as <-;
          destruct AO as (_ & CS & _); cbn [acore]; eapply less_step; eauto. }
  inversion H as [|k u n data E1 E2 E3 E4| |k u n data k1 rest r E1 R E2 E3 E4|k u n data k1 nd rest r1 r E1 A AF E2 E3 E4]; subst; cbn [wma acore] in *.
  - split; [|exact LS]. apply acr_eod. rewrite aheader_wm, E1. reflexivity.
  - assert (exists ns ss, core_ok ns ss k1 /\ tot_inv k1 /\ lim_inv k1 /\ bytes_ok rest /\ ~ stopped k1) as (ns & ss & CO & TI & LI & BR & NS1).
    { inversion OK as [k0 u0 BO S BU HE E|k0 n0 ns ss BO S SO ON PN TN E|ns ss k0 u0 CO BU Q TI LI EX E]; subst.
      - assert (bytes_ok (u ++ x)) as BUD by (apply bytes_ok_app; auto).
        destruct (aheader_ok k None _ k1 None rest BUD S BO E1) as (BO' & BR & (ns & ss & S' & SO) & _ & PL & _).
        destruct (base_core _ ns ss BO' S' SO) as (CO & TI & LI & NS'). exists ns, ss. auto.
      - unfold aheader in E1. rewrite S in E1. discriminate.
      - unfold aheader in E1. rewrite (co_sizes _ _ _ CO) in E1. injection E1 as <- <-. exists ns, ss. split; [exact CO|]. split; [exact TI|]. split; [exact LI|].
        split; [apply bytes_ok_app; auto|exact NS]. }
    pose proof (aheader_less _ _ _ _ _ _ E1 LS) as LS1. split.
    + change (AOk (wma a')) with (wmr (AOk a')). rewrite <- E4, <- wmd_collapse. eapply acr_win; [rewrite aheader_wm, E1; reflexivity|].
      apply (arun_more _ _ _ R ns ss); auto; intros ->; discriminate.
    + pose proof (arun_ok _ _ _ R ns ss CO BR NS1) as AO. destruct r as [[k2 u2]|[k2 u2]| | |]; try discriminate; injection E4 as <-;
        destruct AO as (_ & CS & _); cbn [acore]; eapply less_step; eauto.
  - destruct r1 as [nd'| |]; [|inversion AF; subst; discriminate|inversion AF; subst; discriminate].
    pose proof (aheader_less _ _ _ _ _ _ E1 LS) as LS1.
    assert (exists ns ss, base_ok k1 /\ d_sizes k1 = Some (ns, ss) /\ sizes_ok ns ss /\ aok nd' /\ bytes_ok rest) as (ns & ss & BO1 & S1 & SO1 & ON1 & BR).
    { inversion OK as [k0 u0 BO S BU HE E|k0 n0 ns ss BO S SO ON PN TN E|ns ss k0 u0 CO BU Q TI LI EX E]; subst.
      - assert (bytes_ok (u ++ x)) as BUD by (apply bytes_ok_app; auto).
        destruct (aheader_ok k None _ k1 (Some nd) rest BUD S BO E1) as (BO' & BR & (ns & ss & S' & SO) & NN & PL & _).
        destruct NN as [NN|NN]; [discriminate|]. injection NN as ->.
        destruct a_table_ok as (TO & TP & TT).
        assert (~ stopped (acore a_table)) as TS. { intros [_ X]. revert X. vm_compute. discriminate. }
        pose proof (acr_ok _ _ _ A TO TS BR) as (AO & _). exists ns, ss. auto.
      - unfold aheader in E1. rewrite S in E1. injection E1 as <- <- <-. cbn [app] in *.
        assert (~ stopped (acore n0)) as NS0 by (intros ST; apply (aok_stopped n0 ON PN) in ST; lia).
        pose proof (acr_ok _ _ _ A ON NS0 BX) as (AO & _). exists ns, ss. auto.
      - unfold aheader in E1. rewrite (co_sizes _ _ _ CO) in E1. discriminate. }
    destruct (AFTER _ _ _ _ AF ns ss) as [AF' LS']; auto. split; [|exact LS'].
    eapply acr_table; [rewrite aheader_wm, E1; reflexivity|exact A|exact AF'].
Qed.

Lemma acrs_more : forall chunks a R, acrs a chunks R -> forall a', R = AOk a' -> aok a -> unplanned a -> Forall bytes_ok chunks -> less (acore a) ->
  acrs (wma a) chunks (AOk (wma a')).
Proof.
  induction 1 as [a|a x tl r A N|a x tl a1 r A B IH]; intros a' ER OK UP FB LS.
  - injection ER as <-. constructor.
  - destruct (N _ ER).
  - inversion FB as [|? ? BY F']; subst. pose proof (unplanned_stopped a UP) as NS. pose proof (acr_ok _ _ _ A OK NS BY) as (AO & PL & _).
    destruct (acr_more _ _ _ A OK NS BY LS) as [A1 LS1].
    eapply acrs_cons; [exact A1|]. apply IH; auto. unfold unplanned, has_planned in *. rewrite PL. exact UP.
Qed.

End More.

Lemma wma_complete : forall F W b D a, acomplete (wma F W b D a) = acomplete a.
Proof. intros F W b D [k u n]. reflexivity. Qed.
Lemma wma_target : forall F W b D a, d_target (acore (wma F W b D a)) = d_target (acore a).
Proof. intros F W b D [k u n]. reflexivity. Qed.

Lemma plain_max : forall d, idle_plain d -> 0 <= max_file d <= size_max.
Proof.
  intros d IP. apply idle_plain_idle in IP as [ID _]. apply idle_ready in ID. destruct d as [c n]. exact (proj2 (proj2 ID)).
Qed.

Lemma ready_end : forall d dict chunks a, ready d -> bytes_ok dict -> Forall bytes_ok chunks ->
  acrs (astart d dict) chunks (AOk a) -> decode_stream d dict chunks = Some (acomplete a, d_target (acore a)).
Proof.
  intros d dict chunks a RD BD FB A.
  destruct (stream_start d dict chunks RD BD FB) as (R & A' & M). pose proof (acrs_fun _ _ _ A _ A') as ->. unfold decode_stream.
  destruct (decode_chunks (start_decoding d dict) chunks []) as [[[d' [|]] o]|]; [|destruct M as [M _]; discriminate|destruct M as [M _]; discriminate].
  destruct M as (a0 & E & DR & OKA & UA). injection E as <-. destruct (drel_finish _ _ _ DR OKA) as (c & n & -> & FN & _). rewrite FN. cbn [snd].
  rewrite (drel_out _ _ _ DR). reflexivity.
Qed.

Lemma ready_acrs : forall d dict chunks out, ready d -> bytes_ok dict -> Forall bytes_ok chunks ->
  decode_stream d dict chunks = Some (true, out) -> exists a, acrs (astart d dict) chunks (AOk a) /\ acomplete a = true /\ d_target (acore a) = out.
Proof.
  intros d dict chunks out RD BD FB H.
  destruct (stream_start d dict chunks RD BD FB) as (R & A & M). unfold decode_stream in H.
  destruct (decode_chunks (start_decoding d dict) chunks []) as [[[d' [|]] o]|]; try discriminate.
  injection H as FN <-. destruct M as (a & -> & DR & OKA & UA). destruct (drel_finish _ _ _ DR OKA) as (c & n & -> & E & _). rewrite E in FN. cbn [snd] in FN.
  exists a. split; [exact A|]. split; [exact FN|]. exact (drel_out _ _ _ DR).
Qed.

Lemma fresh_ready : forall d, idle_plain d -> ready (fresh_like d).
Proof.
  intros d IP. pose proof (plain_max d IP) as MX. destruct d as [c n]. cbn in *. split; [reflexivity|]. split; [apply default_table_ok|exact MX].
Qed.

Lemma more_same : forall d d' dict extra chunks out, idle_plain d -> idle_plain d' -> bytes_ok dict -> bytes_ok extra -> Forall bytes_ok chunks ->
  max_window d <= max_window d' -> max_file d <= max_file d' -> (target_allowed d = true -> target_allowed d' = true) ->
  decode_stream d dict chunks = Some (true, out) -> decode_stream d' (dict ++ extra) chunks = Some (true, out).
Proof.
  intros d d' dict extra chunks out IP IP' BD BE FB MW MF AL H.
  assert (forall x di, idle_plain x -> decode_stream x di chunks = decode_stream (fresh_like x) di chunks) as RE.
  { intros x di IX. apply idle_plain_idle in IX as [I T]. apply reuse_default_table; auto. }
  rewrite RE in H by exact IP. rewrite RE by exact IP'. clear RE.
  pose proof (fresh_ready d IP) as RD. pose proof (fresh_ready d' IP') as RD'. pose proof (plain_max d' IP') as MX'.
  destruct (ready_acrs _ dict chunks out RD BD FB H) as (a & A & C & T).
  destruct (start_ok _ dict RD BD) as (_ & OK & UP & _).
  pose proof (acrs_more (max_file d') (max_window d') (target_allowed d') (dict ++ extra) _ _ _ A a eq_refl OK UP FB) as M.
  rewrite (ready_end _ (dict ++ extra) chunks (wma (max_file d') (max_window d') (target_allowed d') (dict ++ extra) a) RD').
  - rewrite wma_complete, wma_target, C, T. reflexivity.
  - apply bytes_ok_app. auto.
  - exact FB.
  - destruct d as [c n], d' as [c' n']. cbn in *. apply M. split; [split; [exact MF|exact (proj2 MX')]|]. split; [exact MW|]. split; [exact AL|]. exists extra. reflexivity.
Qed.
