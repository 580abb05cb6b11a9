(** The decoder of [Decoder] follows the abstract decoder of [Chunk]. *)

From Verif Require Import Base Spec Varint VarintFacts AddrCache AddrCacheFacts CodeTable CodeTableFacts
  InstructionMap DecodeTable HeaderParser Adler AdlerFacts Decoder CopyFacts BodyFacts BodyExt WindowExt
  WindowHeader WindowStep Refine Totals Abstract FileHeader Chunk.
From Coq Require Import ZifyBool ZifyNat.

(** ** The loop over windows *)

Lemma core_ok_flush : forall ns ss c, core_ok ns ss c -> d_win c = None -> core_ok ns ss (set_target_out c [] 0 0).
Proof.
  intros ns ss c [A B C D E F G H] W. rewrite W in G. constructor; auto; cbn.
  - constructor.
  - rewrite W. reflexivity.
Qed.

Lemma core_ok_out : forall ns ss c n, core_ok ns ss c -> core_ok ns ss (set_target_out c (d_target c) n (d_start c)).
Proof. intros ns ss c n [A B C D E F G H]. constructor; auto. Qed.

Lemma core_ok_unparsed : forall ns ss c u, core_ok ns ss c -> core_ok ns ss (set_unparsed c u).
Proof. intros ns ss c u [A B C D E F G H]. constructor; auto. Qed.

Definition out_inv (O out pre : list Z) (c : core) : Prop :=
  0 <= d_out_pos c <= zlen (d_target c) /\ O ++ out = pre ++ ztake (d_out_pos c) (d_target c).

Lemma full_flush : forall pre c, d_start c = zlen (d_target c) ->
  full (pre ++ d_target c) (set_target_out c [] 0 0) = full pre c.
Proof. intros pre c S. unfold full. cbn. rewrite app_nil_r, S, zlen_app, Z.add_0_r. reflexivity. Qed.

Lemma cstep_out : forall c c', cstep c c' -> d_out_pos c' = d_out_pos c /\ (exists more, d_target c' = d_target c ++ more) /\
  d_started c' = d_started c /\ d_max_file c' = d_max_file c.
Proof. intros c c' (w & s & m & t & ->). cbn. eauto. Qed.

Lemma out_inv_cstep : forall O out pre c c', out_inv O out pre c -> cstep c c' -> out_inv O out pre c'.
Proof.
  intros O out pre c c' [R E] CS. unfold out_inv. destruct (cstep_out _ _ CS) as (-> & (m & ->) & _). split.
  - rewrite zlen_app. pose proof (zlen_nonneg _ m). lia.
  - rewrite ztake_app_le by lia. exact E.
Qed.

Lemma window_loop_sim : forall fuel ns ss c data out pre O,
  core_ok ns ss c -> core_ok ns ss (full pre c) -> tot_inv (full pre c) -> lim_inv (full pre c) ->
  shiftable pre c -> bytes_ok data -> (length data + mid c <= fuel)%nat -> out_inv O out pre c -> d_started c = true ->
  exists r, arun (full pre c) data r /\
  match r, window_loop fuel c data out with
  | XOk (k', u), (XOk (c', u'), out') | XEod (k', u), (XEod (c', u'), out') =>
      u' = u /\ d_started c' = true /\ exists pre', k' = full pre' c' /\ core_ok ns ss c' /\ shiftable pre' c' /\ out_inv O out' pre' c'
  | XErr, (XErr, out') => zlen (O ++ out') <= d_max_file c
  | XUB, (XUB, _) => True
  | _, _ => False
  end.
Proof.
  induction fuel as [|fuel IH]; intros ns ss c data out pre O CO COF TI LI SH BD LE OI ST.
  { destruct data as [|b data]; [|cbn in LE; lia]. exists (XOk (full pre c, [])). split; [constructor|]. cbn [window_loop].
    split; [reflexivity|]. split; [exact ST|]. exists pre. auto. }
  destruct data as [|b data0].
  { exists (XOk (full pre c, [])). split; [constructor|]. cbn [window_loop].
    split; [reflexivity|]. split; [exact ST|]. exists pre. auto. }
  cbn [window_loop]. set (data := b :: data0) in *. assert (data <> []) as NE by (unfold data; discriminate). clearbody data. clear b data0.
  pose proof (decode_window_full pre c ns ss data CO SH BD) as DF.
  pose proof (decode_window_step c ns ss data [] CO BD ltac:(constructor)) as STP.
  pose proof (decode_window_step (full pre c) ns ss data [] COF BD ltac:(constructor)) as STPF.
  pose proof (decode_window_len ns ss (full pre c) data COF BD TI LI) as LN.
  pose proof (decode_window_shiftable pre c data SH) as SH'.
  assert (zlen (d_target (full pre c)) <= d_max_file c) as ML.
  { destruct TI as (T0 & TI). destruct LI as (L1 & L2 & L3 & L4). cbn [full d_total d_target d_max_file d_win d_start] in *. destruct (d_win c); lia. }
  destruct (decode_window c data) as [[c' rest]|[c' rest]| | |] eqn:DW; cbn [xmap fullp fst snd] in DF; rewrite DF in *; try contradiction.
  - destruct STP as (CO' & CS & WN & BR & (used & EU & UN) & _). destruct STPF as (COF' & _).
    destruct LN as (TI' & LI' & _). destruct SH' as [SH' AL'].
    pose proof (out_inv_cstep _ _ _ _ _ OI CS) as OI'. destruct (cstep_out _ _ CS) as (_ & _ & ST' & MF'). rewrite ST in ST'.
    change (reached_planned c') with (reached_planned (full pre c')).
    destruct (reached_planned (full pre c')) eqn:RP.
    { exists (XOk (full pre c', rest)). split; [eapply run_stop; eauto|]. split; [reflexivity|]. split; [exact ST'|]. exists pre. auto. }
    assert (length rest + mid c' <= fuel)%nat as LE'.
    { unfold mid in *. rewrite WN. destruct (d_win c) eqn:DK.
      - rewrite EU, app_length in LE. lia.
      - specialize (UN eq_refl). destruct used; [congruence|]. rewrite EU, app_length in LE. cbn in LE. lia. }
    pose proof (co_win _ _ _ CO') as CW. rewrite WN in CW.
    destruct (d_allow c') eqn:AL.
    + destruct (IH ns ss c' rest out pre O CO' COF' TI' LI' SH' BR LE' OI' ST') as (r & R & M).
      exists r. split; [eapply run_step; eauto|]. rewrite MF' in M. exact M.
    + cbn [flush_target]. set (c'' := set_target_out c' [] 0 0) in *.
      pose proof (full_flush pre c' CW) as FF. fold c'' in FF.
      assert (out_inv O (out ++ zdrop (d_out_pos c') (d_target c')) (pre ++ d_target c') c'') as OI''.
      { destruct OI' as [R1 E1]. split; [cbn; rewrite zlen_nil; lia|]. cbn. rewrite app_assoc, E1, ztake_0, app_nil_r, <- app_assoc, ztake_zdrop. reflexivity. }
      destruct (IH ns ss c'' rest (out ++ zdrop (d_out_pos c') (d_target c')) (pre ++ d_target c') O) as (r & R & M).
      * apply core_ok_flush; auto.
      * rewrite FF. exact COF'.
      * rewrite FF. exact TI'.
      * rewrite FF. exact LI'.
      * right. cbn. rewrite WN. auto.
      * exact BR.
      * exact LE'.
      * exact OI''.
      * exact ST'.
      * exists r. rewrite FF in R. split; [eapply run_step; eauto|]. replace (d_max_file c'') with (d_max_file c) in M by (cbn; congruence). exact M.
  - destruct STP as (CO' & CS & BR & _). destruct (cstep_out _ _ CS) as (_ & _ & ST' & MF'). rewrite ST in ST'.
    exists (XEod (full pre c', rest)). split; [eapply run_eod; eauto|]. split; [reflexivity|]. split; [exact ST'|].
    exists pre. split; [reflexivity|]. split; [exact CO'|]. split; [tauto|]. eapply out_inv_cstep; eauto.
  - exists XErr. split; [eapply run_err; eauto|]. destruct OI as [R E]. rewrite E. cbn in ML. rewrite zlen_app in *.
    rewrite zlen_ztake by lia. lia.
  - exists XUB. split; [eapply run_ub; eauto|exact I].
Qed.

(** ** Calls *)

Inductive drel : list Z -> dec -> adec -> Prop :=
| drel_start : forall c, d_started c = true -> d_sizes c = None -> d_target c = [] -> d_out_pos c = 0 ->
    drel [] (Dec c None) (ADec (full [] c) (d_unparsed c) None)
| drel_nested : forall c nd an, d_started c = true -> d_sizes c <> None -> d_target c = [] -> d_out_pos c = 0 -> d_unparsed c = [] ->
    drel (d_string c) nd an -> drel [] (Dec c (Some nd)) (ADec (full [] c) [] (Some an))
| drel_win : forall ns ss pre c, core_ok ns ss c -> shiftable pre c -> d_started c = true -> d_out_pos c = zlen (d_target c) ->
    drel (pre ++ d_target c) (Dec c None) (ADec (full pre c) (d_unparsed c) None).

Lemma drel_out : forall O d a, drel O d a -> d_target (acore a) = O.
Proof. intros O d a []; cbn; auto. Qed.

Lemma drel_finish : forall O d a, drel O d a -> aok a ->
  exists c n, d = Dec c n /\ finish_decoding d = (Dec (reset c) None, acomplete a) /\ d_unparsed c = arest a /\ d_started c = true.
Proof.
  intros O d a [c ST S T OP|c nd an ST S T OP U H|ns ss pre c CO SH ST OP] OK; eexists _, _; (split; [reflexivity|]); cbn; rewrite ST; cbn [andb]; auto.
  destruct (d_sizes c); [|congruence]. auto.
Qed.

Lemma base_unfull : forall c, base_ok (full [] c) <-> base_ok c.
Proof.
  intros c. split; intros [A B C D E F G H I]; constructor; auto; cbn in *; rewrite ?zlen_nil in *; lia.
Qed.

Lemma full_nil_file : forall c v z s t, full [] (set_file c v z s t) = set_file (full [] c) v z [] t.
Proof. reflexivity. Qed.

(** The window part of a call. *)
Lemma chunk_windows_sim : forall ns ss c data pre O,
  core_ok ns ss c -> core_ok ns ss (full pre c) -> tot_inv (full pre c) -> lim_inv (full pre c) ->
  shiftable pre c -> bytes_ok data -> O = pre ++ d_target c -> d_out_pos c = zlen (d_target c) -> d_started c = true ->
  exists r, arun (full pre c) data r /\
  match chunk_windows c data with
  | CRet d' true o => exists a', collapse r = AOk a' /\ drel (O ++ o) d' a'
  | CRet d' false o => collapse r = AErr /\ zlen (O ++ o) <= d_max_file c /\ d' = Dec (reset c) None
  | CUB => collapse r = AUB
  | CFuel => False
  end.
Proof.
  intros ns ss c data pre O CO COF TI LI SH BD EO OP ST.
  assert (out_inv O [] pre c) as OI.
  { split; [pose proof (zlen_nonneg _ (d_target c)); lia|]. rewrite app_nil_r, EO, OP, ztake_all by lia. reflexivity. }
  assert (length data + mid c <= S (length data))%nat as LE by (unfold mid; destruct (d_win c); lia).
  destruct (window_loop_sim (S (length data)) ns ss c data [] pre O CO COF TI LI SH BD LE OI ST) as (r & R & M).
  exists r. split; [exact R|]. unfold chunk_windows.
  assert (forall c' u pre' out', core_ok ns ss c' -> shiftable pre' c' -> out_inv O out' pre' c' -> d_started c' = true ->
    exists d' o, chunk_done c' None u out' = CRet d' true o /\ drel (O ++ o) d' (ADec (full pre' c') u None)) as CD.
  { intros c' u pre' out' CO' SH' [R1 E1] ST'. unfold chunk_done, append_new_output. eexists _, _. split; [reflexivity|].
    cbn [set_unparsed d_out_pos d_target]. rewrite app_assoc, E1, <- app_assoc, ztake_zdrop.
    set (c2 := set_target_out (set_unparsed c' u) (d_target (set_unparsed c' u)) (zlen (d_target (set_unparsed c' u))) (d_start (set_unparsed c' u))).
    change (pre' ++ d_target c') with (pre' ++ d_target c2). change (full pre' c') with (full pre' c2).
    change u with (d_unparsed c2) at 3. apply (drel_win ns ss); auto.
    - unfold c2. apply core_ok_out, core_ok_unparsed, CO'. }
  destruct (window_loop (S (length data)) c data []) as [[[c' u']|[c' u']| | |] out']; destruct r as [[k u]|[k u]| | |]; try contradiction.
  - destruct M as (-> & ST' & pre' & -> & CO' & SH' & OI'). destruct (CD c' u pre' out' CO' SH' OI' ST') as (d' & o & -> & D).
    cbn [collapse]. eauto.
  - destruct M as (-> & ST' & pre' & -> & CO' & SH' & OI'). destruct (CD c' u pre' out' CO' SH' OI' ST') as (d' & o & -> & D).
    cbn [collapse]. eauto.
  - cbn. auto.
  - reflexivity.
Qed.

(** The state after a failed call. *)
Definition failed (d : dec) : Prop :=
  exists c, d = Dec (reset c) None /\ table_ok (d_table c) /\ 0 <= d_max_file c <= size_max.

Definition table_core : core := let '(Dec c _) := table_decoder in c.
Lemma table_drel : drel [] table_decoder a_table.
Proof. unfold a_table. change table_decoder with (Dec table_core None). cbv beta iota. change [] with (d_unparsed table_core) at 2. apply drel_start; reflexivity. Qed.

Local Transparent zlen.
Lemma decode_chunk_fuel_sim : forall f d data O a, (chunk_fuel d data <= f)%nat -> drel O d a -> aok a -> ~ stopped (acore a) -> bytes_ok data ->
  match decode_chunk_fuel f d data with
  | CRet d' true o => exists a', acr a data (AOk a') /\ drel (O ++ o) d' a'
  | CRet d' false o => acr a data AErr /\ zlen (O ++ o) <= d_max_file (acore a) /\ failed d'
  | CUB => acr a data AUB
  | CFuel => False
  end.
Proof.
  induction f as [|f IH]; intros d data O a LE DR OK NS BD.
  { destruct d as [c [nd|]]; cbn in LE; lia. }
  (* with the nested decoder *)
  assert (forall c k u n c' nd an rest O', 
     aheader k n (u ++ data) = Ok (full [] c', Some an, rest) -> bytes_ok rest ->
     base_ok c' -> (exists ns ss, d_sizes c' = Some (ns, ss) /\ sizes_ok ns ss) -> d_started c' = true -> d_out_pos c' = 0 ->
     d_unparsed (set_unparsed c' []) = [] -> d_max_file c' = d_max_file c ->
     aok an -> d_planned (acore an) = 1536 -> zlen (d_target (acore an)) < 1536 -> drel (d_string c') nd an -> O' = [] ->
     (chunk_fuel nd rest <= f)%nat ->
     match (match decode_chunk_fuel f nd rest with
            | CUB => CUB
            | CFuel => CFuel
            | CRet _ false _ => chunk_failed c' []
            | CRet nd' true o =>
                let s := d_string c' ++ o in
                if zlen s <? 1536 then
                  chunk_done (set_file c' (d_version c') (d_sizes c') s (d_table c')) (Some nd') [] []
                else
                  let '(Dec nc _, fin) := finish_decoding nd' in
                  if negb fin then chunk_failed c' []
                  else if negb (zlen s =? 1536) then chunk_failed c' []
                  else
                    let rest' := finish_except (zlen (d_unparsed nc)) rest in
                    match d_sizes c' with
                    | None => CUB
                    | Some (ns, ss) =>
                        match use_code_table (d_table c') (table_of_bytes s) (last_mode ns ss) with
                        | None => CUB
                        | Some (t, _) => chunk_windows (set_file c' (d_version c') (d_sizes c') [] t) rest'
                        end
                    end
            end) with
     | CRet d' true o => exists a', acr (ADec k u n) data (AOk a') /\ drel (O' ++ o) d' a'
     | CRet d' false o => acr (ADec k u n) data AErr /\ zlen (O' ++ o) <= d_max_file c /\ failed d'
     | CUB => acr (ADec k u n) data AUB
     | CFuel => False
     end) as NEST.
  { intros c k u n c' nd an rest O' H BR BO (ns & ss & S & SO) ST OP _ MF ON PN TN DN -> LE'.
    assert (0 <= d_max_file c) as M0 by (rewrite <- MF; apply BO).
    assert (~ stopped (acore an)) as NN by (intros X; apply (aok_stopped an ON PN) in X; lia).
    pose proof (IH nd rest (d_string c') an LE' DN ON NN BR) as M.
    destruct (decode_chunk_fuel f nd rest) as [nd' [|] o| |]; try contradiction.
    3:{ eapply acr_table; eauto. constructor. }
    2:{ destruct M as (M & _ & _). cbn. split; [eapply acr_table; eauto; constructor|]. split; [exact M0|]. exists c'. split; [reflexivity|]. split; apply BO. }
    destruct M as (an' & AC & DR'). cbv zeta.
    pose proof (acr_ok _ _ _ AC ON NN BR) as (ON' & PN' & _). rewrite PN in PN'.
    pose proof (drel_out _ _ _ DR') as TE. rewrite <- TE.
    destruct (aok_stopped an' ON' PN') as [SI SL].
    destruct (Z.ltb_spec (zlen (d_target (acore an'))) 1536) as [L|L].
    - unfold chunk_done, append_new_output. cbn [set_unparsed set_file d_out_pos d_target]. rewrite OP, (bo_target _ BO), zdrop_0.
      cbn [app]. exists (ADec (full [] c') [] (Some an')). split; [eapply acr_table; eauto; apply after_more; exact L|].
      match goal with |- drel [] (Dec ?cc _) _ => change (full [] c') with (full [] (set_file c' (d_version c') (d_sizes c') [] (d_table c')));
        set (c2 := cc) end.
      replace (full [] (set_file c' (d_version c') (d_sizes c') [] (d_table c'))) with (full [] c2)
        by (unfold full, c2; cbn; rewrite (bo_target _ BO); reflexivity).
      apply drel_nested; auto; try reflexivity.
      + cbn. rewrite S. discriminate.
      + cbn. rewrite TE. exact DR'.
    - destruct (drel_finish _ _ _ DR' ON') as (nc & nn & -> & FN & UN & _). rewrite FN.
      destruct (acomplete an') eqn:AC'; cbn [negb].
      2:{ cbn. split; [eapply acr_table; eauto; apply after_bad; auto|]. split; [exact M0|]. exists c'. split; [reflexivity|]. split; apply BO. }
      assert (zlen (d_target (acore an')) = 1536) as L2 by lia.
      destruct (Z.eqb_spec (zlen (d_target (acore an'))) 1536) as [_|]; [|lia]. cbn [negb].
      cbn [reset d_unparsed]. rewrite S, UN.
      destruct (use_code_table_ok (d_table c') (table_of_bytes (d_target (acore an'))) (last_mode ns ss)) as (t & b & U & TO & _).
      { apply BO. } { apply table_of_bytes_ok; auto. apply aok_target_bytes; auto. } { apply last_mode_range. }
      rewrite U. set (c2 := set_file c' (d_version c') (Some (ns, ss)) [] t).
      assert (base_ok c2) as BO2 by (apply base_file; auto).
      destruct (base_core c2 ns ss BO2 eq_refl SO) as (CO2 & TI2 & LI2 & NS2).
      destruct (base_core (full [] c2) ns ss (proj2 (base_unfull c2) BO2) eq_refl SO) as (COF2 & TIF2 & LIF2 & NSF2).
      assert (bytes_ok (finish_except (zlen (arest an')) rest)) as BF by (apply bytes_finish_except; [apply zlen_nonneg|exact BR]).
      destruct (chunk_windows_sim ns ss c2 (finish_except (zlen (arest an')) rest) [] [] CO2 COF2 TIF2 LIF2 (or_introl eq_refl) BF) as (r & R & M).
      { cbn. rewrite (bo_target _ BO). reflexivity. } { cbn. rewrite OP, (bo_target _ BO). reflexivity. } { exact ST. }
      assert (acr (ADec k u n) data (collapse r)) as AR.
      { eapply acr_table; eauto. eapply (after_done _ _ an' ns ss t b); [exact L2|exact AC'|exact S|exact U|].
        replace (d_sizes (full [] c')) with (Some (ns, ss)) by (symmetry; exact S). exact R. }
      destruct (chunk_windows c2 _) as [d' [|] o2| |]; try contradiction.
      + destruct M as (a' & CR & D). rewrite CR in AR. eauto.
      + destruct M as (CR & ZL & ->). rewrite CR in AR. split; [exact AR|]. split; [|exists c2; split; [reflexivity|]; split; apply BO2].
        cbn [c2 set_file d_max_file] in ZL. rewrite <- MF. exact ZL.
      + rewrite M in AR. exact AR. }
  cbn [decode_chunk_fuel].
  destruct DR as [c ST S T OP|c nd an ST S T OP U H|ns ss pre c CO SH ST OP]; rewrite ST; cbn [negb].
  - (* at the start *)
    inversion OK as [k0 u0 BO S0 BU HE E|k0 n0 ns ss BO S0 SO ON PN TN E|ns ss k0 u0 CO BU Q TI LI EX E]; subst;
      [|pose proof (co_sizes _ _ _ CO) as X; cbn in X; congruence].
    set (chunk := d_unparsed c ++ data) in *. assert (bytes_ok chunk) as BC by (apply bytes_ok_app; auto).
    assert (0 <= d_max_file c) as M0 by apply BO.
    unfold read_file_header. rewrite S.
    destruct (aheader_cases (full [] c) None chunk S0) as [[C E]|[[C E]|(v & ind & tl & EC & V)]].
    + rewrite C. cbn [bind]. cbn. split; [apply acr_err; exact E|]. split; [exact M0|]. exists c. split; [reflexivity|]. split; apply BO.
    + rewrite C. cbn [bind]. unfold chunk_done, append_new_output. cbn [set_unparsed d_out_pos d_target].
      rewrite OP, T, zdrop_0. eexists. split; [apply acr_eod; exact E|]. fold chunk. cbn [app].
      match goal with |- drel [] (Dec ?cc _) _ => set (c2 := cc) end.
      replace (full [] c) with (full [] c2) by (unfold full, c2; cbn; rewrite T; reflexivity).
      change chunk with (d_unparsed c2). apply drel_start; auto.
    + rewrite EC in *. rewrite check_magic_hd by exact V. cbn [bind]. rewrite zdrop_hd5.
      change (nth 3 (hd5 v ind tl) 0) with v. change (nth 4 (hd5 v ind tl) 0) with ind.
      pose proof (aheader_hd5 (full [] c) None v ind tl S0 V) as AH.
      destruct (Z.testbit ind 0).
      { cbn. split; [apply acr_err; fold chunk; rewrite EC; exact AH|]. split; [exact M0|]. exists c. split; [reflexivity|]. split; apply BO. }
      destruct (Z.testbit ind 1).
      * pose proof (parse_cache_sizes_mono tl []) as MM.
        destruct (parse_cache_sizes tl) as [[[ns ss] rest]| | |]; cbn [bind] in AH |- *; try contradiction.
        -- assert (aheader (full [] c) None chunk = Ok (full [] (set_file c v (Some (ns, ss)) [] (d_table c)), Some a_table, rest)) as AH2
             by (rewrite EC; exact AH).
           destruct (aheader_ok (full [] c) None chunk _ _ _ ltac:(rewrite EC; exact BC) S0 BO AH2) as (BO' & BR & SS & _ & _ & ZL).
           destruct a_table_ok as (TO & TP & TT).
           eapply (NEST c (full [] c) (d_unparsed c) None (set_file c v (Some (ns, ss)) [] (d_table c)) table_decoder a_table rest [] AH2 BR
             (proj1 (base_unfull _) BO') SS ST OP eq_refl eq_refl TO TP); [|exact table_drel|reflexivity|].
           ++ rewrite TT. reflexivity.
           ++ change (chunk_fuel table_decoder rest) with (Datatypes.S (length rest)).
              cbn [chunk_fuel] in LE. fold chunk in LE. unfold zlen in ZL. lia.
        -- unfold chunk_done, append_new_output. cbn [set_unparsed d_out_pos d_target].
           rewrite OP, T, zdrop_0. eexists. split; [apply acr_eod; fold chunk; rewrite EC; exact AH|]. fold chunk. cbn [app].
           match goal with |- drel [] (Dec ?cc _) _ => set (c2 := cc) end.
           replace (full [] c) with (full [] c2) by (unfold full, c2; cbn; rewrite T; reflexivity).
           rewrite EC. change (hd5 v ind tl) with (d_unparsed c2). apply drel_start; auto.
        -- cbn. split; [apply acr_err; fold chunk; rewrite EC; exact AH|]. split; [exact M0|]. exists c. split; [reflexivity|]. split; apply BO.
      * set (c2 := set_file c v (Some (kDefaultNearCacheSize, kDefaultSameCacheSize)) (d_string c) (d_table c)) in *.
        assert (aheader (full [] c) None chunk = Ok (full [] c2, None, tl)) as AH2 by (rewrite EC; exact AH).
        destruct (aheader_ok (full [] c) None chunk _ _ _ ltac:(rewrite EC; exact BC) S0 BO AH2) as (BO' & BR & (ns & ss & SS & SO) & _ & _ & ZL).
        destruct (base_core _ ns ss BO' SS SO) as (COF & TIF & LIF & NSF).
        destruct (base_core c2 ns ss (proj1 (base_unfull c2) BO') SS SO) as (CO & _).
        destruct (chunk_windows_sim ns ss c2 tl [] [] CO COF TIF LIF (or_introl eq_refl) BR) as (r & R & M).
        { cbn. rewrite T. reflexivity. } { cbn. rewrite OP, T. reflexivity. } { exact ST. }
        assert (acr (ADec (full [] c) (d_unparsed c) None) data (collapse r)) as AR by (eapply acr_win; eauto).
        destruct (chunk_windows c2 tl) as [d' [|] o| |]; try contradiction.
        -- destruct M as (a' & CR & D). rewrite CR in AR. eauto.
        -- destruct M as (CR & ZL' & ->). rewrite CR in AR. split; [exact AR|]. split; [exact ZL'|exists c2; split; [reflexivity|]; split; apply BO'].
        -- rewrite M in AR. exact AR.
  - (* code table in progress *)
    inversion OK as [k0 u0 BO S0 BU HE E|k0 n0 ns ss BO S0 SO ON PN TN E|ns ss k0 u0 CO BU Q TI LI EX E]; subst.
    unfold read_file_header. destruct (d_sizes c) as [[ns' ss']|] eqn:DS; [|congruence]. rewrite U. cbn [app].
    eapply (NEST c (full [] c) [] (Some an) c nd an data []).
    + unfold aheader. cbn [full d_sizes]. rewrite DS. reflexivity.
    + exact BD.
    + apply base_unfull. exact BO.
    + exists ns, ss. split; [exact S0|exact SO].
    + exact ST.
    + exact OP.
    + reflexivity.
    + reflexivity.
    + exact ON.
    + exact PN.
    + exact TN.
    + exact H.
    + reflexivity.
    + cbn [chunk_fuel] in LE. lia.
  - (* windows *)
    inversion OK as [k0 u0 BO S0 BU HE E|k0 n0 ns1 ss1 BO S0 SO ON PN TN E|ns1 ss1 k0 u0 CO1 BU Q TI LI EX E]; subst.
    { pose proof (co_sizes _ _ _ CO) as X. cbn in S0. congruence. }
    assert (ns1 = ns /\ ss1 = ss) as [-> ->].
    { pose proof (co_sizes _ _ _ CO1) as X1. pose proof (co_sizes _ _ _ CO) as X2. cbn in X1. rewrite X2 in X1. injection X1 as <- <-. auto. }
    assert (bytes_ok (d_unparsed c ++ data)) as BUD by (apply bytes_ok_app; auto).
    unfold read_file_header. rewrite (co_sizes _ _ _ CO).
    destruct (chunk_windows_sim ns ss c (d_unparsed c ++ data) pre (pre ++ d_target c) CO CO1 TI LI SH BUD eq_refl OP ST) as (r & R & M).
    assert (acr (ADec (full pre c) (d_unparsed c) None) data (collapse r)) as AR.
    { eapply acr_win; eauto. unfold aheader. rewrite (co_sizes _ _ _ CO1). reflexivity. }
    destruct (chunk_windows c (d_unparsed c ++ data)) as [d' [|] o| |]; try contradiction.
    -- destruct M as (a' & CR & D). rewrite CR in AR. eauto.
    -- destruct M as (CR & ZL' & ->). rewrite CR in AR. split; [exact AR|]. split; [exact ZL'|exists c; split; [reflexivity|]; split; [apply CO|apply LI]].
    -- rewrite M in AR. exact AR.
Qed.
Local Opaque zlen.

Lemma decode_chunk_sim : forall d data O a, drel O d a -> aok a -> ~ stopped (acore a) -> bytes_ok data ->
  match decode_chunk d data with
  | CRet d' true o => exists a', acr a data (AOk a') /\ drel (O ++ o) d' a'
  | CRet d' false o => acr a data AErr /\ zlen (O ++ o) <= d_max_file (acore a) /\ failed d'
  | CUB => acr a data AUB
  | CFuel => False
  end.
Proof. intros. apply decode_chunk_fuel_sim; auto. Qed.
