(** What a failing call has output. *)

From Verif Require Import Base ListFacts Spec Varint VarintFacts AddrCache AddrCacheFacts CodeTable CodeTableFacts
  InstructionMap DecodeTable HeaderParser Adler AdlerFacts Decoder CopyFacts BodyFacts BodyExt WindowExt
  WindowHeader WindowStep WindowFacts Refine Totals Abstract FileHeader Chunk Sim Stream Session Reuse Usable Sound Complete Truncate Unique Files SpecParts SpecBegun BegunFacts Output OutputFacts Chunked OutputCalls Count Kept.
From Coq Require Import ZifyBool ZifyNat.

Lemma zlen_len : forall l : list Z, zlen l = Z.of_nat (length l).
Proof. reflexivity. Qed.

(** One or more complete windows. *)
Inductive aruns : core -> list Z -> core -> list Z -> Prop :=
| aruns_one : forall k data k1 rest, decode_window k data = XOk (k1, rest) -> reached_planned k1 = false -> aruns k data k1 rest
| aruns_more : forall k data k1 rest k2 rest2, decode_window k data = XOk (k1, rest) -> reached_planned k1 = false ->
    aruns k1 rest k2 rest2 -> aruns k data k2 rest2.

Lemma window_loop_failed : forall fuel ns ss c data out pre O out',
  core_ok ns ss c -> core_ok ns ss (full pre c) -> tot_inv (full pre c) -> lim_inv (full pre c) ->
  shiftable pre c -> bytes_ok data -> out_inv O out pre c ->
  window_loop fuel c data out = (XErr, out') ->
  out' = out \/ exists k2 rest2, aruns (full pre c) data k2 rest2 /\ O ++ out' = d_target k2 /\ d_allow k2 = false.
Proof.
  induction fuel as [|fuel IH]; intros ns ss c data out pre O out' CO COF TI LI SH BD OI WL.
  { destruct data; discriminate WL. }
  destruct data as [|b data0]; [discriminate WL|].
  cbn [window_loop] in WL. set (data := b :: data0) in *. clearbody data. clear b data0.
  pose proof (decode_window_full pre c ns ss data CO SH BD) as DF.
  pose proof (decode_window_step c ns ss data [] CO BD ltac:(constructor)) as STP.
  pose proof (decode_window_step (full pre c) ns ss data [] COF BD ltac:(constructor)) as STPF.
  pose proof (decode_window_len ns ss (full pre c) data COF BD TI LI) as LN.
  pose proof (decode_window_shiftable pre c data SH) as SH'.
  destruct (decode_window c data) as [[c' rest]|[c' rest]| | |] eqn:DW; cbn [xmap fullp fst snd] in DF; rewrite DF in *; try contradiction.
  - destruct STP as (CO' & CS & WN & BR & (used & EU & UN) & _). destruct STPF as (COF' & _).
    destruct LN as (TI' & LI' & _). destruct SH' as [SH' AL'].
    pose proof (out_inv_cstep _ _ _ _ _ OI CS) as OI'.
    change (reached_planned c') with (reached_planned (full pre c')) in WL.
    destruct (reached_planned (full pre c')) eqn:RP; [discriminate WL|].
    pose proof (co_win _ _ _ CO') as CW. rewrite WN in CW.
    destruct (d_allow c') eqn:AL.
    + destruct (IH ns ss c' rest out pre O out' CO' COF' TI' LI' SH' BR OI' WL) as [->|(k2 & r2 & R & E)]; [left; reflexivity|].
      right. exists k2, r2. split; [eapply aruns_more; eauto|exact E].
    + cbn [flush_target] in WL. set (c'' := set_target_out c' [] 0 0) in *.
      pose proof (full_flush pre c' CW) as FF. fold c'' in FF.
      assert (out_inv O (out ++ zdrop (d_out_pos c') (d_target c')) (pre ++ d_target c') c'') as OI''.
      { destruct OI' as [R1 E1]. split; [cbn; rewrite zlen_nil; lia|]. cbn. rewrite app_assoc, E1, ztake_0, app_nil_r, <- app_assoc, ztake_zdrop. reflexivity. }
      right.
      destruct (IH ns ss c'' rest (out ++ zdrop (d_out_pos c') (d_target c')) (pre ++ d_target c') O out') as [->|(k2 & r2 & R & E)].
      * apply core_ok_flush; auto.
      * rewrite FF. exact COF'.
      * rewrite FF. exact TI'.
      * rewrite FF. exact LI'.
      * right. cbn. rewrite WN. auto.
      * exact BR.
      * exact OI''.
      * exact WL.
      * exists (full pre c'), rest. split; [apply aruns_one; auto|]. destruct OI'' as [_ E]. split; [|exact AL]. rewrite E. cbn. rewrite ztake_0, app_nil_r. reflexivity.
      * exists k2, r2. rewrite FF in R. split; [eapply aruns_more; eauto|exact E].
  - discriminate WL.
  - left. congruence.
  - discriminate WL.
Qed.

Lemma chunk_windows_failed : forall ns ss c data pre O d' o,
  core_ok ns ss c -> core_ok ns ss (full pre c) -> tot_inv (full pre c) -> lim_inv (full pre c) ->
  shiftable pre c -> bytes_ok data -> O = pre ++ d_target c -> d_out_pos c = zlen (d_target c) ->
  chunk_windows c data = CRet d' false o ->
  o = [] \/ exists k2 rest2, aruns (full pre c) data k2 rest2 /\ O ++ o = d_target k2 /\ d_allow k2 = false.
Proof.
  intros ns ss c data pre O d' o CO COF TI LI SH BD EO OP CW.
  assert (out_inv O [] pre c) as OI.
  { split; [pose proof (zlen_nonneg _ (d_target c)); lia|]. rewrite app_nil_r, EO, OP, ztake_all by lia. reflexivity. }
  unfold chunk_windows in CW.
  destruct (window_loop (S (length data)) c data []) as [r out'] eqn:WL.
  destruct r as [[c' u']|[c' u']| | |]; try discriminate CW.
  unfold chunk_failed in CW. injection CW as _ <-. eapply window_loop_failed; eauto.
Qed.

(** Where the windows of a failing call begin. *)
Lemma decode_chunk_failed : forall f d data O a d' o, (chunk_fuel d data <= f)%nat -> drel O d a -> aok a -> ~ stopped (acore a) -> bytes_ok data ->
  decode_chunk_fuel f d data = CRet d' false o ->
  o = [] \/ exists k1 rest k2 rest2, window_part a data k1 rest /\ aruns k1 rest k2 rest2 /\ O ++ o = d_target k2 /\ d_allow k2 = false.
Proof.
  intros f d data O a d' o LE DR OK NS BD DC. destruct f as [|f]; [discriminate DC|].
  (* with the nested decoder *)
  assert (forall k u n c' nd an rest,
     aheader k n (u ++ data) = Ok (full [] c', Some an, rest) -> bytes_ok rest ->
     base_ok c' -> (exists ns ss, d_sizes c' = Some (ns, ss) /\ sizes_ok ns ss) -> d_out_pos c' = 0 ->
     aok an -> d_planned (acore an) = 1536 -> zlen (d_target (acore an)) < 1536 -> drel (d_string c') nd an ->
     (chunk_fuel nd rest <= f)%nat ->
     (match decode_chunk_fuel f nd rest with
            | CUB => CUB
            | CFuel => CFuel
            | CRet _ false _ => chunk_failed c' []
            | CRet nd' true o =>
                let s := d_string c' ++ o in
                if zlen s <? 1536 then
                  chunk_done (set_file c' (d_version c') (d_sizes c') s (d_table c')) (Some nd') [] []
                else
                  let '(Dec nc _, fin) := finish_decoding nd' in
                  if negb fin then chunk_failed c' []
                  else if negb (zlen s =? 1536) then chunk_failed c' []
                  else
                    let rest' := finish_except (zlen (d_unparsed nc)) rest in
                    match d_sizes c' with
                    | None => CUB
                    | Some (ns, ss) =>
                        match use_code_table (d_table c') (table_of_bytes s) (last_mode ns ss) with
                        | None => CUB
                        | Some (t, _) => chunk_windows (set_file c' (d_version c') (d_sizes c') [] t) rest'
                        end
                    end
            end) = CRet d' false o ->
     o = [] \/ exists k1 rest k2 rest2, window_part (ADec k u n) data k1 rest /\ aruns k1 rest k2 rest2 /\ o = d_target k2 /\ d_allow k2 = false) as NEST.
  { intros k u n c' nd an rest H BR BO (ns & ss & S & SO) OP ON PN TN DN LE' E.
    assert (~ stopped (acore an)) as NN by (intros X; apply (aok_stopped an ON PN) in X; lia).
    pose proof (decode_chunk_fuel_sim f nd rest (d_string c') an LE' DN ON NN BR) as M.
    destruct (decode_chunk_fuel f nd rest) as [nd' [|] o1| |]; try discriminate E.
    2:{ unfold chunk_failed in E. left. congruence. }
    destruct M as (an' & AC & DR'). cbv zeta in E.
    pose proof (acr_ok _ _ _ AC ON NN BR) as (ON' & PN' & _). rewrite PN in PN'.
    pose proof (drel_out _ _ _ DR') as TE. rewrite <- TE in E.
    destruct (Z.ltb_spec (zlen (d_target (acore an'))) 1536) as [L|L].
    { unfold chunk_done, append_new_output in E. discriminate E. }
    destruct (drel_finish _ _ _ DR' ON') as (nc & nn & -> & FN & UN & _). rewrite FN in E.
    destruct (acomplete an') eqn:AC'; cbn [negb] in E.
    2:{ unfold chunk_failed in E. left. congruence. }
    destruct (Z.eqb_spec (zlen (d_target (acore an'))) 1536) as [L2|]; cbn [negb] in E.
    2:{ unfold chunk_failed in E. left. congruence. }
    cbn [reset d_unparsed] in E. rewrite S, UN in E.
    destruct (use_code_table_ok (d_table c') (table_of_bytes (d_target (acore an'))) (last_mode ns ss)) as (t & b & U & TO & _).
    { apply BO. } { apply table_of_bytes_ok; auto. apply aok_target_bytes; auto. } { apply last_mode_range. }
    rewrite U in E. set (c2 := set_file c' (d_version c') (Some (ns, ss)) [] t) in *.
    assert (base_ok c2) as BO2 by (apply base_file; auto).
    destruct (base_core c2 ns ss BO2 eq_refl SO) as (CO2 & TI2 & LI2 & NS2).
    destruct (base_core (full [] c2) ns ss (proj2 (base_unfull c2) BO2) eq_refl SO) as (COF2 & TIF2 & LIF2 & NSF2).
    assert (bytes_ok (finish_except (zlen (arest an')) rest)) as BF by (apply bytes_finish_except; [apply zlen_nonneg|exact BR]).
    destruct (chunk_windows_failed ns ss c2 _ [] [] d' o CO2 COF2 TIF2 LIF2 (or_introl eq_refl) BF) as [->|(k2 & r2 & R & ET)]; [| |exact E|left; reflexivity|].
    { cbn. rewrite (bo_target _ BO). reflexivity. } { cbn. rewrite OP, (bo_target _ BO). reflexivity. }
    right. exists (full [] c2), (finish_except (zlen (arest an')) rest), k2, r2. split; [|split; [exact R|exact ET]].
    replace (full [] c2) with (set_file (full [] c') (d_version (full [] c')) (d_sizes (full [] c')) [] t) by (unfold c2; rewrite full_nil_file; cbn [full d_version d_sizes]; rewrite S; reflexivity).
    eapply part_table; [exact H|exact AC|exact L2|exact AC'|exact S|exact U]. }
  cbn [decode_chunk_fuel] in DC.
  destruct DR as [c ST S T OP|c nd an ST S T OP U H|ns ss pre c CO SH ST OP]; rewrite ST in DC; cbn [negb] in DC.
  - (* at the start *)
    inversion OK as [k0 u0 BO S0 BU HE E|k0 n0 ns ss BO S0 SO ON PN TN E|ns ss k0 u0 CO BU Q TI LI EX E]; subst;
      [|pose proof (co_sizes _ _ _ CO) as X; cbn in X; congruence].
    set (chunk := d_unparsed c ++ data) in *. assert (bytes_ok chunk) as BC by (apply bytes_ok_app; auto).
    unfold read_file_header in DC. rewrite S in DC.
    destruct (aheader_cases (full [] c) None chunk S0) as [[C E]|[[C E]|(v & ind & tl & EC & V)]].
    + rewrite C in DC. cbn [bind] in DC. unfold chunk_failed in DC. left. congruence.
    + rewrite C in DC. cbn [bind] in DC. unfold chunk_done, append_new_output in DC. discriminate DC.
    + rewrite EC in *. rewrite check_magic_hd in DC by exact V. cbn [bind] in DC. rewrite zdrop_hd5 in DC.
      change (nth 3 (hd5 v ind tl) 0) with v in DC. change (nth 4 (hd5 v ind tl) 0) with ind in DC.
      pose proof (aheader_hd5 (full [] c) None v ind tl S0 V) as AH.
      destruct (Z.testbit ind 0).
      { unfold chunk_failed in DC. left. congruence. }
      destruct (Z.testbit ind 1).
      * pose proof (parse_cache_sizes_mono tl []) as MM.
        destruct (parse_cache_sizes tl) as [[[ns ss] rest]| | |]; cbn [bind] in AH, DC; try contradiction.
        -- assert (aheader (full [] c) None chunk = Ok (full [] (set_file c v (Some (ns, ss)) [] (d_table c)), Some a_table, rest)) as AH2
             by (rewrite EC; exact AH).
           destruct (aheader_ok (full [] c) None chunk _ _ _ ltac:(rewrite EC; exact BC) S0 BO AH2) as (BO' & BR & SS & _ & _ & ZL).
           destruct a_table_ok as (TO & TP & TT). cbn [app].
           refine (NEST (full [] c) (d_unparsed c) None (set_file c v (Some (ns, ss)) [] (d_table c)) table_decoder a_table rest AH2 BR
             (proj1 (base_unfull _) BO') SS OP TO TP _ table_drel _ DC).
           ++ rewrite TT. reflexivity.
           ++ change (chunk_fuel table_decoder rest) with (Datatypes.S (length rest)).
              cbn [chunk_fuel] in LE. fold chunk in LE. rewrite !zlen_len in ZL. lia.
        -- unfold chunk_done, append_new_output in DC. discriminate DC.
        -- unfold chunk_failed in DC. left. congruence.
      * set (c2 := set_file c v (Some (kDefaultNearCacheSize, kDefaultSameCacheSize)) (d_string c) (d_table c)) in *.
        assert (aheader (full [] c) None chunk = Ok (full [] c2, None, tl)) as AH2 by (rewrite EC; exact AH).
        destruct (aheader_ok (full [] c) None chunk _ _ _ ltac:(rewrite EC; exact BC) S0 BO AH2) as (BO' & BR & (ns & ss & SS & SO) & _ & _ & ZL).
        destruct (base_core _ ns ss BO' SS SO) as (COF & TIF & LIF & NSF).
        destruct (base_core c2 ns ss (proj1 (base_unfull c2) BO') SS SO) as (CO & _).
        destruct (chunk_windows_failed ns ss c2 tl [] [] d' o CO COF TIF LIF (or_introl eq_refl) BR) as [->|(k2 & r2 & R & ET)]; [| |exact DC|left; reflexivity|].
        { cbn. rewrite T. reflexivity. } { cbn. rewrite OP, T. reflexivity. }
        right. exists (full [] c2), tl, k2, r2. split; [apply part_plain; exact AH2|split; [exact R|exact ET]].
  - (* code table in progress *)
    inversion OK as [k0 u0 BO S0 BU HE E|k0 n0 ns ss BO S0 SO ON PN TN E|ns ss k0 u0 CO BU Q TI LI EX E]; subst.
    unfold read_file_header in DC. destruct (d_sizes c) as [[ns' ss']|] eqn:DS; [|congruence]. rewrite U in DC. cbn [app] in *.
    refine (NEST (full [] c) [] (Some an) c nd an data _ BD (proj1 (base_unfull _) BO) _ OP ON PN TN H _ DC).
    + unfold aheader. cbn [full d_sizes]. rewrite DS. reflexivity.
    + exists ns, ss. split; [exact S0|exact SO].
    + cbn [chunk_fuel] in LE. lia.
  - (* windows *)
    inversion OK as [k0 u0 BO S0 BU HE E|k0 n0 ns1 ss1 BO S0 SO ON PN TN E|ns1 ss1 k0 u0 CO1 BU Q TI LI EX E]; subst.
    { pose proof (co_sizes _ _ _ CO) as X. cbn in S0. congruence. }
    assert (ns1 = ns /\ ss1 = ss) as [-> ->].
    { pose proof (co_sizes _ _ _ CO1) as X1. pose proof (co_sizes _ _ _ CO) as X2. cbn in X1. rewrite X2 in X1. injection X1 as <- <-. auto. }
    assert (bytes_ok (d_unparsed c ++ data)) as BUD by (apply bytes_ok_app; auto).
    unfold read_file_header in DC. rewrite (co_sizes _ _ _ CO) in DC.
    destruct (chunk_windows_failed ns ss c (d_unparsed c ++ data) pre (pre ++ d_target c) d' o CO CO1 TI LI SH BUD eq_refl OP DC) as [->|(k2 & r2 & R & ET)]; [left; reflexivity|].
    right. exists (full pre c), (d_unparsed c ++ data), k2, r2. split; [|split; [exact R|exact ET]].
    apply part_plain. unfold aheader. rewrite (co_sizes _ _ _ CO1). reflexivity.
Qed.

(** ** The windows of a failing call *)

Lemma at_runs : forall k rest k2 rest2, aruns k rest k2 rest2 -> forall k0 ns ss ws Ts, at_window k0 ns ss ws Ts k -> ~ stopped k -> bytes_ok rest ->
  exists wb Ts', rest = wb ++ rest2 /\ at_window k0 ns ss (ws ++ wb) (Ts ++ Ts') k2.
Proof.
  induction 1 as [k data k1 rest DW RP|k data k1 rest k2 rest2 DW RP R IH]; intros k0 ns ss ws Ts AW NS BD;
    destruct (at_window_next _ _ _ _ _ _ _ _ _ AW NS BD DW) as (wb & T & -> & BR & AW').
  - exists wb, [T]. auto.
  - destruct (IH _ _ _ _ _ AW' ltac:(intros [_ X]; congruence) BR) as (wb2 & Ts' & -> & AW2).
    exists (wb ++ wb2), ([T] ++ Ts'). rewrite !app_assoc. auto.
Qed.

Lemma wcame_runs : forall k0 ns ss W Ts k u y k2 rest2, wcame k0 ns ss W Ts k u -> core_ok ns ss k -> ~ stopped k -> bytes_ok u -> bytes_ok y ->
  aruns k (u ++ y) k2 rest2 -> exists ws Ts', W ++ y = ws ++ rest2 /\ at_window k0 ns ss ws (Ts ++ Ts') k2.
Proof.
  intros k0 ns ss W Ts k u y k2 rest2 (ks & ws & z & -> & AW & BZ & ALT) CO NS BU BY R.
  destruct ALT as [(_ & _ & ST)|[(NS' & -> & -> & ->)|(NS' & ZN & [c1 u1] & DW & SR)]]; [tauto| |].
  - destruct (at_runs _ _ _ _ R _ _ _ _ _ AW NS' BY) as (wb & Ts' & E & AW'). exists (ws ++ wb), Ts'. split; [|exact AW'].
    rewrite app_nil_r, <- app_assoc. f_equal. exact E.
  - pose proof (decode_window_step ks ns ss z y (aw_core _ _ _ _ _ _ AW) BZ BY) as ST. rewrite DW in ST.
    destruct ST as (_ & _ & _ & _ & _ & WR).
    pose proof (decode_window_srel ns ss k u c1 u1 y CO SR BU BY) as WR0.
    assert (bytes_ok (z ++ y)) as BZY by (apply bytes_ok_app; auto).
    assert (forall k3 r3, decode_window k (u ++ y) = XOk (k3, r3) -> decode_window ks (z ++ y) = XOk (k3, r3)) as FST.
    { intros k3 r3 D. rewrite D in WR0. cbn in WR0. rewrite <- WR0 in WR. cbn in WR. symmetry. exact WR. }
    rewrite <- app_assoc.
    inversion R as [k3 data k1 r1 D RP E1 E2 E3 E4|k3 data k1 r1 k4 r4 D RP R' E1 E2 E3 E4]; subst; apply FST in D;
      destruct (at_window_next _ _ _ _ _ _ _ _ _ AW NS' BZY D) as (wb & T & EZ & BR & AW').
    + exists (ws ++ wb), [T]. rewrite EZ, app_assoc. auto.
    + destruct (at_runs _ _ _ _ R' _ _ _ _ _ AW' ltac:(intros [_ X]; congruence) BR) as (wb2 & Ts' & -> & AW2).
      exists ((ws ++ wb) ++ wb2), ([T] ++ Ts'). rewrite EZ, <- !app_assoc in *. auto.
Qed.

(** The windows begin behind a head. *)
Lemma part_came : forall a y k1 rest, window_part a y k1 rest -> forall k X Ts, came k a X Ts -> d_sizes k = None -> base_ok k -> d_table k = default_table ->
  aok a -> ~ stopped (acore a) -> bytes_ok X -> bytes_ok y ->
  exists h v tbl ns ss k0 W u y', head lax lax h v tbl ns ss /\ sizes_ok ns ss /\ base_ok k0 /\ d_sizes k0 = Some (ns, ss) /\
    same_table (entry (d_table k0)) tbl /\ d_version k0 = v /\ d_allow k0 = d_allow k /\ d_dict k0 = d_dict k /\ limits k0 = limits k /\
    wcame k0 ns ss W Ts k1 u /\ core_ok ns ss k1 /\ ~ stopped k1 /\ bytes_ok u /\ bytes_ok y' /\ rest = u ++ y' /\ X ++ y = h ++ W ++ y'.
Proof.
  (* a head is complete *)
  assert (forall k1 ns ss data k h v tbl X, head lax lax h v tbl ns ss -> sizes_ok ns ss -> base_ok k1 -> d_sizes k1 = Some (ns, ss) ->
    same_table (entry (d_table k1)) tbl -> d_version k1 = v -> d_allow k1 = d_allow k -> d_dict k1 = d_dict k -> limits k1 = limits k ->
    bytes_ok data -> X = h ++ data ->
    exists h v tbl ns ss k0 W u y', head lax lax h v tbl ns ss /\ sizes_ok ns ss /\ base_ok k0 /\ d_sizes k0 = Some (ns, ss) /\
    same_table (entry (d_table k0)) tbl /\ d_version k0 = v /\ d_allow k0 = d_allow k /\ d_dict k0 = d_dict k /\ limits k0 = limits k /\
    wcame k0 ns ss W [] k1 u /\ core_ok ns ss k1 /\ ~ stopped k1 /\ bytes_ok u /\ bytes_ok y' /\ data = u ++ y' /\ X = h ++ W ++ y') as RUN.
  { intros k1 ns ss data k h v tbl X HD SO BO S ST EV EA ED EL BD EX.
    destruct (base_core k1 ns ss BO S SO) as (CO & TI & LI & NS).
    assert (at_window k1 ns ss [] [] k1) as AW.
    { constructor; auto; [apply BO|left; reflexivity|apply cstep_refl|constructor|]. cbn [concat]. rewrite app_nil_r. reflexivity. }
    exists h, v, tbl, ns, ss, k1, [], [], data. cbn [app].
    assert (wcame k1 ns ss [] [] k1 []) as WC.
    { exists k1, [], []. split; [reflexivity|]. split; [exact AW|]. split; [constructor|]. right. left. auto. }
    assert (bytes_ok []) as BN by constructor. auto 20. }
  (* a code table is complete *)
  assert (forall kt nd X Tn k v ind p q ns ss rest t b, a_table = ADec kt [] None -> came kt nd X Tn -> aok nd -> bytes_ok X ->
    (exists p0, X = p0 ++ rest) -> (stopped (acore nd) -> zlen (arest nd) <= zlen rest) -> d_planned (acore nd) = 1536 ->
    v = 0 \/ v = 83 -> byte_ok ind -> Z.testbit ind 0 = false -> Z.testbit ind 1 = true -> varint p ns -> varint q ss -> ns <= 255 -> ss <= 255 -> sizes_ok ns ss ->
    base_ok k -> d_table k = default_table ->
    zlen (d_target (acore nd)) = 1536 -> acomplete nd = true ->
    use_code_table (d_table k) (table_of_bytes (d_target (acore nd))) (last_mode ns ss) = Some (t, b) ->
    exists h v0 tbl ns0 ss0 k0 W u y', head lax lax h v0 tbl ns0 ss0 /\ sizes_ok ns0 ss0 /\ base_ok k0 /\ d_sizes k0 = Some (ns0, ss0) /\
    same_table (entry (d_table k0)) tbl /\ d_version k0 = v0 /\ d_allow k0 = d_allow k /\ d_dict k0 = d_dict k /\ limits k0 = limits k /\
    wcame k0 ns0 ss0 W [] (set_file (set_file k v (Some (ns, ss)) [] (d_table k)) v (Some (ns, ss)) [] t) u /\
    core_ok ns0 ss0 (set_file (set_file k v (Some (ns, ss)) [] (d_table k)) v (Some (ns, ss)) [] t) /\ ~ stopped (set_file (set_file k v (Some (ns, ss)) [] (d_table k)) v (Some (ns, ss)) [] t) /\
    bytes_ok u /\ bytes_ok y' /\
    finish_except (zlen (arest nd)) rest = u ++ y' /\ file_header v ind ++ p ++ q ++ X = h ++ W ++ y') as AFTER.
  { intros kt nd X Tn k v ind p q ns ss rest t b EKT CM OK BX (p0 & EP) ZR PL V BI I0 I1 VP VQ LN LS SO BO DT L CP U. subst X.
    assert (zlen (arest nd) <= zlen rest) as ZR' by (apply ZR, (aok_stopped nd OK PL); lia). clear ZR. rename ZR' into ZR.
    destruct a_table_fields as (kt' & EKT' & KS & KB & KT & KAL & KD & KW & KF & KP). rewrite EKT in EKT'. injection EKT' as <-.
    assert (p0 ++ rest <> []) as XN.
    { intros E. apply app_eq_nil in E as [-> ->]. rewrite zlen_nil in ZR. cbn [app] in CM.
      assert (forall h v tbl ns ss y, head lax lax h v tbl ns ss -> h ++ y <> []) as HN.
      { intros h0 v0 t0 n0 s0 y0 H0 E0. inversion H0; subst; discriminate. }
      remember [] as x eqn:EX in CM. destruct CM as [u| |h v0 tbl ns0 ss0 k1 W Tw k2 u HD].
      - cbn [acore] in L. rewrite (bo_target _ KB), zlen_nil in L. lia.
      - discriminate.
      - destruct (HN _ _ _ _ _ _ HD EX). }
    destruct (came_end kt nd _ _ CM OK KS XN CP) as (h' & v' & tbl' & ns' & ss' & ws' & ER & HD & MF' & WP' & TG' & ALT').
    pose proof (windows_of_parts _ _ _ _ _ _ _ _ WP') as WS'. cbn [app] in WS'. rewrite <- TG' in WS'.
    assert (finish_except (zlen (arest nd)) rest = arest nd) as FE.
    { assert (exists p1, rest = p1 ++ arest nd) as [p1 ->]; [|apply finish_except_app].
      rewrite app_assoc in ER. apply app_eq_app in ER as (l & [[F1 F2]|[F1 F2]]).
      - exists []. rewrite F2 in ZR. rewrite zlen_app in ZR. assert (l = []) as ->; [|symmetry; exact F2].
        destruct l; [reflexivity|]. rewrite zlen_cons in ZR. pose proof (zlen_nonneg _ l). lia.
      - exists l. exact F2. }
    rewrite FE in *.
    assert (bytes_ok (d_target (acore nd))) as BS by (apply aok_target_bytes; exact OK).
    rewrite last_mode_mod in U.
    assert (0 <= (ns + ss + 1) mod 256 <= 255) as MR by lia.
    rewrite DT in U.
    destruct (use_code_table_usable default_table (d_target (acore nd)) _ BS L MR) as (t' & b' & U' & CASES). rewrite U in U'. injection U' as <- <-.
    assert (exists tbl, same_table (entry t) tbl /\ table_ok t /\ ((usable_table ((ns + ss + 1) mod 256) (d_target (acore nd)) /\ tbl = table_of_string (d_target (acore nd))) \/
       (~ usable_table ((ns + ss + 1) mod 256) (d_target (acore nd)) /\ tbl = rfc_table))) as (tbl & ST & TOK & UC).
    { destruct CASES as [(_ & UT & ->)|(_ & UT & ->)].
      - exists (table_of_string (d_target (acore nd))). split; [intros op O; apply entry_of_bytes; exact O|]. split; [apply table_of_bytes_ok; auto|auto].
      - exists rfc_table. split; [apply default_same|]. split; [apply default_table_ok|auto]. }
    refine (RUN (set_file (set_file k v (Some (ns, ss)) [] (d_table k)) v (Some (ns, ss)) [] t) ns ss (arest nd) k (file_header v ind ++ p ++ q ++ h' ++ ws') v tbl _ _ SO _ eq_refl ST eq_refl eq_refl eq_refl eq_refl _ _).
    - eapply head_custom; [exact V|exact BI|exact I0|exact I1|exact VP|exact VQ|exact LN|exact LS|exact HD|exact MF'| |exact L|exact UC].
      rewrite KAL, KD in WS'. refine (windows_ext _ _ _ _ _ _ _ _ _ (tle_refl _) (tle_refl _) _ _ _ _ _ WS').
      + unfold Sound.same_format. repeat split.
      + intros pp TT [W1 W2]. unfold table_limit. rewrite KW, KF in W1. rewrite KP in W2. split; [exact W1|]. apply W2. apply planned_1536. exact KP.
    - apply base_file; [apply base_file; [exact BO|apply BO]|exact TOK].
    - rewrite ER in BX. apply bytes_ok_app in BX as [_ BX]. apply bytes_ok_app in BX as [_ BX]. exact BX.
    - rewrite ER, <- !app_assoc. reflexivity. }
  intros a y k1 rest [k u n data k2 rest' H|k u n data k2 nd rest' nd' ns ss t b H A L CP S2 U] k0 X Ts CM S BO DT OK NS BX BY.
  - inversion CM as [u0 E1 E2|v ind p ns q ss kt nd X' Tn V BI I0 I1 VP VQ LN LS SO EK C E1 E2|h v tbl ns ss k3 W Tw k4 u0 HD SO BO1 S1 ST EV EA ED EL WC E1 E2]; subst.
    + assert (bytes_ok (X ++ data)) as BXD by (apply bytes_ok_app; auto).
      destruct (aheader_inv k None _ _ _ _ BXD S H) as (v & ind & tl & EX & V & I0 & BI & ALT).
      destruct ALT as [(I1 & -> & _ & EK)|(I1 & Z & _)]; [|discriminate].
      destruct (aheader_ok k None _ k2 None rest' BXD S BO H) as (BO' & BR & (ns & ss & S' & SO) & _).
      subst k2. cbn in S'. injection S' as <- <-.
      eapply (RUN _ 4 3 rest' k (file_header v ind) v rfc_table); try reflexivity; [| exact SO|exact BO'| |exact BR|exact EX].
      * constructor; auto.
      * cbn. rewrite DT. apply default_same.
    + cbn [app aheader set_file d_sizes] in H. discriminate H.
    + pose proof (wcame_core _ _ _ _ _ _ _ WC) as SK. unfold aheader in H. rewrite SK in H. injection H as <- <-.
      assert (core_ok ns ss k /\ bytes_ok u) as [CO BU].
      { inversion OK as [k0' u0 BO0 S2 BU HE E|k0' n0 ns1 ss1 BO0 S2 SO2 ON PN TN E|ns1 ss1 k0' u0 CO BU Q TI LI EX E]; subst; [congruence|].
        pose proof (co_sizes _ _ _ CO) as SK'. rewrite SK in SK'. injection SK' as <- <-. auto. }
      exists h, (d_version k3), tbl, ns, ss, k3, W, u, data. rewrite <- app_assoc. auto 20.
  - inversion CM as [u0 E1 E2|v ind p ns' q ss' kt nd0 X' Tn V BI I0 I1 VP VQ LN LS SO EK C E1 E2|h v tbl ns' ss' k3 W Tw k4 u0 HD SO BO1 S1 ST EV EA ED EL WC E1 E2]; subst.
    + assert (bytes_ok (X ++ data)) as BXD by (apply bytes_ok_app; auto).
      destruct (aheader_inv k None _ _ _ _ BXD S H) as (v & ind & tl & EX & V & I0 & BI & ALT).
      destruct ALT as [(_ & _ & Z & _)|(I1 & EN & p & q & ns1 & ss1 & -> & VP & VQ & NSR & SSR & EK & _)]; [discriminate|]. injection EN as ->.
      destruct (aheader_ok k None _ k2 _ rest' BXD S BO H) as (BO' & BR & _).
      destruct a_table_fields as (kt & EKT & KS & KB & KT & KAL & KD & KW & KF & KP).
      assert (aok a_table /\ ~ stopped (acore a_table)) as [TO TN].
      { split; [apply a_table_ok|]. intros [_ Z]. revert Z. vm_compute. discriminate. }
      assert (came kt a_table [] []) as CT0 by (rewrite EKT; constructor).
      destruct (came_more _ _ _ A kt [] [] nd' CT0 KS KB KT TO TN ltac:(constructor) BR eq_refl) as (Tn & CT & _).
      pose proof (acr_ok _ _ _ A TO TN BR) as (AO & PL & ZR). destruct a_table_ok as (_ & PT & _). rewrite PT in PL.
      rewrite EX. change (hd5 v ind (p ++ q ++ rest')) with (file_header v ind ++ p ++ q ++ rest'). subst k2. cbn [app] in CT.
      cbn [set_file d_sizes d_table d_version] in S2, U |- *. injection S2 as <- <-.
      refine (AFTER kt nd' rest' Tn k v ind p q ns1 ss1 rest' t b EKT CT AO BR _ ZR PL V BI I0 I1 VP VQ _ _ _ BO DT L CP U); try lia; [exists []; reflexivity|unfold sizes_ok; lia].
    + cbn [app aheader set_file d_sizes] in H. injection H as <- <- <-.
      destruct a_table_fields as (kt' & EKT' & KS & KB & KT & KAL & KD & KW & KF & KP). pose proof EK as EK2. rewrite EK2 in EKT'. injection EKT' as <-.
      inversion OK as [k0' u0 BO0 S3 BU HE E|k0' n0 ns1 ss1 BO0 S3 SO2 ON PN TN E|ns1 ss1 k0' u0 CO BU Q TI LI EX E]; subst.
      assert (~ stopped (acore nd0)) as NSN by (intros Z; apply (aok_stopped nd0 ON PN) in Z; lia).
      assert (bytes_ok X') as BX'.
      { apply bytes_ok_app in BX as [_ BX]. apply bytes_ok_app in BX as [_ BX]. apply bytes_ok_app in BX as [_ BX]. exact BX. }
      destruct (came_more _ _ _ A kt X' Tn nd' C KS KB KT ON NSN BX' BY eq_refl) as (Tm & CT & _).
      pose proof (acr_ok _ _ _ A ON NSN BY) as (AO & PL & ZR). rewrite PN in PL.
      rewrite <- !app_assoc. cbn [set_file d_sizes d_table d_version] in S2, U |- *. injection S2 as <- <-.
      refine (AFTER kt nd' (X' ++ data) (Tn ++ Tm) k0 v ind p q ns' ss' data t b EK CT AO _ _ ZR PL V BI I0 I1 VP VQ LN LS SO BO DT L CP U); [apply bytes_ok_app; auto|exists X'; reflexivity].
    + unfold aheader in H. rewrite (wcame_core _ _ _ _ _ _ _ WC) in H. discriminate.
Qed.

(** ** All the output so far *)

(** What came of the window at hand, and of its target. *)
Definition next_interleaved (ok : list Z -> list Z -> Prop) (f : format) (dict prev z m : list Z) : Prop :=
  exists w rest L, z = w ++ rest /\ begun_window f dict prev w L m /\ forall T, zlen T = L -> ok prev T.

Lemma il_begun : forall c ns ss fd hdr seg ca total l c1 u1 m, core_ok ns ss c -> d_win c = None -> bytes_ok l ->
  header_rel c ns ss fd hdr seg -> fields_il c fd = true -> cache_init ns ss = Some ca ->
  finish_il c total (fields_window c fd ca) l = XEod (c1, u1) -> d_target c1 = d_target c ++ m ->
  exists w rest, hdr ++ l = w ++ rest /\ begun_window (fmt c ns ss) (d_dict c) (d_target c) w (w_len (fields_window c fd ca)) m.
Proof.
  intros c ns ss fd hdr seg ca total l c1 u1 m CO DW BL HR IL CI FI EM.
  pose proof (co_table _ _ _ CO) as TO. pose proof (co_win _ _ _ CO) as CW. rewrite DW in CW.
  destruct (cache_init_like ns ss ca (co_ns _ _ _ CO) (co_ss _ _ _ CO) CI) as (CR & NS & SS).
  set (w := fields_window c fd ca) in *.
  rewrite finish_il_eq in FI. rewrite CW in FI.
  assert (BI : binv (d_dict c) (d_table c) w (d_target c) seg (il_state w (d_target c) l) [] []).
  { destruct (il_inv_init c ns ss fd hdr seg ca l CO DW HR CI BL) as (prev & seg' & h & T0 & SE & E0 & _ & _ & BI').
    clear BI'.
    replace (il_state w (d_target c) l) with
      {| b_il := true; b_inst := ztake (w_expected w) l; b_data := []; b_addr := [];
         b_pending := None; b_cache := ca; b_target := d_target c |}.
    2:{ unfold w. destruct fd as [[[[[[[[kind seglen] pos] tl] nd] ni] na] cks] has]. reflexivity. }
    eapply binv_init; eauto; try constructor; auto. apply bytes_ok_ztake. auto. }
  unfold loop in FI.
  destruct (body_loop _ _ _ _ _ (il_state w (d_target c) l)) as [st'|st'| | |] eqn:LOOP; try discriminate FI.
  { destruct (_ && _) in FI; [discriminate FI|]. destruct (_ && _) in FI; discriminate FI. }
  cbv zeta in FI. destruct (_ <? _) in FI; [|discriminate FI].
  assert (d_target c1 = b_target st') as ET.
  { replace c1 with (fst (c1, u1)) by reflexivity.
    match goal with H : XEod ?x = XEod (c1, u1) |- _ => replace (c1, u1) with x by congruence end. reflexivity. }
  destruct (body_loop_begins _ _ _ _ _ _ _ _ _ _ TO BI eq_refl LOOP) as (h' & T' & b & I1 & I2 & I3 & I4).
  assert (m = T') as -> by (apply (app_inv_head (d_target c)); congruence).
  assert (w_pending w = None) as PN by (unfold w; destruct fd as [[[[[[[[kind seglen] pos] tl] nd] ni] na] cks] has]; reflexivity).
  cbn [il_state b_pending b_cache b_inst] in I3, I4. rewrite PN in I4.
  pose proof (fields_window_cache c fd ca) as WC. fold w in WC. rewrite WC, NS, SS in I4.
  exists (hdr ++ b), (b_inst st' ++ zdrop (w_expected w) l). split.
  { rewrite <- app_assoc. f_equal. rewrite app_assoc, <- I3, ztake_zdrop. reflexivity. }
  assert (zlen b <= w_expected w \/ w_expected w < 0) as ZB.
  { apply (f_equal zlen) in I3. rewrite zlen_app in I3. pose proof (zlen_nonneg _ (b_inst st')).
    destruct (Z.le_gt_cases 0 (w_expected w)); [|right; lia]. left. rewrite zlen_ztake in I3 by lia. lia. }
  pose proof (interleaved_iff c ns ss fd) as II. unfold w in *. clear w.
  destruct fd as [[[[[[[[kind seglen] pos] tl] nd] ni] na] cks] has].
  destruct HR as (ind & sb & bd & dl & bt & di & bnd & bni & bna & bcks & -> & BIN & SG & KO & SLM & VD & LD & VT & LTL & WE & BDI & DI & VND & LND & VNI & LNI & VNA & LNA & HC & CKF & DL).
  pose proof (varint_nonneg _ _ VNI) as N0. cbn [fields_window w_len w_expected] in *. rewrite IL in ZB.
  apply II in IL as (EX & -> & ->). cbn [fmt f_ext] in EX.
  rewrite <- !app_assoc.
  refine (begun_window_intro (fmt c ns ss) (d_dict c) (d_target c) ind sb seg bd dl bt tl di bnd bni ni bna bcks (if has then Some cks else None) b h' T' EX BIN SG VD VT BDI DI VND VNI VNA _ _ _ I4 I2).
  - unfold checksum_bytes. rewrite EX in HC. cbn [andb] in *. rewrite <- HC. destruct has.
    + exists cks. split; [reflexivity|]. apply CKF.
    + split; [apply CKF|reflexivity].
  - lia.
  - lia.
Qed.

Lemma wcame_output : forall k0 ns ss W Ts k u, wcame k0 ns ss W Ts k u -> sizes_ok ns ss ->
  exists ws z m, W = ws ++ z /\ windows_parts lax lax (fmt k0 ns ss) (d_dict k0) (limits k0) (d_target k0) ws Ts /\
    d_target k = d_target k0 ++ concat Ts ++ m /\ (m = [] \/ next_interleaved (limits k0) (fmt k0 ns ss) (d_dict k0) (d_target k0 ++ concat Ts) z m).
Proof.
  intros k0 ns ss W Ts k u (ks & ws & z & -> & AW & BZ & ALT) SO.
  pose proof (aw_means _ _ _ _ _ _ AW) as WS. pose proof (aw_target _ _ _ _ _ _ AW) as TG.
  destruct ALT as [(_ & <- & _)|[(_ & _ & _ & ->)|(NSK & _ & [c1 u1] & DW & SR)]].
  - exists ws, z, []. rewrite app_nil_r. auto.
  - exists ws, z, []. rewrite app_nil_r. auto.
  - assert (d_target k = d_target c1) as ETG.
    { destruct SR as [E|(w & nops & _ & _ & _ & _ & E)]; [congruence|]. cbn [fst snd] in E.
      assert (c1 = set_win k (Some (next_win w (w_expected w + zlen nops) None (w_cache w))) (d_start k) (d_target k) (d_total k)) as -> by congruence.
      reflexivity. }
    rewrite ETG. pose proof (aw_core _ _ _ _ _ _ AW) as CO.
    pose proof (decode_window_step ks ns ss z [] CO BZ ltac:(constructor)) as STP. rewrite DW in STP.
    destruct STP as (_ & CS & _). destruct (cstep_out _ _ CS) as (_ & (m & EM) & _).
    exists ws, z, m. rewrite EM, TG, app_assoc. split; [reflexivity|]. split; [exact WS|]. split; [reflexivity|].
    rewrite (decode_window_none ks ns ss) in DW by (apply AW || apply CO).
    assert (c1 = ks -> m = []) as MN.
    { intros ->. apply (app_inv_head (d_target ks)). rewrite app_nil_r. symmetry. exact EM. }
    destruct (header_fields ks z) as [[fd l]| | |] eqn:HF; try discriminate DW; [|left; apply MN; congruence].
    destruct (header_sound ks ns ss z fd l BZ HF) as (hdr & seg & ED & HR & BL).
    destruct (fields_il ks fd) eqn:IL.
    + right. cbn [negb andb] in DW. destruct (cache_init ns ss) as [ca|] eqn:CI; [|discriminate DW]. cbv zeta in DW.
      destruct (il_begun _ _ _ _ _ _ _ _ _ _ _ _ CO (aw_win _ _ _ _ _ _ AW) BL HR IL CI DW EM) as (w & rest & EW & BW).
      exists w, rest, (w_len (fields_window ks fd ca)). split; [rewrite ED; exact EW|]. split.
      * destruct (aw_step _ _ _ _ _ _ AW) as (w0 & s0 & m0 & t0 & EK). rewrite <- TG.
        replace (fmt k0 ns ss) with (fmt ks ns ss) by (rewrite EK; reflexivity).
        replace (d_dict k0) with (d_dict ks) by (rewrite EK; reflexivity). exact BW.
      * pose proof (aw_tot _ _ _ _ _ _ AW) as [T0 TI]. rewrite (aw_win _ _ _ _ _ _ AW) in TI. destruct TI as [TI1 TI2].
        pose proof (header_fields_exceed ks z fd l ca HF) as WE.
        assert (0 <= w_len (fields_window ks fd ca)) as W0.
        { destruct fd as [[[[[[[[kind seglen] pos] tl] nd] ni] na] cks] has]. cbn [fields_window w_len].
          destruct HR as (ind & sb & bd & dl & bt & di & bnd & bni & bna & bcks & EH & BI & SG & KO & SLM & VD & LD & VT & _).
          eapply varint_nonneg; eauto. }
        destruct (would_exceed_false _ _ WE (aw_lim _ _ _ _ _ _ AW) T0 W0) as (E1 & E2 & E3).
        intros T ZT. destruct (aw_step _ _ _ _ _ _ AW) as (w0 & s0 & m0 & t0 & EK). rewrite <- TG.
           assert (limits ks (d_target ks) T) as LM.
           { unfold limits, within. split; [lia|]. intros HP. specialize (E3 HP). split; [|lia].
             assert (reached_planned ks = false) as NR by (destruct (reached_planned ks) eqn:X; [destruct NSK; split; [apply AW|exact X]|reflexivity]).
             unfold reached_planned in NR. rewrite HP in NR. cbn [andb] in NR. lia. }
           replace (limits k0) with (limits ks) by (rewrite EK; reflexivity). exact LM.
    + left. apply MN. cbn [negb andb] in DW.
      destruct (Z.ltb_spec (zlen l) (fields_total fd)); [congruence|].
      destruct (cache_init ns ss) as [ca|] eqn:CI; [|discriminate DW]. cbv zeta in DW.
      pose proof (finish_std ks ns ss fd hdr seg ca (to_size (d_total ks + w_len (fields_window ks fd ca))) l (zdrop (fields_total fd) l) CO (aw_win _ _ _ _ _ _ AW) HR CI BL) as FS.
      rewrite DW in FS. contradiction.
Qed.

(** What came and what was output. *)
Definition accounted (k : core) (X out : list Z) : Prop :=
  out = [] \/ exists h v tbl ns ss ws z Ts m, X = h ++ ws ++ z /\ head lax lax h v tbl ns ss /\
    windows_parts lax lax (file_format v tbl ns ss (d_allow k)) (d_dict k) (limits k) [] ws Ts /\
    out = concat Ts ++ m /\ (m = [] \/ next_interleaved (limits k) (file_format v tbl ns ss (d_allow k)) (d_dict k) (concat Ts) z m).

Lemma next_interleaved_app : forall ok f dict prev z m y, next_interleaved ok f dict prev z m -> next_interleaved ok f dict prev (z ++ y) m.
Proof.
  intros ok f dict prev z m y (w & rest & L & -> & A). exists w, (rest ++ y), L. rewrite app_assoc. auto.
Qed.

Lemma accounted_app : forall k X y out, accounted k X out -> accounted k (X ++ y) out.
Proof.
  intros k X y out [->|(h & v & tbl & ns & ss & ws & z & Ts & m & -> & HD & WS & -> & ALT)]; [left; reflexivity|].
  right. exists h, v, tbl, ns, ss, ws, (z ++ y), Ts, m. rewrite <- !app_assoc. split; [reflexivity|]. split; [exact HD|]. split; [exact WS|]. split; [reflexivity|].
  destruct ALT as [A|A]; [left; exact A|right; apply next_interleaved_app; exact A].
Qed.

Lemma came_accounted : forall k a X Ts, came k a X Ts -> d_sizes k = None -> base_ok k -> accounted k X (d_target (acore a)).
Proof.
  intros k a X Ts [u|v ind p ns q ss kt nd X' Tn V BI I0 I1 VP VQ LN LS SO EK C|h v tbl ns ss k1 W Ts' k2 u HD SO BO S ST EV EA ED EL WC] S0 BOK.
  - left. cbn [acore]. apply BOK.
  - left. cbn [acore set_file d_target]. apply BOK.
  - right. destruct (wcame_output _ _ _ _ _ _ _ WC SO) as (ws & z & m & -> & WS & TG & ALT).
    rewrite (bo_target _ BO) in WS, TG. cbn [app] in TG. rewrite (bo_target _ BO), EL, ED in ALT. cbn [app] in ALT.
    exists h, v, tbl, ns, ss, ws, z, Ts', m. split; [reflexivity|]. split; [exact HD|]. split.
    2:{ split; [exact TG|]. destruct ALT as [->|(w & rest & L & EZ & BW & LI)]; [left; reflexivity|right].
        exists w, rest, L. split; [exact EZ|]. split; [|exact LI]. rewrite <- EA, <- EV. exact (begun_ext _ _ _ _ _ _ _ (fmt_file _ _ _ _ ST) BW). }
    rewrite <- ED, <- EL, <- EA, <- EV.
    refine (windows_parts_ext _ _ _ _ _ _ _ _ _ (tle_refl _) (tle_refl _) (fmt_file _ _ _ _ ST) (fun _ _ X => X) _ _ _ WS).
Qed.

Lemma failed_accounted : forall k a X Ts d data O d' o, came k a X Ts -> d_sizes k = None -> base_ok k -> d_table k = default_table ->
  drel O d a -> aok a -> ~ stopped (acore a) -> bytes_ok X -> bytes_ok data ->
  decode_chunk d data = CRet d' false o ->
  accounted k (X ++ data) (O ++ o) /\ (d_allow k = true -> o = []).
Proof.
  intros k a X Ts d data O d' o CM S BO DT DR OK NS BX BY DC.
  assert (accounted k (X ++ data) O) as ACC.
  { apply accounted_app. rewrite <- (drel_out _ _ _ DR). eapply came_accounted; eauto. }
  destruct (decode_chunk_failed _ d data O a d' o (le_n _) DR OK NS BY DC) as [->|(k1 & rest & k2 & rest2 & WP & R & ET & AL)].
  { rewrite app_nil_r. auto. }
  destruct (part_came _ _ _ _ WP _ _ _ CM S BO DT OK NS BX BY)
      as (h & v & tbl & ns & ss & k0 & W & u & y' & HD & SO & BO1 & S1 & ST & EV & EA & ED & EL & WC & CO & NS1 & BU & BY' & ER & EX).
    subst rest. destruct (wcame_runs _ _ _ _ _ _ _ _ _ _ WC CO NS1 BU BY' R) as (ws & Ts' & EW & AW).
    assert (d_allow k0 = false) as AL0 by (destruct (aw_step _ _ _ _ _ _ AW) as (w0 & s0 & m0 & t0 & EK); rewrite EK in AL; exact AL).
    split; [|intros X1; congruence].
    right. exists h, v, tbl, ns, ss, ws, rest2, (Ts ++ Ts'), []. rewrite app_nil_r.
    split; [rewrite EX, EW; reflexivity|]. split; [exact HD|].
    pose proof (aw_means _ _ _ _ _ _ AW) as WS. pose proof (aw_target _ _ _ _ _ _ AW) as TG.
    rewrite (bo_target _ BO1) in WS, TG. cbn [app] in TG. split; [|split; [congruence|left; reflexivity]].
    rewrite <- ED, <- EL, <- EA, <- EV.
    refine (windows_parts_ext _ _ _ _ _ _ _ _ _ (tle_refl _) (tle_refl _) (fmt_file _ _ _ _ ST) (fun _ _ X => X) _ _ _ WS).
Qed.

Lemma chunks_accounted : forall d dict chunks d' ok out, idle_plain d -> bytes_ok dict -> Forall bytes_ok chunks ->
  decode_chunks (start_decoding d dict) chunks [] = Some (d', ok, out) ->
  out = [] \/ exists h v tbl ns ss ws z Ts m, concat chunks = h ++ ws ++ z /\ head lax lax h v tbl ns ss /\
    windows_parts lax lax (file_format v tbl ns ss (target_allowed d)) dict (admits d) [] ws Ts /\
    out = concat Ts ++ m /\ (m = [] \/ next_interleaved (admits d) (file_format v tbl ns ss (target_allowed d)) dict (concat Ts) z m).
Proof.
  intros d dict chunks d' ok out IP BD F DC. pose proof (idle_plain_idle d IP) as [ID _]. pose proof (idle_ready d ID) as RD.
  destruct (start_facts d dict IP BD) as (k & EA & S & BO & DT & DD & DA & UP & LM).
  cut (accounted k (concat chunks) out).
  { intros [->|(h & v & tbl & ns & ss & ws & z & Ts & m & EX & HD & WS & EO & ALT)]; [left; reflexivity|right].
    exists h, v, tbl, ns, ss, ws, z, Ts, m. split; [exact EX|]. split; [exact HD|].
    assert (m = [] \/ next_interleaved (admits d) (file_format v tbl ns ss (target_allowed d)) dict (concat Ts) z m) as ALT'.
    { destruct ALT as [->|(w & rest & L & E1 & E2 & E3)]; [left; reflexivity|right]. rewrite DD, DA in E2.
      exists w, rest, L. split; [exact E1|]. split; [exact E2|]. intros T ZT. apply LM. auto. }
    split; [|auto]. rewrite <- DD, <- DA.
    refine (windows_parts_ext _ _ _ _ _ _ _ _ _ (tle_refl _) (tle_refl _) _ (fun p T => proj1 (LM p T)) _ _ _ WS).
    repeat split. }
  destruct (start_ok d dict RD BD) as (DR0 & OK & U & _). rewrite EA in *.
  destruct ok.
  { destruct (chunks_within chunks _ [] _ k [] [] [] d' out DR0 OK U (came_start k []) S BO DT ltac:(constructor) F DC)
      as (Ts & more & a & CM & DR & OKA & UA & EO & _). cbn [app] in *. subst more. rewrite <- (drel_out _ _ _ DR). eapply came_accounted; eauto. }
  assert (exists pre x tl d1 o1 o, chunks = pre ++ x :: tl /\ decode_chunks (start_decoding d dict) pre [] = Some (d1, true, o1) /\
    decode_chunk d1 x = CRet d' false o /\ out = o1 ++ o) as (pre & x & tl & d1 & o1 & o & -> & D1 & D2 & ->).
  { clear - DC. generalize (start_decoding d dict) as e, (@nil Z) as acc, DC. clear DC. induction chunks as [|x tl IH]; intros e acc DC; cbn [decode_chunks] in DC; [discriminate DC|].
    destruct (decode_chunk e x) as [d1 [|] o| |] eqn:D; try discriminate DC.
    - destruct (IH _ _ DC) as (pre & y & tl' & d2 & o1 & o2 & -> & A & B & ->). exists (x :: pre), y, tl', d2, o1, o2.
      split; [reflexivity|]. cbn [decode_chunks]. rewrite D. auto.
    - exists [], x, tl, e, acc, o. split; [reflexivity|]. split; [reflexivity|]. split; congruence. }
  apply Forall_app in F as [F1 F2]. inversion F2 as [|? ? BX F3]; subst.
  destruct (chunks_within pre _ [] _ k [] [] [] d1 o1 DR0 OK U (came_start k []) S BO DT ltac:(constructor) F1 D1)
    as (Ts & more & a & CM & DR & OKA & UA & EO & _). cbn [app] in *. subst more.
  rewrite concat_app. cbn [concat]. rewrite app_assoc. apply accounted_app.
  eapply failed_accounted; eauto; [apply unplanned_stopped; exact UA|apply bytes_concat; exact F1].
Qed.

(** Copying from the target allowed: a failing call outputs nothing. *)
Lemma failing_call : forall d dict pre x d1 o1 d' out, idle_plain d -> bytes_ok dict -> Forall bytes_ok pre -> bytes_ok x -> target_allowed d = true ->
  decode_chunks (start_decoding d dict) pre [] = Some (d1, true, o1) ->
  decode_chunks (start_decoding d dict) (pre ++ [x]) [] = Some (d', false, out) -> out = o1.
Proof.
  intros d dict pre x d1 o1 d' out IP BD F BX TA D1 DC. pose proof (idle_plain_idle d IP) as [ID _]. pose proof (idle_ready d ID) as RD.
  destruct (start_facts d dict IP BD) as (k & EA & S & BO & DT & DD & DA & UP & LM).
  destruct (start_ok d dict RD BD) as (DR0 & OK & U & _). rewrite EA in *.
  destruct (chunks_within pre _ [] _ k [] [] [] d1 o1 DR0 OK U (came_start k []) S BO DT ltac:(constructor) F D1)
    as (Ts & more & a & CM & DR & OKA & UA & EO & _). cbn [app] in *. subst more.
  rewrite decode_chunks_app, D1 in DC. cbn [decode_chunks] in DC.
  destruct (decode_chunk d1 x) as [d2 [|] o| |] eqn:D; try discriminate DC.
  assert (out = o1 ++ o) as -> by congruence.
  destruct (failed_accounted k a _ Ts d1 x o1 d2 o CM S BO DT DR OKA (unplanned_stopped a UA) (bytes_concat _ F) BX D) as [_ H].
  rewrite (H ltac:(congruence)), app_nil_r. reflexivity.
Qed.
