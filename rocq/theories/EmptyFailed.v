(** The bytes output by a failing call, with and without a call without data before it. *)

From Verif Require Import Base ListFacts Spec Varint VarintFacts AddrCache AddrCacheFacts CodeTable CodeTableFacts
  InstructionMap DecodeTable HeaderParser Adler AdlerFacts Decoder CopyFacts BodyFacts BodyExt WindowExt
  WindowHeader WindowStep WindowFacts Refine Totals Abstract FileHeader Chunk Sim Stream Session Reuse Usable Sound Complete Truncate Unique Files SpecParts Output OutputFacts Chunked OutputCalls Count Kept FailedFacts Empty.
From Coq Require Import ZifyBool ZifyNat.

(** The target at the window that fails. *)
Inductive fouts : core -> list Z -> list Z -> Prop :=
| fo_err : forall k data, decode_window k data = XErr -> fouts k data (d_target k)
| fo_more : forall k data k1 rest T, decode_window k data = XOk (k1, rest) -> fouts k1 rest T -> fouts k data T.

Lemma fouts_fun : forall k data T, fouts k data T -> forall T', fouts k data T' -> T' = T.
Proof.
  induction 1 as [k data D|k data k1 rest T D R IH]; intros T' H; inversion H; subst; try congruence.
  apply IH. rewrite D in *. match goal with X : XOk _ = XOk _ |- _ => injection X as -> -> end. assumption.
Qed.

Lemma fouts_srel : forall ns ss k u k' u' y T, core_ok ns ss k -> srel (k, u) (k', u') -> bytes_ok u -> bytes_ok y ->
  fouts k (u ++ y) T -> fouts k' (u' ++ y) T.
Proof.
  intros ns ss k u k' u' y T CO SR BU BY H. pose proof (decode_window_srel ns ss k u k' u' y CO SR BU BY) as W.
  destruct (srel_fields _ _ _ _ SR) as (TE & _).
  inversion H as [k0 d0 D|k0 d0 k1 rest T0 D R]; subst; rewrite D in W; cbn in W.
  - rewrite <- TE. apply fo_err. symmetry. exact W.
  - eapply fo_more; [symmetry; exact W|exact R].
Qed.

Lemma window_loop_fouts : forall fuel ns ss c data out pre O out',
  core_ok ns ss c -> core_ok ns ss (full pre c) -> tot_inv (full pre c) -> lim_inv (full pre c) ->
  shiftable pre c -> bytes_ok data -> (d_allow c = false -> O ++ out = pre ++ d_target c /\ d_out_pos c = zlen (d_target c)) ->
  window_loop fuel c data out = (XErr, out') ->
  if d_allow c then out' = out else fouts (full pre c) data (O ++ out').
Proof.
  induction fuel as [|fuel IH]; intros ns ss c data out pre O out' CO COF TI LI SH BD OI WL.
  { destruct data; discriminate WL. }
  destruct data as [|b data0]; [discriminate WL|].
  cbn [window_loop] in WL. set (data := b :: data0) in *. clearbody data. clear b data0.
  pose proof (decode_window_full pre c ns ss data CO SH BD) as DF.
  pose proof (decode_window_step c ns ss data [] CO BD ltac:(constructor)) as STP.
  pose proof (decode_window_step (full pre c) ns ss data [] COF BD ltac:(constructor)) as STPF.
  pose proof (decode_window_len ns ss (full pre c) data COF BD TI LI) as LN.
  pose proof (decode_window_shiftable pre c data SH) as SH'.
  destruct (decode_window c data) as [[c' rest]|[c' rest]| | |] eqn:DW; cbn [xmap fullp fst snd] in DF; rewrite DF in *; try contradiction.
  - destruct STP as (CO' & CS & WN & BR & _). destruct STPF as (COF' & _).
    destruct LN as (TI' & LI' & _). destruct SH' as [SH' AL'].
    destruct (reached_planned c'); [discriminate WL|].
    pose proof (co_win _ _ _ CO') as CW. rewrite WN in CW. rewrite AL' in WL.
    destruct (d_allow c) eqn:AL.
    + pose proof (IH ns ss c' rest out pre O out' CO' COF' TI' LI' SH' BR ltac:(congruence) WL) as R. rewrite AL' in R. exact R.
    + cbn [flush_target] in WL. set (c'' := set_target_out c' [] 0 0) in *.
      pose proof (full_flush pre c' CW) as FF. fold c'' in FF.
      destruct (OI eq_refl) as [E1 E2]. destruct (cstep_out _ _ CS) as (OP & (m & EM) & _).
      assert (d_allow c'' = false) as AL'' by exact AL'.
      assert (if d_allow c'' then out' = out ++ zdrop (d_out_pos c') (d_target c') else fouts (full (pre ++ d_target c') c'') rest (O ++ out')) as R.
      { apply (IH ns ss c'' rest (out ++ zdrop (d_out_pos c') (d_target c')) (pre ++ d_target c') O out').
        - apply core_ok_flush; auto.
        - rewrite FF. exact COF'.
        - rewrite FF. exact TI'.
        - rewrite FF. exact LI'.
        - right. cbn. rewrite WN. auto.
        - exact BR.
        - intros _. split; [|reflexivity]. cbn. rewrite app_nil_r, app_assoc, E1, OP, E2, EM, (zdrop_app_eq _ _ (d_target c) m eq_refl), <- app_assoc. reflexivity.
        - exact WL. }
      rewrite AL'', FF in R. eapply fo_more; [exact DF|exact R].
  - discriminate WL.
  - destruct (d_allow c); [congruence|]. destruct (OI eq_refl) as [E1 _].
    assert (O ++ out' = d_target (full pre c)) as -> by (cbn; congruence). apply fo_err. exact DF.
  - discriminate WL.
Qed.

Lemma chunk_windows_fouts : forall ns ss c data pre O d' o,
  core_ok ns ss c -> core_ok ns ss (full pre c) -> tot_inv (full pre c) -> lim_inv (full pre c) ->
  shiftable pre c -> bytes_ok data -> O = pre ++ d_target c -> d_out_pos c = zlen (d_target c) ->
  chunk_windows c data = CRet d' false o ->
  if d_allow c then o = [] else fouts (full pre c) data (O ++ o).
Proof.
  intros ns ss c data pre O d' o CO COF TI LI SH BD EO OP CW.
  unfold chunk_windows in CW.
  destruct (window_loop (S (length data)) c data []) as [r out'] eqn:WL.
  destruct r as [[c' u']|[c' u']| | |]; try discriminate CW.
  unfold chunk_failed in CW. injection CW as _ <-. eapply (window_loop_fouts _ ns ss c data [] pre O out'); eauto.
  intros _. rewrite app_nil_r. auto.
Qed.

(** All the output after a failing call. *)
Inductive afouts : adec -> list Z -> list Z -> Prop :=
| af_part : forall a data k1 rest T, window_part a data k1 rest -> d_allow k1 = false -> fouts k1 rest T -> afouts a data T
| af_none : forall a data, (forall k1 rest, window_part a data k1 rest -> d_allow k1 = true) -> afouts a data (d_target (acore a)).

Lemma part_fun : forall a data k1 rest, window_part a data k1 rest -> forall k2 rest2, window_part a data k2 rest2 -> k2 = k1 /\ rest2 = rest.
Proof.
  intros a data k1 rest H k2 rest2 H2.
  destruct H as [k u n data k' rest E|k u n data k' nd rest nd' ns ss t b E A L C S U];
    inversion H2 as [k0 u0 n0 data0 k'0 rest0 E0|k0 u0 n0 data0 k'0 nd0 rest0 nd'0 ns0 ss0 t0 b0 E0 A0 L0 C0 S0 U0]; subst; rewrite E in E0; try discriminate E0.
  - injection E0 as -> ->. auto.
  - injection E0 as -> -> ->. pose proof (acr_fun _ _ _ A _ A0) as X. injection X as ->.
    rewrite S in S0. injection S0 as -> ->. rewrite U in U0. injection U0 as -> ->. auto.
Qed.

(** A failing call. *)
Lemma decode_chunk_fouts : forall f d data O a d' o, (chunk_fuel d data <= f)%nat -> drel O d a -> aok a -> ~ stopped (acore a) -> bytes_ok data ->
  decode_chunk_fuel f d data = CRet d' false o ->
  afouts a data (O ++ o).
Proof.
  intros f d data O a d' o LE DR OK NS BD DC. destruct f as [|f]; [discriminate DC|].
  pose proof (drel_out _ _ _ DR) as EOUT.
  assert ((forall k1 rest, window_part a data k1 rest -> False) -> o = [] -> afouts a data (O ++ o)) as NONE.
  { intros H ->. rewrite app_nil_r, <- EOUT. apply af_none. intros k1 rest W. destruct (H _ _ W). }
  assert (forall k1 rest, window_part a data k1 rest -> (if d_allow k1 then o = [] else fouts k1 rest (O ++ o)) -> afouts a data (O ++ o)) as PART.
  { intros k1 rest W R. destruct (d_allow k1) eqn:AL; [|eapply af_part; eauto].
    subst o. rewrite app_nil_r, <- EOUT. apply af_none. intros k2 r2 W2. destruct (part_fun _ _ _ _ W _ _ W2) as [-> _]. exact AL. }

  assert (forall k u n, a = ADec k u n -> (forall x, aheader k n (u ++ data) <> Ok x) -> forall k1 rest, window_part a data k1 rest -> False) as NH.
  { intros k u n EA H k1 rest W. subst a. inversion W; subst; eapply H; eauto. }
  (* with the nested decoder *)
  assert (forall k u n c' nd an rest,
     aheader k n (u ++ data) = Ok (full [] c', Some an, rest) -> bytes_ok rest ->
     base_ok c' -> (exists ns ss, d_sizes c' = Some (ns, ss) /\ sizes_ok ns ss) -> d_out_pos c' = 0 ->
     aok an -> d_planned (acore an) = 1536 -> zlen (d_target (acore an)) < 1536 -> drel (d_string c') nd an ->
     (chunk_fuel nd rest <= f)%nat ->
     (match decode_chunk_fuel f nd rest with
            | CUB => CUB
            | CFuel => CFuel
            | CRet _ false _ => chunk_failed c' []
            | CRet nd' true o =>
                let s := d_string c' ++ o in
                if zlen s <? 1536 then
                  chunk_done (set_file c' (d_version c') (d_sizes c') s (d_table c')) (Some nd') [] []
                else
                  let '(Dec nc _, fin) := finish_decoding nd' in
                  if negb fin then chunk_failed c' []
                  else if negb (zlen s =? 1536) then chunk_failed c' []
                  else
                    let rest' := finish_except (zlen (d_unparsed nc)) rest in
                    match d_sizes c' with
                    | None => CUB
                    | Some (ns, ss) =>
                        match use_code_table (d_table c') (table_of_bytes s) (last_mode ns ss) with
                        | None => CUB
                        | Some (t, _) => chunk_windows (set_file c' (d_version c') (d_sizes c') [] t) rest'
                        end
                    end
            end) = CRet d' false o ->
     a = ADec k u n -> O = [] -> afouts a data (O ++ o)) as NEST.
  { intros k u n c' nd an rest H BR BO (ns & ss & S & SO) OP ON PN TN DN LE' E EA EO.
    assert (~ stopped (acore an)) as NN by (intros X; apply (aok_stopped an ON PN) in X; lia).
    pose proof (decode_chunk_fuel_sim f nd rest (d_string c') an LE' DN ON NN BR) as M.
    destruct (decode_chunk_fuel f nd rest) as [nd' [|] o1| |]; try discriminate E.
    2:{ unfold chunk_failed in E. apply NONE; [|congruence]. intros k1 r1 W; subst a; inversion W as [? ? ? ? ? ? E0|? ? ? ? ? ? ? ? ? ? ? ? E0 A0 L0 C0 S0 U0]; subst; rewrite H in E0; [discriminate E0|injection E0 as <- <- <-].
        destruct M as [M _]. pose proof (acr_fun _ _ _ M _ A0). discriminate. }
    destruct M as (an' & AC & DR'). cbv zeta in E.
    pose proof (acr_ok _ _ _ AC ON NN BR) as (ON' & PN' & _). rewrite PN in PN'.
    pose proof (drel_out _ _ _ DR') as TE. rewrite <- TE in E.
    destruct (Z.ltb_spec (zlen (d_target (acore an'))) 1536) as [L|L].
    { unfold chunk_done, append_new_output in E. discriminate E. }
    destruct (drel_finish _ _ _ DR' ON') as (nc & nn & -> & FN & UN & _). rewrite FN in E.
    destruct (acomplete an') eqn:AC'; cbn [negb] in E.
    2:{ unfold chunk_failed in E. apply NONE; [|congruence]. intros k1 r1 W; subst a; inversion W as [? ? ? ? ? ? E0|? ? ? ? ? ? ? ? ? ? ? ? E0 A0 L0 C0 S0 U0]; subst; rewrite H in E0; [discriminate E0|injection E0 as <- <- <-].
        pose proof (acr_fun _ _ _ AC _ A0) as X. injection X as ->. congruence. }
    destruct (Z.eqb_spec (zlen (d_target (acore an'))) 1536) as [L2|NL2]; cbn [negb] in E.
    2:{ unfold chunk_failed in E. apply NONE; [|congruence]. intros k1 r1 W; subst a; inversion W as [? ? ? ? ? ? E0|? ? ? ? ? ? ? ? ? ? ? ? E0 A0 L0 C0 S0 U0]; subst; rewrite H in E0; [discriminate E0|injection E0 as <- <- <-].
        pose proof (acr_fun _ _ _ AC _ A0) as X. injection X as ->. congruence. }
    cbn [reset d_unparsed] in E. rewrite S, UN in E.
    destruct (use_code_table_ok (d_table c') (table_of_bytes (d_target (acore an'))) (last_mode ns ss)) as (t & b & U & TO & _).
    { apply BO. } { apply table_of_bytes_ok; auto. apply aok_target_bytes; auto. } { apply last_mode_range. }
    rewrite U in E. set (c2 := set_file c' (d_version c') (Some (ns, ss)) [] t) in *.
    assert (base_ok c2) as BO2 by (apply base_file; auto).
    destruct (base_core c2 ns ss BO2 eq_refl SO) as (CO2 & TI2 & LI2 & NS2).
    destruct (base_core (full [] c2) ns ss (proj2 (base_unfull c2) BO2) eq_refl SO) as (COF2 & TIF2 & LIF2 & NSF2).
    assert (bytes_ok (finish_except (zlen (arest an')) rest)) as BF by (apply bytes_finish_except; [apply zlen_nonneg|exact BR]).
    pose proof (chunk_windows_fouts ns ss c2 _ [] [] d' o CO2 COF2 TIF2 LIF2 (or_introl eq_refl) BF) as R.
    refine (PART (full [] c2) (finish_except (zlen (arest an')) rest) _ _).
    - subst a. replace (full [] c2) with (set_file (full [] c') (d_version (full [] c')) (d_sizes (full [] c')) [] t) by (unfold c2; rewrite full_nil_file; cbn [full d_version d_sizes]; rewrite S; reflexivity).
      eapply part_table; [exact H|exact AC|exact L2|exact AC'|exact S|exact U].
    - rewrite EO. change (d_allow (full [] c2)) with (d_allow c2). apply R; [| |exact E].
      + cbn. rewrite (bo_target _ BO). reflexivity.
      + cbn. rewrite OP, (bo_target _ BO). reflexivity. }
  cbn [decode_chunk_fuel] in DC.
  destruct DR as [c ST S T OP|c nd an ST S T OP U H|ns ss pre c CO SH ST OP]; rewrite ST in DC; cbn [negb] in DC.
  - (* at the start *)
    inversion OK as [k0 u0 BO S0 BU HE E|k0 n0 ns ss BO S0 SO ON PN TN E|ns ss k0 u0 CO BU Q TI LI EX E]; subst;
      [|pose proof (co_sizes _ _ _ CO) as X; cbn in X; congruence].
    set (chunk := d_unparsed c ++ data) in *. assert (bytes_ok chunk) as BC by (apply bytes_ok_app; auto).
    unfold read_file_header in DC. rewrite S in DC.
    destruct (aheader_cases (full [] c) None chunk S0) as [[C E]|[[C E]|(v & ind & tl & EC & V)]].
    + rewrite C in DC. cbn [bind] in DC. unfold chunk_failed in DC. apply NONE; [|congruence].
      apply (NH _ _ _ eq_refl). intros x. fold chunk. rewrite E. discriminate.
    + rewrite C in DC. cbn [bind] in DC. unfold chunk_done, append_new_output in DC. discriminate DC.
    + rewrite EC in *. rewrite check_magic_hd in DC by exact V. cbn [bind] in DC. rewrite zdrop_hd5 in DC.
      change (nth 3 (hd5 v ind tl) 0) with v in DC. change (nth 4 (hd5 v ind tl) 0) with ind in DC.
      pose proof (aheader_hd5 (full [] c) None v ind tl S0 V) as AH.
      destruct (Z.testbit ind 0).
      { unfold chunk_failed in DC. apply NONE; [|congruence]. apply (NH _ _ _ eq_refl). intros x. fold chunk. rewrite EC, AH. discriminate. }
      destruct (Z.testbit ind 1).
      * pose proof (parse_cache_sizes_mono tl []) as MM.
        destruct (parse_cache_sizes tl) as [[[ns ss] rest]| | |]; cbn [bind] in AH, DC; try contradiction.
        -- assert (aheader (full [] c) None chunk = Ok (full [] (set_file c v (Some (ns, ss)) [] (d_table c)), Some a_table, rest)) as AH2
             by (rewrite EC; exact AH).
           destruct (aheader_ok (full [] c) None chunk _ _ _ ltac:(rewrite EC; exact BC) S0 BO AH2) as (BO' & BR & SS & _ & _ & ZL).
           destruct a_table_ok as (TO & TP & TT). cbn [app].
           refine (NEST (full [] c) (d_unparsed c) None (set_file c v (Some (ns, ss)) [] (d_table c)) table_decoder a_table rest AH2 BR
             (proj1 (base_unfull _) BO') SS OP TO TP _ table_drel _ DC eq_refl eq_refl).
           ++ rewrite TT. reflexivity.
           ++ change (chunk_fuel table_decoder rest) with (Datatypes.S (length rest)).
              cbn [chunk_fuel] in LE. fold chunk in LE. rewrite !zlen_len in ZL. lia.
        -- unfold chunk_done, append_new_output in DC. discriminate DC.
        -- unfold chunk_failed in DC. apply NONE; [|congruence]. apply (NH _ _ _ eq_refl). intros x. fold chunk. rewrite EC, AH. discriminate.
      * set (c2 := set_file c v (Some (kDefaultNearCacheSize, kDefaultSameCacheSize)) (d_string c) (d_table c)) in *.
        assert (aheader (full [] c) None chunk = Ok (full [] c2, None, tl)) as AH2 by (rewrite EC; exact AH).
        destruct (aheader_ok (full [] c) None chunk _ _ _ ltac:(rewrite EC; exact BC) S0 BO AH2) as (BO' & BR & (ns & ss & SS & SO) & _ & _ & ZL).
        destruct (base_core _ ns ss BO' SS SO) as (COF & TIF & LIF & NSF).
        destruct (base_core c2 ns ss (proj1 (base_unfull c2) BO') SS SO) as (CO & _).
        refine (PART (full [] c2) tl _ _); [apply part_plain; exact AH2|].
        change (d_allow (full [] c2)) with (d_allow c2).
        apply (chunk_windows_fouts ns ss c2 tl [] [] d' o CO COF TIF LIF (or_introl eq_refl) BR); [| |exact DC].
        { cbn. rewrite T. reflexivity. } { cbn. rewrite OP, T. reflexivity. }
  - (* code table in progress *)
    inversion OK as [k0 u0 BO S0 BU HE E|k0 n0 ns ss BO S0 SO ON PN TN E|ns ss k0 u0 CO BU Q TI LI EX E]; subst.
    unfold read_file_header in DC. destruct (d_sizes c) as [[ns' ss']|] eqn:DS; [|congruence]. rewrite U in DC. cbn [app] in *.
    refine (NEST (full [] c) [] (Some an) c nd an data _ BD (proj1 (base_unfull _) BO) _ OP ON PN TN H _ DC eq_refl eq_refl).
    + unfold aheader. cbn [full d_sizes]. rewrite DS. reflexivity.
    + exists ns, ss. split; [exact S0|exact SO].
    + cbn [chunk_fuel] in LE. lia.
  - (* windows *)
    inversion OK as [k0 u0 BO S0 BU HE E|k0 n0 ns1 ss1 BO S0 SO ON PN TN E|ns1 ss1 k0 u0 CO1 BU Q TI LI EX E]; subst.
    { pose proof (co_sizes _ _ _ CO) as X. cbn in S0. congruence. }
    assert (ns1 = ns /\ ss1 = ss) as [-> ->].
    { pose proof (co_sizes _ _ _ CO1) as X1. pose proof (co_sizes _ _ _ CO) as X2. cbn in X1. rewrite X2 in X1. injection X1 as <- <-. auto. }
    assert (bytes_ok (d_unparsed c ++ data)) as BUD by (apply bytes_ok_app; auto).
    unfold read_file_header in DC. rewrite (co_sizes _ _ _ CO) in DC.
    refine (PART (full pre c) (d_unparsed c ++ data) _ _).
    + apply part_plain. unfold aheader. rewrite (co_sizes _ _ _ CO1). reflexivity.
    + change (d_allow (full pre c)) with (d_allow c).
      exact (chunk_windows_fouts ns ss c (d_unparsed c ++ data) pre (pre ++ d_target c) d' o CO CO1 TI LI SH BUD eq_refl OP DC).
Qed.


Lemma afouts_fun_arel : forall a a' y T T', arel a a' -> aok a -> aok a' -> ~ stopped (acore a) -> bytes_ok y ->
  afouts a y T -> afouts a' y T' -> T' = T.
Proof.
  intros a a' y T T' AR OK OK' NS BY H H'.
  destruct (arel_acore _ _ AR OK) as (TE & _).
  assert (forall k1 rest, window_part a y k1 rest -> exists k1' rest', window_part a' y k1' rest' /\ d_allow k1' = d_allow k1 /\ forall T, fouts k1 rest T -> fouts k1' rest' T) as FW.
  { intros k1 rest W. destruct AR as [k u k' u' SR|k u n n' AN].
    - inversion OK as [k0 u0 BO S BU HE E|k0 n0 ns ss BO S SO ON PN TN E|ns ss k0 u0 CO BU Q TI LI EX E]; subst.
      + destruct (srel_fields _ _ _ _ SR) as (_ & W0 & _). destruct (W0 (bo_win _ BO)) as [-> ->]. eauto.
      + destruct (srel_fields _ _ _ _ SR) as (_ & _ & _ & S' & _).
        assert (aheader k None (u ++ y) = Ok (k, None, u ++ y)) as HD by (unfold aheader; rewrite (co_sizes _ _ _ CO); reflexivity).
        assert (aheader k' None (u' ++ y) = Ok (k', None, u' ++ y)) as HD' by (unfold aheader; rewrite S', (co_sizes _ _ _ CO); reflexivity).
        destruct (part_fun _ _ _ _ (part_plain _ _ _ _ _ _ HD) _ _ W) as [-> ->].
        exists k', (u' ++ y). split; [apply part_plain; exact HD'|]. split.
        * destruct SR as [E|(w & nops & _ & _ & _ & _ & E)]; cbn [fst snd] in E; [congruence|].
          assert (k' = set_win k (Some (next_win w (w_expected w + zlen nops) None (w_cache w))) (d_start k) (d_target k) (d_total k)) as -> by congruence. reflexivity.
        * intros T0 F0. exact (fouts_srel ns ss k u k' u' y T0 CO SR BU BY F0).
    - inversion OK as [k0 u0 BO S BU HE E|k0 n0 ns ss BO S SO ON PN TN E|ns ss k0 u0 CO BU Q TI LI EX E]; subst. cbn [app] in *.
      assert (forall m, aheader k (Some m) ([] ++ y) = Ok (k, Some m, y)) as HD by (intros m; unfold aheader; rewrite S; reflexivity).
      inversion W as [? ? ? ? ? ? E0|? ? ? ? ? ? ? m ns0 ss0 t b E0 A0 L0 C0 S0 U0]; subst; rewrite HD in E0; [discriminate E0|]. injection E0 as <- <- <-.
      assert (~ stopped (acore n)) as NN by (intros X; apply (aok_stopped n ON PN) in X; lia).
      assert (aok n' /\ ~ stopped (acore n')) as [ON' NN'].
      { inversion OK' as [| k0 n0 ns1 ss1 BO1 S1 SO1 ON1 PN1 TN1 E|ns1 ss1 k0 u0 CO1]; subst. split; [exact ON1|]. intros X. apply (aok_stopped n' ON1 PN1) in X. lia. }
      destruct (acr_total n' y ON' NN' BY) as [r' A'].
      pose proof (acr_arel n n' AN y _ _ ON NN BY A0 A') as SM. destruct r' as [m'| |]; cbn in SM; try contradiction.
      pose proof (acr_ok _ _ _ A0 ON NN BY) as (AO & PL & NE). rewrite PN in PL.
      destruct (arel_acore m m' SM AO) as (TM & CM & EQ & _). destruct (aok_stopped m AO PL) as [SI SL].
      assert (stopped (acore m)) as ST by (apply SI; lia). rewrite (EQ ST) in *.
      eexists _, _. split; [eapply part_table; [apply HD|exact A'|exact L0|exact C0|exact S0|exact U0]|]. split; [reflexivity|auto]. }
  assert (forall k1 rest, window_part a' y k1 rest -> exists k1' rest', window_part a y k1' rest') as BW.
  { intros k1 rest W. destruct AR as [k u k' u' SR|k u n n' AN].
    - inversion OK as [k0 u0 BO S BU HE E|k0 n0 ns ss BO S SO ON PN TN E|ns ss k0 u0 CO BU Q TI LI EX E]; subst.
      + destruct (srel_fields _ _ _ _ SR) as (_ & W0 & _). destruct (W0 (bo_win _ BO)) as [-> ->]. eauto.
      + assert (aheader k None (u ++ y) = Ok (k, None, u ++ y)) as HD by (unfold aheader; rewrite (co_sizes _ _ _ CO); reflexivity).
        eexists _, _. apply part_plain. exact HD.
    - inversion OK as [k0 u0 BO S BU HE E|k0 n0 ns ss BO S SO ON PN TN E|ns ss k0 u0 CO BU Q TI LI EX E]; subst. cbn [app] in *.
      assert (forall m, aheader k (Some m) ([] ++ y) = Ok (k, Some m, y)) as HD by (intros m; unfold aheader; rewrite S; reflexivity).
      inversion W as [? ? ? ? ? ? E0|? ? ? ? ? ? ? m' ns0 ss0 t b E0 A0 L0 C0 S0 U0]; subst; rewrite HD in E0; [discriminate E0|]. injection E0 as <- <- <-.
      assert (~ stopped (acore n)) as NN by (intros X; apply (aok_stopped n ON PN) in X; lia).
      destruct (acr_total n y ON NN BY) as [r A].
      pose proof (acr_arel n n' AN y _ _ ON NN BY A A0) as SM. destruct r as [m| |]; cbn in SM; try contradiction.
      pose proof (acr_ok _ _ _ A ON NN BY) as (AO & PL & NE). rewrite PN in PL.
      destruct (arel_acore m m' SM AO) as (TM & CM & EQ & _). destruct (aok_stopped m AO PL) as [SI SL].
      assert (stopped (acore m)) as ST by (apply SI; rewrite <- TM; lia). rewrite (EQ ST) in *.
      eexists _, _. eapply part_table; [apply HD|exact A|exact L0|exact C0|exact S0|exact U0]. }
  destruct H as [a y k1 rest T W AL FO|a y N]; destruct H' as [a' y k1' rest' T' W' AL' FO'|a' y N'].
  - destruct (FW _ _ W) as (k2 & r2 & W2 & _ & F2). destruct (part_fun _ _ _ _ W2 _ _ W') as [-> ->].
    eapply fouts_fun; [apply F2; exact FO|exact FO'].
  - destruct (FW _ _ W) as (k2 & r2 & W2 & A2 & _). rewrite (N' _ _ W2) in A2. congruence.
  - destruct (BW _ _ W') as (k2 & r2 & W2). destruct (FW _ _ W2) as (k3 & r3 & W3 & A3 & _). destruct (part_fun _ _ _ _ W3 _ _ W') as [-> ->].
    rewrite (N _ _ W2) in A3. congruence.
  - exact TE.
Qed.

(** The same calls in related states. *)
Lemma chunks_arel : forall l d1 d2 a1 a2 out, drel out d1 a1 -> drel out d2 a2 -> arel a1 a2 ->
  aok a1 -> aok a2 -> unplanned a1 -> unplanned a2 -> Forall bytes_ok l ->
  match decode_chunks d1 l out, decode_chunks d2 l out with
  | Some (d1', r1, o1), Some (d2', r2, o2) => r1 = r2 /\ o1 = o2 /\ (r1 = true -> snd (finish_decoding d1') = snd (finish_decoding d2'))
  | None, None => True
  | _, _ => False
  end.
Proof.
  induction l as [|x l IH]; intros d1 d2 a1 a2 out D1 D2 AR O1 O2 U1 U2 F.
  - cbn [decode_chunks]. split; [reflexivity|]. split; [reflexivity|]. intros _.
    destruct (drel_finish _ _ _ D1 O1) as (c1 & n1 & _ & -> & _). destruct (drel_finish _ _ _ D2 O2) as (c2 & n2 & _ & -> & _).
    destruct (arel_acore _ _ AR O1) as (_ & AC & _). cbn [snd]. congruence.
  - inversion F as [|? ? BX FL]; subst. pose proof (unplanned_stopped a1 U1) as N1. pose proof (unplanned_stopped a2 U2) as N2.
    cbn [decode_chunks].
    pose proof (decode_chunk_fuel_sim (chunk_fuel d1 x) d1 x out a1 ltac:(lia) D1 O1 N1 BX) as S1.
    pose proof (decode_chunk_fuel_sim (chunk_fuel d2 x) d2 x out a2 ltac:(lia) D2 O2 N2 BX) as S2.
    pose proof (decode_chunk_fouts (chunk_fuel d1 x) d1 x out a1) as F1.
    pose proof (decode_chunk_fouts (chunk_fuel d2 x) d2 x out a2) as F2.
    change (decode_chunk_fuel (chunk_fuel d1 x) d1 x) with (decode_chunk d1 x) in *.
    change (decode_chunk_fuel (chunk_fuel d2 x) d2 x) with (decode_chunk d2 x) in *.
    assert (forall r r', acr a1 x r -> acr a2 x r' -> asim r r') as SM by (intros r r'; apply (acr_arel a1 a2 AR x r r' O1 N1 BX)).
    destruct (decode_chunk d1 x) as [d1' [|] o1| |]; destruct (decode_chunk d2 x) as [d2' [|] o2| |]; try contradiction; auto.
    + destruct S1 as (b1 & A1 & E1). destruct S2 as (b2 & A2 & E2). specialize (SM _ _ A1 A2). cbn in SM.
      pose proof (acr_ok _ _ _ A1 O1 N1 BX) as (P1 & Q1 & _). pose proof (acr_ok _ _ _ A2 O2 N2 BX) as (P2 & Q2 & _).
      destruct (arel_acore _ _ SM P1) as (TE & _). rewrite (drel_out _ _ _ E1), (drel_out _ _ _ E2) in TE. rewrite TE in E2. rewrite TE.
      apply (IH d1' d2' b1 b2 (out ++ o1) E1 E2 SM P1 P2); auto; unfold unplanned, has_planned in *; [rewrite Q1; exact U1|rewrite Q2; exact U2].
    + destruct S1 as (b1 & A1 & _). destruct S2 as (A2 & _). destruct (SM _ _ A1 A2).
    + destruct S1 as (b1 & A1 & _). destruct (SM _ _ A1 S2).
    + destruct S1 as (A1 & _). destruct S2 as (b2 & A2 & _). destruct (SM _ _ A1 A2).
    + split; [reflexivity|]. split; [|discriminate].
      symmetry. eapply (afouts_fun_arel a1 a2 x); eauto.
    + destruct S1 as (A1 & _). destruct (SM _ _ A1 S2).
    + destruct S2 as (b2 & A2 & _). destruct (SM _ _ S1 A2).
    + destruct S2 as (A2 & _). destruct (SM _ _ S1 A2).
Qed.

Lemma stream_empty : forall d dict a b, ready d -> bytes_ok dict -> Forall bytes_ok (a ++ b) ->
  decode_stream d dict (a ++ [] :: b) = decode_stream d dict (a ++ b).
Proof.
  intros d dict l1 l2 RD BD F. apply Forall_app in F as [Fa Fb].
  destruct (stream_start d dict l1 RD BD Fa) as (R & _ & M).
  unfold decode_stream. rewrite !decode_chunks_app. cbn [decode_chunks].
  destruct (decode_chunks (start_decoding d dict) l1 []) as [[[d1 [|]] o1]|]; try reflexivity.
  destruct M as (a & _ & DR & OK & UP). pose proof (unplanned_stopped a UP) as NS.
  pose proof (decode_chunk_fuel_sim (chunk_fuel d1 []) d1 [] o1 a ltac:(lia) DR OK NS ltac:(constructor)) as S.
  change (decode_chunk_fuel (chunk_fuel d1 []) d1 []) with (decode_chunk d1 []) in S.
  destruct (decode_chunk d1 []) as [d2 [|] o| |].
  - destruct S as (a' & AC & DR'). destruct (acr_empty a OK NS _ AC) as (a1 & E & AR). injection E as ->.
    pose proof (acr_ok _ _ _ AC OK NS ltac:(constructor)) as (P1 & Q1 & _).
    destruct (arel_acore _ _ AR P1) as (TE & _). rewrite (drel_out _ _ _ DR), (drel_out _ _ _ DR') in TE. rewrite <- TE in *.
    assert (unplanned a1) as U1 by (unfold unplanned, has_planned in *; rewrite Q1; exact UP).
    pose proof (chunks_arel l2 d2 d1 a1 a o1 DR' DR AR P1 OK U1 UP Fb) as C.
    destruct (decode_chunks d2 l2 o1) as [[[e1 r1] p1]|]; destruct (decode_chunks d1 l2 o1) as [[[e2 r2] p2]|]; try contradiction; [|reflexivity].
    destruct C as (-> & -> & FN). destruct r2; [rewrite (FN eq_refl)|]; reflexivity.
  - destruct S as (AC & _). destruct (acr_empty a OK NS _ AC) as (a1 & E & _). discriminate.
  - destruct (acr_empty a OK NS _ S) as (a1 & E & _). discriminate.
  - contradiction.
Qed.
