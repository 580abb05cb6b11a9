(** The calls of a failing DecodeChunk on the output string. *)

From Verif Require Import Base ListFacts Spec Varint VarintFacts AddrCache AddrCacheFacts CodeTable CodeTableFacts
  InstructionMap DecodeTable HeaderParser Adler AdlerFacts Decoder CopyFacts BodyFacts BodyExt WindowExt
  WindowHeader WindowStep WindowFacts Refine Totals Abstract FileHeader Chunk Sim Stream Session Reuse Usable Sound Complete Truncate Unique Files SpecParts Output OutputFacts Chunked OutputCalls Count Kept FailedFacts.
From Coq Require Import ZifyBool ZifyNat.

(** ** One call *)

Lemma chunk_windows_failed_within : forall ns ss c data pre O d' o,
  core_ok ns ss c -> shiftable pre c -> bytes_ok data -> O = pre ++ d_target c -> d_out_pos c = zlen (d_target c) ->
  chunk_windows c data = CRet d' false o ->
  forall E, (forall e, data <> [] -> visits (full pre c) data e -> In e E) ->
  within_ends E 0 (zlen O) (chunk_windows_calls c data).
Proof.
  intros ns ss c data pre O d' o CO SH BD EO OP CW E V.
  unfold chunk_windows in CW. unfold chunk_windows_calls.
  destruct (window_loop (S (length data)) c data []) as [[[c' u]|[c' u]| | |] out]; try discriminate CW.
  rewrite app_nil_r. replace (zlen O) with (zlen pre + d_out_pos c) by (rewrite EO, OP, zlen_app; reflexivity).
  eapply flush_visits; eauto. pose proof (zlen_nonneg _ (d_target c)). lia.
Qed.

Lemma decode_chunk_failed_within : forall d data O a d' o, drel O d a -> aok a -> ~ stopped (acore a) -> bytes_ok data ->
  decode_chunk d data = CRet d' false o ->
  decode_chunk_calls d data = [] \/ exists k1 rest, window_part a data k1 rest /\
    forall E, (forall e, rest <> [] -> visits k1 rest e -> In e E) -> within_ends E 0 (zlen O) (decode_chunk_calls d data).
Proof.
  intros d data O a d' o DR OK NS BD DC. unfold decode_chunk in DC.
  assert (exists f, chunk_fuel d data = S f) as [f EF] by (destruct d as [c0 nd0]; cbn; destruct nd0; eauto).
  unfold decode_chunk_calls. rewrite EF in *. cbn [pred].
  (* with the nested decoder *)
  assert (forall k u n c' nd an rest,
     aheader k n (u ++ data) = Ok (full [] c', Some an, rest) -> bytes_ok rest ->
     base_ok c' -> (exists ns ss, d_sizes c' = Some (ns, ss) /\ sizes_ok ns ss) -> d_out_pos c' = 0 ->
     aok an -> d_planned (acore an) = 1536 -> zlen (d_target (acore an)) < 1536 -> drel (d_string c') nd an ->
     (chunk_fuel nd rest <= f)%nat ->
     (match decode_chunk_fuel f nd rest with
            | CUB => CUB
            | CFuel => CFuel
            | CRet _ false _ => chunk_failed c' []
            | CRet nd' true o =>
                let s := d_string c' ++ o in
                if zlen s <? 1536 then
                  chunk_done (set_file c' (d_version c') (d_sizes c') s (d_table c')) (Some nd') [] []
                else
                  let '(Dec nc _, fin) := finish_decoding nd' in
                  if negb fin then chunk_failed c' []
                  else if negb (zlen s =? 1536) then chunk_failed c' []
                  else
                    let rest' := finish_except (zlen (d_unparsed nc)) rest in
                    match d_sizes c' with
                    | None => CUB
                    | Some (ns, ss) =>
                        match use_code_table (d_table c') (table_of_bytes s) (last_mode ns ss) with
                        | None => CUB
                        | Some (t, _) => chunk_windows (set_file c' (d_version c') (d_sizes c') [] t) rest'
                        end
                    end
            end) = CRet d' false o ->
     let calls := (match decode_chunk_fuel f nd rest with
     | CUB | CFuel | CRet _ false _ => []
     | CRet nd' true o =>
         let s := d_string c' ++ o in
         if zlen s <? 1536 then append_calls c' []
         else
           let '(Dec nc _, fin) := finish_decoding nd' in
           if negb fin then []
           else if negb (zlen s =? 1536) then []
           else
             match d_sizes c' with
             | None => []
             | Some (ns, ss) =>
                 match use_code_table (d_table c') (table_of_bytes s) (last_mode ns ss) with
                 | None => []
                 | Some (t, _) =>
                     chunk_windows_calls (set_file c' (d_version c') (d_sizes c') [] t)
                                         (finish_except (zlen (d_unparsed nc)) rest)
                 end
             end
     end) in
     calls = [] \/ exists k1 rest, window_part (ADec k u n) data k1 rest /\
       forall E, (forall e, rest <> [] -> visits k1 rest e -> In e E) -> within_ends E 0 0 calls) as NEST.
  { intros k u n c' nd an rest H BR BO (ns & ss & S & SO) OP ON PN TN DN LE' E.
    assert (~ stopped (acore an)) as NN by (intros X; apply (aok_stopped an ON PN) in X; lia).
    pose proof (decode_chunk_fuel_sim f nd rest (d_string c') an LE' DN ON NN BR) as M.
    destruct (decode_chunk_fuel f nd rest) as [nd' [|] o1| |]; try (left; reflexivity).
    destruct M as (an' & AC & DR'). cbv zeta in E |- *.
    pose proof (acr_ok _ _ _ AC ON NN BR) as (ON' & PN' & _). rewrite PN in PN'.
    pose proof (drel_out _ _ _ DR') as TE. rewrite <- TE in *.
    destruct (Z.ltb_spec (zlen (d_target (acore an'))) 1536) as [L|L].
    { unfold chunk_done, append_new_output in E. discriminate E. }
    destruct (drel_finish _ _ _ DR' ON') as (nc & nn & -> & FN & UN & _). rewrite FN in *.
    destruct (acomplete an') eqn:AC'; cbn [negb] in *; [|left; reflexivity].
    destruct (Z.eqb_spec (zlen (d_target (acore an'))) 1536) as [L2|]; cbn [negb] in *; [|left; reflexivity].
    cbn [reset d_unparsed] in *. rewrite S, UN in *.
    destruct (use_code_table_ok (d_table c') (table_of_bytes (d_target (acore an'))) (last_mode ns ss)) as (t & b & U & TO & _).
    { apply BO. } { apply table_of_bytes_ok; auto. apply aok_target_bytes; auto. } { apply last_mode_range. }
    rewrite U in *. set (c2 := set_file c' (d_version c') (Some (ns, ss)) [] t) in *.
    assert (base_ok c2) as BO2 by (apply base_file; auto).
    destruct (base_core c2 ns ss BO2 eq_refl SO) as (CO2 & TI2 & LI2 & NS2).
    assert (bytes_ok (finish_except (zlen (arest an')) rest)) as BF by (apply bytes_finish_except; [apply zlen_nonneg|exact BR]).
    right. exists (full [] c2), (finish_except (zlen (arest an')) rest). split.
    - replace (full [] c2) with (set_file (full [] c') (d_version (full [] c')) (d_sizes (full [] c')) [] t) by (unfold c2; rewrite full_nil_file; cbn [full d_version d_sizes]; rewrite S; reflexivity).
      eapply part_table; [exact H|exact AC|exact L2|exact AC'|exact S|exact U].
    - change 0 with (zlen (@nil Z)) at 2.
      refine (chunk_windows_failed_within ns ss c2 _ [] [] d' o CO2 (or_introl eq_refl) BF _ _ E).
      { cbn. rewrite (bo_target _ BO). reflexivity. } { cbn. rewrite OP, (bo_target _ BO). reflexivity. } }
  cbn [decode_chunk_fuel] in DC.
  destruct DR as [c ST S T OP|c nd an ST S T OP U H|ns ss pre c CO SH ST OP]; rewrite ST in DC |- *; cbn [negb] in DC |- *; cbv zeta.
  - (* at the start *)
    inversion OK as [k0 u0 BO S0 BU HE E|k0 n0 ns ss BO S0 SO ON PN TN E|ns ss k0 u0 CO BU Q TI LI EX E]; subst;
      [|pose proof (co_sizes _ _ _ CO) as X; cbn in X; congruence].
    set (chunk := d_unparsed c ++ data) in *. assert (bytes_ok chunk) as BC by (apply bytes_ok_app; auto).
    unfold read_file_header in DC |- *. rewrite S in DC |- *.
    destruct (aheader_cases (full [] c) None chunk S0) as [[C E]|[[C E]|(v & ind & tl & EC & V)]].
    + rewrite C. left. reflexivity.
    + rewrite C in DC. cbn [bind] in DC. unfold chunk_done, append_new_output in DC. discriminate DC.
    + rewrite EC in *. rewrite check_magic_hd in DC |- * by exact V. cbn [bind] in DC |- *. rewrite zdrop_hd5 in DC |- *.
      change (nth 3 (hd5 v ind tl) 0) with v in DC |- *. change (nth 4 (hd5 v ind tl) 0) with ind in DC |- *.
      pose proof (aheader_hd5 (full [] c) None v ind tl S0 V) as AH.
      destruct (Z.testbit ind 0); [left; reflexivity|].
      destruct (Z.testbit ind 1).
      * pose proof (parse_cache_sizes_mono tl []) as MM.
        destruct (parse_cache_sizes tl) as [[[ns ss] rest]| | |]; cbn [bind] in AH, DC |- *; try (left; reflexivity).
        -- assert (aheader (full [] c) None chunk = Ok (full [] (set_file c v (Some (ns, ss)) [] (d_table c)), Some a_table, rest)) as AH2
             by (rewrite EC; exact AH).
           destruct (aheader_ok (full [] c) None chunk _ _ _ ltac:(rewrite EC; exact BC) S0 BO AH2) as (BO' & BR & SS & _ & _ & ZL).
           destruct a_table_ok as (TO & TP & TT). rewrite zlen_nil.
           refine (NEST (full [] c) (d_unparsed c) None (set_file c v (Some (ns, ss)) [] (d_table c)) table_decoder a_table rest AH2 BR
             (proj1 (base_unfull _) BO') SS OP TO TP _ table_drel _ DC).
           ++ rewrite TT. reflexivity.
           ++ change (chunk_fuel table_decoder rest) with (Datatypes.S (length rest)).
              cbn [chunk_fuel] in EF. fold chunk in EF. rewrite !zlen_len in ZL. lia.
        -- unfold chunk_done, append_new_output in DC. discriminate DC.
      * set (c2 := set_file c v (Some (kDefaultNearCacheSize, kDefaultSameCacheSize)) (d_string c) (d_table c)) in *.
        assert (aheader (full [] c) None chunk = Ok (full [] c2, None, tl)) as AH2 by (rewrite EC; exact AH).
        destruct (aheader_ok (full [] c) None chunk _ _ _ ltac:(rewrite EC; exact BC) S0 BO AH2) as (BO' & BR & (ns & ss & SS & SO) & _ & _ & ZL).
        destruct (base_core c2 ns ss (proj1 (base_unfull c2) BO') SS SO) as (CO & _).
        right. exists (full [] c2), tl. split; [apply part_plain; exact AH2|].
        refine (chunk_windows_failed_within ns ss c2 tl [] [] d' o CO (or_introl eq_refl) BR _ _ DC).
        { cbn. rewrite T. reflexivity. } { cbn. rewrite OP, T. reflexivity. }
  - (* code table in progress *)
    inversion OK as [k0 u0 BO S0 BU HE E|k0 n0 ns ss BO S0 SO ON PN TN E|ns ss k0 u0 CO BU Q TI LI EX E]; subst.
    unfold read_file_header in DC |- *. destruct (d_sizes c) as [[ns' ss']|] eqn:DS; [|congruence]. rewrite U in DC |- *. cbn [app] in *.
    rewrite zlen_nil.
    refine (NEST (full [] c) [] (Some an) c nd an data _ BD (proj1 (base_unfull _) BO) _ OP ON PN TN H _ DC).
    + unfold aheader. cbn [full d_sizes]. rewrite DS. reflexivity.
    + exists ns, ss. split; [exact S0|exact SO].
    + cbn [chunk_fuel] in EF. lia.
  - (* windows *)
    inversion OK as [k0 u0 BO S0 BU HE E|k0 n0 ns1 ss1 BO S0 SO ON PN TN E|ns1 ss1 k0 u0 CO1 BU Q TI LI EX E]; subst.
    { pose proof (co_sizes _ _ _ CO) as X. cbn in S0. congruence. }
    assert (bytes_ok (d_unparsed c ++ data)) as BUD by (apply bytes_ok_app; auto).
    unfold read_file_header in DC |- *. rewrite (co_sizes _ _ _ CO) in DC |- *.
    right. exists (full pre c), (d_unparsed c ++ data). split.
    + apply part_plain. unfold aheader. rewrite (co_sizes _ _ _ CO1). reflexivity.
    + exact (chunk_windows_failed_within ns ss c (d_unparsed c ++ data) pre (pre ++ d_target c) d' o CO SH BUD eq_refl OP DC).
Qed.

(** ** The windows it passed *)

Lemma at_visits : forall m data, (length data <= m)%nat -> forall k k0 ns ss ws Ts, at_window k0 ns ss ws Ts k -> ~ stopped k -> bytes_ok data ->
  exists wb Ts' rest k2, data = wb ++ rest /\ at_window k0 ns ss (ws ++ wb) (Ts ++ Ts') k2 /\
    forall e, visits k data e -> In e (ends (zlen (d_target k0)) (Ts ++ Ts')).
Proof.
  induction m as [m IH] using lt_wf_ind. intros data LE k k0 ns ss ws Ts AW NS BD.
  assert ((forall k1 rest, decode_window k data <> XOk (k1, rest)) \/ exists k1 rest, decode_window k data = XOk (k1, rest)) as [N|(k1 & rest & DW)].
  { destruct (decode_window k data) as [[k1 rest]| | | |]; [right; eauto| | | |]; left; intros; discriminate. }
  { exists [], [], data, k. rewrite !app_nil_r. split; [reflexivity|]. split; [exact AW|]. intros e V. exfalso. inversion V; subst; eapply N; eauto. }
  destruct (decode_window_sound k ns ss data k1 rest (aw_core _ _ _ _ _ _ AW) (aw_win _ _ _ _ _ _ AW) BD DW) as (wb0 & T0 & slack & E0 & _ & _ & _ & _ & _ & WNE & _).
  assert (length rest < length data)%nat as LT.
  { rewrite E0, app_length. destruct wb0; [congruence|]. cbn. lia. }
  destruct (at_window_next _ _ _ _ _ _ _ _ _ AW NS BD DW) as (wb & T & EB & BR & AW').
  destruct (reached_planned k1) eqn:RP.
  - exists wb, [T], rest, k1. split; [exact EB|]. split; [exact AW'|].
    intros e V. inversion V as [k3 data3 k4 r4 DW'|k3 data3 k4 r4 e' DW' RP']; subst; rewrite DW' in DW; injection DW as -> ->; [|congruence].
    pose proof (at_window_end _ _ _ _ _ _ _ AW' []) as X. rewrite app_nil_r in X. exact X.
  - destruct (IH (length rest) ltac:(lia) rest (le_n _) k1 k0 ns ss (ws ++ wb) (Ts ++ [T]) AW' ltac:(intros [_ X]; congruence) BR) as (wb2 & Ts' & rest2 & k2 & ER & AW2 & VS).
    exists (wb ++ wb2), ([T] ++ Ts'), rest2, k2. rewrite !app_assoc in *. split; [rewrite EB, ER, app_assoc; reflexivity|]. split; [exact AW2|].
    intros e V. inversion V as [k3 data3 k4 r4 DW'|k3 data3 k4 r4 e' DW' RP' NR V']; subst; rewrite DW' in DW; injection DW as -> ->; [|auto].
    eapply at_window_end; eauto.
Qed.

Lemma wcame_visits : forall k0 ns ss W Ts k u y, wcame k0 ns ss W Ts k u -> core_ok ns ss k -> ~ stopped k -> bytes_ok u -> bytes_ok y ->
  exists ws Ts' rest k2, W ++ y = ws ++ rest /\ at_window k0 ns ss ws (Ts ++ Ts') k2 /\
    forall e, visits k (u ++ y) e -> In e (ends (zlen (d_target k0)) (Ts ++ Ts')).
Proof.
  intros k0 ns ss W Ts k u y (ks & ws & z & -> & AW & BZ & ALT) CO NS BU BY.
  destruct ALT as [(_ & _ & ST)|[(NS' & -> & -> & ->)|(NS' & ZN & [c1 u1] & DW & SR)]]; [tauto| |].
  - destruct (at_visits _ y (le_n _) _ _ _ _ _ _ AW NS' BY) as (wb & Ts' & rest & k2 & E & AW' & VS).
    exists (ws ++ wb), Ts', rest, k2. split; [rewrite app_nil_r, <- app_assoc; f_equal; exact E|]. auto.
  - pose proof (decode_window_step ks ns ss z y (aw_core _ _ _ _ _ _ AW) BZ BY) as ST. rewrite DW in ST.
    destruct ST as (_ & _ & _ & _ & _ & WR).
    pose proof (decode_window_srel ns ss k u c1 u1 y CO SR BU BY) as WR0.
    assert (bytes_ok (z ++ y)) as BZY by (apply bytes_ok_app; auto).
    assert (forall k3 r3, decode_window k (u ++ y) = XOk (k3, r3) -> decode_window ks (z ++ y) = XOk (k3, r3)) as FST.
    { intros k3 r3 D. rewrite D in WR0. cbn in WR0. rewrite <- WR0 in WR. cbn in WR. symmetry. exact WR. }
    destruct (at_visits _ (z ++ y) (le_n _) _ _ _ _ _ _ AW NS' BZY) as (wb & Ts' & rest & k2 & E & AW' & VS).
    exists (ws ++ wb), Ts', rest, k2. split; [rewrite <- !app_assoc; f_equal; exact E|]. split; [exact AW'|].
    intros e V. apply VS. inversion V as [k3 data3 k4 r4 D|k3 data3 k4 r4 e' D RP' NR V']; subst; apply FST in D.
    + eapply visit_here; eauto.
    + eapply visit_later; eauto.
Qed.

(** ** Streams *)

Theorem chunks_failed_within : forall d dict chunks d' out, idle_plain d -> bytes_ok dict -> Forall bytes_ok chunks ->
  decode_chunks (start_decoding d dict) chunks [] = Some (d', false, out) ->
  appended (stream_calls d dict chunks) = out /\
  ((forall size cap n, 0 <= size <= cap -> resized size cap (stream_calls d dict chunks) n -> n = 0) \/
   exists h v tbl ns ss ws z Ts, concat chunks = h ++ ws ++ z /\ head lax lax h v tbl ns ss /\
    windows_parts lax lax (file_format v tbl ns ss (target_allowed d)) dict (admits d) [] ws Ts /\
    forall size cap n, 0 <= size <= cap -> resized size cap (stream_calls d dict chunks) n -> n <= zlen Ts + 1).
Proof.
  intros d dict chunks d' out IP BD F DC. pose proof (idle_plain_idle d IP) as [ID _]. pose proof (idle_ready d ID) as RD.
  destruct (start_facts d dict IP BD) as (k & EA & S & BO & DT & DD & DA & UP & LM).
  destruct (start_ok d dict RD BD) as (DR0 & OK & U & _).
  pose proof (decode_chunks_appended chunks (start_decoding d dict) []) as AP. rewrite DC in AP.
  split; [symmetry; exact AP|]. clear AP. rewrite EA in *.
  unfold stream_calls. set (d0 := start_decoding d dict) in *. clearbody d0.
  (* the failing call *)
  assert (forall chunks d1 out1, decode_chunks d1 chunks out1 = Some (d', false, out) ->
    exists good x bad d2 o2 d3 o3, chunks = good ++ x :: bad /\ decode_chunks d1 good out1 = Some (d2, true, o2) /\
      decode_chunk d2 x = CRet d3 false o3 /\ chunks_calls d1 chunks = chunks_calls d1 good ++ decode_chunk_calls d2 x) as SPLIT.
  { clear. induction chunks as [|x tl IH]; intros d1 out1 H; cbn [decode_chunks chunks_calls] in H |- *; [discriminate H|].
    destruct (decode_chunk d1 x) as [d2 [|] o2| |] eqn:D; try discriminate H.
    - destruct (IH _ _ H) as (good & y & bad & d3 & o3 & d4 & o4 & -> & G & D' & EC).
      exists (x :: good), y, bad, d3, o3, d4, o4. split; [reflexivity|]. split; [cbn [decode_chunks]; rewrite D; exact G|]. split; [exact D'|].
      cbn [chunks_calls]. rewrite D, EC, app_assoc. reflexivity.
    - exists [], x, tl, d1, out1, d2, o2. rewrite app_nil_r. auto. }
  destruct (SPLIT _ _ _ DC) as (good & x & bad & d2 & o2 & d3 & o3 & EC & G & D & CALLS). clear SPLIT DC. subst chunks.
  apply Forall_app in F as [FG FX]. pose proof (Forall_inv FX) as BX. rewrite CALLS. clear CALLS.
  destruct (chunks_within good _ [] _ k [] [] [] d2 o2 DR0 OK U (came_start k []) S BO DT ltac:(constructor) FG G)
    as (Ts & more & a & CM & DR & OKA & UA & EO & WI & _). cbn [app] in *. subst more. rewrite zlen_nil in WI.
  pose proof (decode_chunks_appended good d0 []) as AG. rewrite G in AG. cbn [app] in AG.
  assert (bytes_ok (concat good)) as BG.
  { clear - FG. induction FG as [|y l H HF IH]; [constructor|]. apply bytes_ok_app. auto. }
  pose proof (unplanned_stopped a UA) as NSA.
  rewrite concat_app. cbn [concat].
  destruct (decode_chunk_failed_within d2 x o2 a d3 o3 DR OKA NSA BX D) as [EN|(k1 & rest & WP & WE)].
  - (* no calls *)
    rewrite EN, app_nil_r.
    destruct (came_prefix _ _ _ _ CM S) as [[P0 ->]|(h & v & tbl & ns & ss & ws & z & EX & HD & WS)].
    + left. intros size cap n SC RZ. rewrite P0 in WI.
      assert (within_ends [] 0 0 (chunks_calls d0 good)) as WI0.
      { eapply within_mono; [exact WI|lia|]. intros e [<-|[<-|[]]]; left; lia. }
      pose proof (resized_bound _ _ _ _ _ RZ SC WI0) as B. rewrite zlen_nil in B. pose proof (resized_nonneg _ _ _ _ RZ). lia.
    + right. exists h, v, tbl, ns, ss, ws, (z ++ x ++ concat bad), Ts. split; [rewrite EX, <- !app_assoc; reflexivity|]. split; [exact HD|]. split.
      { rewrite DA, DD in WS.
        refine (windows_parts_ext _ _ _ _ _ _ _ _ _ (tle_refl _) (tle_refl _) _ (fun p T => proj1 (LM p T)) _ _ _ WS).
        repeat split. }
      intros size cap n SC RZ. assert (within_ends (apending a :: ends 0 Ts) 0 0 (chunks_calls d0 good)) as WI0.
      { eapply within_mono; [exact WI|lia|]. intros e [<-|J]; [left; lia|auto]. }
      pose proof (resized_bound _ _ _ _ _ RZ SC WI0) as B. rewrite zlen_cons, zlen_ends in B. lia.
  - destruct (part_came _ _ _ _ WP _ _ _ CM S BO DT OKA NSA BG BX)
      as (h & v & tbl & ns & ss & k0 & W & u & y' & HD & SO & BO1 & S1 & ST & EV & EA1 & ED & EL & WC & CO & NS1 & BU & BY' & ER & EX).
    destruct (wcame_visits _ _ _ _ _ _ _ _ WC CO NS1 BU BY') as (ws & Ts' & rest2 & k2 & EW & AW & VS).
    rewrite (bo_target _ BO1), zlen_nil in VS. rewrite <- ER in VS.
    right. exists h, v, tbl, ns, ss, ws, (rest2 ++ concat bad), (Ts ++ Ts').
    split; [rewrite app_assoc, EX, <- !app_assoc; f_equal; rewrite !app_assoc; f_equal; exact EW|]. split; [exact HD|].
    pose proof (aw_means _ _ _ _ _ _ AW) as WS. rewrite (bo_target _ BO1) in WS.
    split.
    { rewrite <- DD, <- DA, <- ED, <- EA1, <- EV.
      refine (windows_parts_ext _ _ _ _ _ _ _ _ _ (tle_refl _) (tle_refl _) (fmt_file _ _ _ _ ST) _ _ _ _ WS).
      intros p T X. rewrite EL in X. apply LM. exact X. }
    intros size cap n SC RZ.
    assert (within_ends (apending a :: ends 0 (Ts ++ Ts')) 0 0 (chunks_calls d0 good ++ decode_chunk_calls d2 x)) as WI0.
    { apply within_app.
      - eapply within_mono; [exact WI|lia|]. intros e [<-|[<-|J]]; [left; lia|right; left; reflexivity|].
        right. right. rewrite ends_app. apply in_or_app. auto.
      - rewrite <- AG. cbn [Z.add]. eapply WE. intros e _ V. right. auto. }
    pose proof (resized_bound _ _ _ _ _ RZ SC WI0) as B. rewrite zlen_cons, zlen_ends in B. lia.
Qed.
