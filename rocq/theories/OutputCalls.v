(** The calls of DecodeChunk on the output string. *)

From Verif Require Import Base Spec Varint VarintFacts AddrCache AddrCacheFacts CodeTable CodeTableFacts
  InstructionMap DecodeTable HeaderParser Adler AdlerFacts Decoder CopyFacts BodyFacts BodyExt WindowExt
  WindowHeader WindowStep WindowFacts Refine Totals Abstract FileHeader Chunk Sim Stream Session Reuse Usable Sound Complete Truncate Files
  Output OutputFacts SpecParts Chunked Unique.
From Coq Require Import ZifyBool ZifyNat.

(** ** Counting *)

(** Every size required by the calls is at most [m], or at most a size required before,
    or in [E]. *)
Fixpoint within_ends (E : list Z) (m size : Z) (calls : list out_call) : Prop :=
  match calls with
  | [] => True
  | Append s :: tl => (size + zlen s <= m \/ In (size + zlen s) E) /\ within_ends E (Z.max m (size + zlen s)) (size + zlen s) tl
  | Reserve k :: tl => (size + k <= m \/ In (size + k) E) /\ within_ends E (Z.max m (size + k)) size tl
  end.

Lemma within_mono : forall calls E E' m m' size, within_ends E m size calls -> m <= m' -> (forall e, In e E -> e <= m' \/ In e E') ->
  within_ends E' m' size calls.
Proof.
  induction calls as [|[s|k] tl IH]; intros E E' m m' size H L I; cbn [within_ends] in *; [exact Logic.I| |]; destruct H as [A B]; split.
  - destruct A as [A|A]; [left; lia|auto].
  - eapply IH; [exact B|lia|]. intros e J. destruct (I e J); [left; lia|auto].
  - destruct A as [A|A]; [left; lia|auto].
  - eapply IH; [exact B|lia|]. intros e J. destruct (I e J); [left; lia|auto].
Qed.

Lemma within_app : forall a b E m size, within_ends E m size a -> within_ends E m (size + zlen (appended a)) b -> within_ends E m size (a ++ b).
Proof.
  induction a as [|[s|k] tl IH]; intros b E m size A B; cbn [within_ends appended app] in *.
  - rewrite zlen_nil, Z.add_0_r in B. exact B.
  - destruct A as [A1 A2]. split; [exact A1|]. apply IH; [exact A2|]. rewrite zlen_app, Z.add_assoc in B.
    eapply within_mono; [exact B|lia|auto].
  - destruct A as [A1 A2]. split; [exact A1|]. apply IH; [exact A2|]. eapply within_mono; [exact B|lia|auto].
Qed.

Lemma within_shift : forall calls E m size s0, within_ends E m size calls -> within_ends (map (Z.add s0) E) (s0 + m) (s0 + size) calls.
Proof.
  induction calls as [|[s|k] tl IH]; intros E m size s0 H; cbn [within_ends] in *; [exact Logic.I| |]; destruct H as [A B];
    apply (IH _ _ _ s0) in B; split.
  - destruct A as [A|A]; [left; lia|right]. apply (in_map (Z.add s0)) in A. rewrite <- Z.add_assoc. exact A.
  - rewrite Z.add_assoc in B. replace (Z.max (s0 + m) (s0 + size + zlen s)) with (s0 + Z.max m (size + zlen s)) by lia. exact B.
  - destruct A as [A|A]; [left; lia|right]. apply (in_map (Z.add s0)) in A. rewrite <- Z.add_assoc. exact A.
  - replace (Z.max (s0 + m) (s0 + size + k)) with (s0 + Z.max m (size + k)) by lia. exact B.
Qed.

Definition above (cap : Z) (E : list Z) : list Z := filter (fun e => cap <? e) E.

Lemma above_less : forall E cap cap', cap <= cap' -> (length (above cap' E) <= length (above cap E))%nat.
Proof.
  induction E as [|e E IH]; intros cap cap' L; cbn; [lia|]. specialize (IH cap cap' L). unfold above in IH.
  destruct (Z.ltb_spec cap' e), (Z.ltb_spec cap e); cbn; lia.
Qed.

Lemma above_drop : forall E cap cap' e, In e E -> cap < e -> e <= cap' -> (1 + length (above cap' E) <= length (above cap E))%nat.
Proof.
  induction E as [|x E IH]; intros cap cap' e H A B; [destruct H|]. cbn [above filter].
  pose proof (above_less E cap cap' ltac:(lia)) as L. unfold above in *. destruct H as [->|H].
  - destruct (Z.ltb_spec cap e), (Z.ltb_spec cap' e); cbn [length]; lia.
  - specialize (IH cap cap' e H A B). destruct (Z.ltb_spec cap x), (Z.ltb_spec cap' x); cbn [length]; lia.
Qed.

Lemma resized_count : forall size cap calls n, resized size cap calls n -> forall E m, m <= cap -> within_ends E m size calls ->
  n <= Z.of_nat (length (above cap E)).
Proof.
  induction 1 as [size cap|size cap s tl n L H IH|size cap s tl n cap' L L' H IH|size cap k tl n L H IH|size cap k tl n cap' L L' H IH];
    intros E m M W; cbn [within_ends] in W.
  - lia.
  - destruct W as [_ W]. eapply IH; [|exact W]. lia.
  - destruct W as [[W|I] W2]; [lia|]. pose proof (above_drop E cap cap' _ I L L').
    specialize (IH E (Z.max m (size + zlen s)) ltac:(lia) W2). lia.
  - destruct W as [_ W]. eapply IH; [|exact W]. lia.
  - destruct W as [[W|I] W2]; [lia|]. pose proof (above_drop E cap cap' _ I L L').
    specialize (IH E (Z.max m (size + k)) ltac:(lia) W2). lia.
Qed.

Lemma resized_bound : forall size cap calls n E, resized size cap calls n -> 0 <= size <= cap -> within_ends E 0 0 calls -> n <= zlen E.
Proof.
  intros size cap calls n E H S W. apply (within_shift _ _ _ _ size) in W. rewrite Z.add_0_r in W.
  pose proof (resized_count _ _ _ _ H _ size ltac:(lia) W) as C.
  assert (forall l, (length (above cap l) <= length l)%nat) as F.
  { induction l as [|x l IHl]; cbn; [lia|]. unfold above in IHl. destruct (_ <? _); cbn; lia. }
  pose proof (F (map (Z.add size) E)) as F'. rewrite map_length in F'. Local Transparent zlen. unfold zlen. Local Opaque zlen. lia.
Qed.

Lemma zlen_ends : forall Ts n, zlen (ends n Ts) = zlen Ts.
Proof. intros Ts n. Local Transparent zlen. unfold zlen. Local Opaque zlen. rewrite ends_length. reflexivity. Qed.

Lemma resized_nonneg : forall size cap calls n, resized size cap calls n -> 0 <= n.
Proof. induction 1; lia. Qed.

(** ** What is appended *)

Lemma appended_app : forall a b, appended (a ++ b) = appended a ++ appended b.
Proof. induction a as [|[s|k] tl IH]; intros b; cbn; rewrite ?IH, ?app_assoc; auto. Qed.

Lemma appended_append : forall c u, appended (append_calls c u) = zdrop (d_out_pos c) (d_target c).
Proof.
  intros c u. unfold append_calls. cbv zeta. destruct (Z.ltb_spec 0 (zlen (zdrop (d_out_pos c) (d_target c)))) as [L|L].
  - rewrite appended_app. destruct (0 <? _); cbn; rewrite app_nil_r; reflexivity.
  - destruct (zdrop (d_out_pos c) (d_target c)) as [|b l]; [reflexivity|]. rewrite zlen_cons in L. pose proof (zlen_nonneg _ l). lia.
Qed.

Lemma window_loop_appended : forall fuel c data out, snd (window_loop fuel c data out) = out ++ appended (flush_calls fuel c data).
Proof.
  induction fuel as [|fuel IH]; intros c data out; destruct data as [|b data]; cbn [window_loop flush_calls]; try (cbn; rewrite app_nil_r; reflexivity).
  destruct (decode_window c (b :: data)) as [[c' rest]|[c' rest]| | |]; try (cbn; rewrite app_nil_r; reflexivity).
  destruct (reached_planned c'); [cbn; rewrite app_nil_r; reflexivity|]. destruct (d_allow c'); [apply IH|].
  cbn [flush_target]. rewrite IH. cbn [appended]. rewrite app_assoc. reflexivity.
Qed.

Lemma chunk_windows_appended : forall c data,
  match chunk_windows c data with
  | CRet _ _ out => appended (chunk_windows_calls c data) = out
  | _ => True
  end.
Proof.
  intros c data. unfold chunk_windows, chunk_windows_calls. pose proof (window_loop_appended (S (length data)) c data []) as W.
  destruct (window_loop _ c data []) as [[[c' u]|[c' u]| | |] out]; cbn [snd app] in W; auto.
  - unfold chunk_done. cbn [append_new_output]. rewrite appended_app, appended_append, W. reflexivity.
  - unfold chunk_done. cbn [append_new_output]. rewrite appended_app, appended_append, W. reflexivity.
  - unfold chunk_failed. rewrite app_nil_r. symmetry. exact W.
Qed.

Lemma decode_chunk_appended : forall d data,
  match decode_chunk d data with
  | CRet _ _ out => appended (decode_chunk_calls d data) = out
  | _ => True
  end.
Proof.
  intros [c0 nd0] data. unfold decode_chunk, decode_chunk_calls.
  assert (exists f, chunk_fuel (Dec c0 nd0) data = S f) as [f EF] by (cbn; destruct nd0; eauto). rewrite EF. cbn [decode_chunk_fuel pred].
  destruct (negb (d_started c0)); [reflexivity|].
  destruct (read_file_header (Dec c0 nd0) (d_unparsed c0 ++ data)) as [[[c [nd|]] rest]| | |]; auto.
  - destruct (decode_chunk_fuel f nd rest) as [nd' [|] o| |]; auto; [|reflexivity]. cbv zeta.
    destruct (zlen (d_string c ++ o) <? 1536).
    { unfold chunk_done. cbn [append_new_output]. rewrite appended_append. reflexivity. }
    destruct (finish_decoding nd') as [[nc nn] fin]. destruct (negb fin); [reflexivity|]. destruct (negb (_ =? 1536)); [reflexivity|].
    destruct (d_sizes c) as [[ns ss]|]; auto. destruct (use_code_table _ _ _) as [[t b]|]; auto. apply chunk_windows_appended.
  - apply chunk_windows_appended.
  - unfold chunk_done. cbn [append_new_output]. rewrite appended_append. reflexivity.
  - reflexivity.
Qed.

Lemma decode_chunks_appended : forall chunks d out,
  match decode_chunks d chunks out with
  | Some (_, _, o) => o = out ++ appended (chunks_calls d chunks)
  | None => True
  end.
Proof.
  induction chunks as [|x tl IH]; intros d out; cbn [decode_chunks chunks_calls]; [cbn; rewrite app_nil_r; reflexivity|].
  pose proof (decode_chunk_appended d x) as A. destruct (decode_chunk d x) as [d' [|] o| |]; auto.
  - specialize (IH d' (out ++ o)). destruct (decode_chunks d' tl (out ++ o)) as [[[d2 b] o2]|]; auto.
    rewrite appended_app, A, app_assoc. exact IH.
  - rewrite app_nil_r, A. reflexivity.
Qed.

(** ** Which sizes are required *)

Lemma flush_visits : forall fuel ns ss c data pre E, core_ok ns ss c -> shiftable pre c -> bytes_ok data -> 0 <= d_out_pos c <= zlen (d_target c) ->
  (forall e, data <> [] -> visits (full pre c) data e -> In e E) ->
  within_ends E 0 (zlen pre + d_out_pos c) (flush_calls fuel c data).
Proof.
  induction fuel as [|fuel IH]; intros ns ss c data pre E CO SH BD OP V; destruct data as [|b data0]; try exact Logic.I.
  cbn [flush_calls]. set (data := b :: data0) in *. assert (data <> []) as NE by (unfold data; discriminate). clearbody data. clear b data0.
  specialize (fun e => V e NE).
  pose proof (decode_window_full pre c ns ss data CO SH BD) as DF.
  pose proof (decode_window_step c ns ss data [] CO BD ltac:(constructor)) as STP.
  pose proof (decode_window_shiftable pre c data SH) as SH'.
  destruct (decode_window c data) as [[c' rest]|[c' rest]| | |] eqn:DW; try exact Logic.I. cbn [xmap fullp fst snd] in DF.
  destruct STP as (CO' & CS & WN & BR & _). destruct SH' as [SH' AL'].
  destruct (cstep_out _ _ CS) as (EOP & (m & ET) & _).
  destruct (reached_planned c') eqn:RP; [exact Logic.I|].
  assert (forall e, rest <> [] -> visits (full pre c') rest e -> In e E) as V'.
  { intros e NR VV. apply V. eapply visit_later; eauto. }
  assert (0 <= d_out_pos c' <= zlen (d_target c')) as OP'.
  { rewrite EOP, ET, zlen_app. pose proof (zlen_nonneg _ m). lia. }
  pose proof (co_win _ _ _ CO') as CW. rewrite WN in CW.
  destruct (d_allow c') eqn:AL.
  - rewrite <- EOP. eapply IH; eauto.
  - cbn [flush_target within_ends]. assert (zlen pre + d_out_pos c + zlen (zdrop (d_out_pos c') (d_target c')) = zlen (d_target (full pre c'))) as ->.
    { cbn [full d_target]. rewrite zlen_app, zlen_zdrop by lia. lia. }
    split; [right; apply V; eapply visit_here; eauto|].
    pose proof (full_flush pre c' CW) as FF.
    apply (within_mono _ E E 0); [|apply Z.le_max_l|auto].
    cbn [full d_target]. replace (zlen (pre ++ d_target c')) with (zlen (pre ++ d_target c') + d_out_pos (set_target_out c' [] 0 0)) by (cbn; lia).
    eapply (IH ns ss).
    + apply core_ok_flush; auto.
    + right. cbn. rewrite WN. auto.
    + exact BR.
    + cbn. rewrite zlen_nil. lia.
    + rewrite FF. exact V'.
Qed.

Lemma append_within : forall c u pre E, shiftable pre c -> 0 <= d_out_pos c <= zlen (d_target c) -> In (pending (full pre c) u) E ->
  0 <= target_bytes_remaining c u -> zlen (d_target c) - d_out_pos c + target_bytes_remaining c u <= size_max ->
  within_ends E 0 (zlen pre + d_out_pos c) (append_calls c u).
Proof.
  intros c u pre E SH OP I R0 RM. unfold append_calls. cbv zeta. rewrite zlen_zdrop by lia.
  replace (Z.max 0 (zlen (d_target c) - d_out_pos c)) with (zlen (d_target c) - d_out_pos c) by lia.
  unfold pending in I. rewrite remaining_full in I by exact SH. cbn [full d_target] in I. rewrite zlen_app in I.
  destruct (Z.ltb_spec 0 (zlen (d_target c) - d_out_pos c)) as [L|L]; [|exact Logic.I].
  destruct (Z.ltb_spec 0 (target_bytes_remaining c u)) as [LR|LR]; cbn [app within_ends].
  - rewrite to_size_id by lia. split; [|split; [|exact Logic.I]].
    + right. replace (zlen pre + d_out_pos c + (zlen (d_target c) - d_out_pos c + target_bytes_remaining c u)) with (zlen pre + zlen (d_target c) + target_bytes_remaining c u) by lia. exact I.
    + left. rewrite zlen_zdrop by lia. lia.
  - split; [|exact Logic.I]. right. rewrite zlen_zdrop by lia.
    replace (zlen pre + d_out_pos c + Z.max 0 (zlen (d_target c) - d_out_pos c)) with (zlen pre + zlen (d_target c) + target_bytes_remaining c u) by lia. exact I.
Qed.

(** ** Calls of DecodeChunk *)

Lemma announced_nil : forall c, announced c [] = None.
Proof. reflexivity. Qed.

Lemma header_exceed : forall c data n, announced c data = Some n -> would_exceed c n = true -> header_fields c data = Err.
Proof.
  intros c data n A W. unfold header_fields, announced in *.
  destruct (parse_win_indicator _ _ _ data) as [[[[[ind k] len] p] r]| | |]; try discriminate. cbn [bind].
  destruct (parse_size r) as [[dl s]| | |]; try discriminate. cbn [bind].
  destruct (parse_size s) as [[tl2 s2]| | |]; try discriminate. cbn [bind]. injection A as ->. rewrite W. reflexivity.
Qed.

Lemma remaining_nonneg : forall k u, 0 <= target_bytes_remaining k u.
Proof.
  intros k u. unfold target_bytes_remaining. cbv zeta. destruct (_ =? 0); [lia|]. unfold to_size. apply Z.mod_pos_bound. reflexivity.
Qed.

Lemma pending_max : forall ns ss k u, core_ok ns ss k -> bytes_ok u -> quiet k u -> tot_inv k -> lim_inv k -> pending k u <= size_max.
Proof.
  intros ns ss k u CO BU Q (T0 & TI) LI. pose proof LI as (L1 & L2 & L3 & L4). pose proof (co_win _ _ _ CO) as CW.
  unfold pending, target_bytes_remaining, window_length. cbv zeta.
  assert (0 <= zlen (d_target k) <= size_max) as ZT.
  { pose proof (zlen_nonneg _ (d_target k)). destruct (d_win k); lia. }
  destruct (d_win k) as [w|] eqn:W.
  - destruct (Z.eqb_spec (w_len w) 0); [lia|]. destruct TI as [TI1 TI2]. rewrite to_size_id; lia.
  - destruct TI as [TI1 TI2]. destruct (reached_planned k) eqn:RP; [cbn; lia|].
    destruct (announced k u) as [n|] eqn:A; [|cbn; lia]. pose proof (announced_range _ _ _ BU A) as AR.
    destruct (Z.eqb_spec n 0); [lia|]. assert (d_total k + n <= d_max_file k) as LT.
    { destruct Q as [[_ ->]|[[_ X]|(p & DW & _)]]; [rewrite announced_nil in A; discriminate|congruence|].
      destruct (would_exceed k n) eqn:WE.
      - rewrite (decode_window_none k ns ss) in DW by (auto; apply CO). rewrite (header_exceed _ _ _ A WE) in DW. discriminate.
      - apply would_exceed_false in WE; auto; lia. }
    rewrite to_size_id; lia.
Qed.

Lemma chunk_windows_within : forall ns ss c data pre O E r k' u,
  core_ok ns ss c -> core_ok ns ss (full pre c) -> tot_inv (full pre c) -> lim_inv (full pre c) ->
  shiftable pre c -> bytes_ok data -> O = pre ++ d_target c -> d_out_pos c = zlen (d_target c) -> d_started c = true ->
  (forall e, data <> [] -> visits (full pre c) data e -> In e E) ->
  arun (full pre c) data r -> collapse r = AOk (ADec k' u None) -> In (pending k' u) E -> pending k' u <= size_max ->
  within_ends E 0 (zlen O) (chunk_windows_calls c data).
Proof.
  intros ns ss c data pre O E r k' u CO COF TI LI SH BD EO OP ST V R C I PM.
  assert (out_inv O [] pre c) as OI.
  { split; [pose proof (zlen_nonneg _ (d_target c)); lia|]. rewrite app_nil_r, EO, OP, ztake_all by lia. reflexivity. }
  assert (length data + mid c <= S (length data))%nat as LE by (unfold mid; destruct (d_win c); lia).
  destruct (window_loop_sim (S (length data)) ns ss c data [] pre O CO COF TI LI SH BD LE OI ST) as (r0 & R0 & M).
  rewrite (arun_fun _ _ _ R _ R0) in M. clear r0 R0.
  unfold chunk_windows_calls. pose proof (window_loop_appended (S (length data)) c data []) as W. cbn [app] in W.
  apply within_app.
  - replace (zlen O) with (zlen pre + d_out_pos c) by (rewrite EO, OP, zlen_app; reflexivity).
    eapply flush_visits; eauto. pose proof (zlen_nonneg _ (d_target c)). lia.
  - assert (forall c' out' pre', k' = full pre' c' -> shiftable pre' c' -> out_inv O out' pre' c' -> out' = appended (flush_calls (S (length data)) c data) ->
      within_ends E 0 (zlen O + zlen (appended (flush_calls (S (length data)) c data))) (append_calls c' u)) as AW.
    { intros c' out' pre' EK SH' [R1 E1] <-. rewrite <- zlen_app, E1, zlen_app, zlen_ztake by lia.
      replace (Z.min _ _) with (d_out_pos c') by (pose proof (zlen_nonneg _ (d_target c')); lia).
      pose proof (remaining_nonneg c' u) as RN. apply append_within; auto; [congruence|].
      rewrite EK in PM. unfold pending in PM. rewrite remaining_full in PM by exact SH'. cbn [full d_target] in PM. rewrite zlen_app in PM.
      pose proof (zlen_nonneg _ pre'). lia. }
    destruct (window_loop (S (length data)) c data []) as [[[c' u']|[c' u']| | |] out'] eqn:WL; destruct r as [[k1 u1]|[k1 u1]| | |]; try contradiction; try discriminate;
      cbn [collapse] in C; injection C as -> ->; destruct M as (-> & _ & pre' & EK & _ & SH' & OI'); cbn [snd] in W; eapply AW; eauto.
Qed.

Lemma append_calls_empty : forall c u, d_target c = [] -> append_calls c u = [].
Proof. intros c u T. unfold append_calls. cbv zeta. rewrite T. destruct (Z.ltb_spec 0 (zlen (zdrop (d_out_pos c) (@nil Z)))) as [L|]; [|reflexivity].
  assert (zdrop (d_out_pos c) (@nil Z) = []) as X. { pose proof (ztake_zdrop _ (d_out_pos c) (@nil Z)) as Y. apply app_eq_nil in Y. tauto. }
  rewrite X, zlen_nil in L. lia.
Qed.

Lemma win_pending : forall ns ss k u E, core_ok ns ss k -> aok (ADec k u None) -> In (apending (ADec k u None)) E -> In (pending k u) E /\ pending k u <= size_max.
Proof.
  intros ns ss k u E CO OK I. unfold apending in I. rewrite (co_sizes _ _ _ CO) in I. split; [exact I|].
  inversion OK as [k0 u0 BO S BU HE E0|k0 n0 ns0 ss0 BO S SO ON PN TN E0|ns0 ss0 k0 u0 CO0 BU Q TI LI EX E0]; subst.
  - rewrite (co_sizes _ _ _ CO) in S. discriminate.
  - eapply pending_max; eauto.
Qed.

Lemma nested_within : forall f c' nd an rest data k u n a' E,
  aheader k n (u ++ data) = Ok (full [] c', Some an, rest) -> bytes_ok rest -> base_ok c' ->
  (exists ns ss, d_sizes c' = Some (ns, ss) /\ sizes_ok ns ss) -> d_started c' = true -> d_out_pos c' = 0 ->
  aok an -> d_planned (acore an) = 1536 -> zlen (d_target (acore an)) < 1536 -> drel (d_string c') nd an -> (chunk_fuel nd rest <= f)%nat ->
  acr (ADec k u n) data (AOk a') -> aok a' ->
  (forall k1 rest e, window_part (ADec k u n) data k1 rest -> rest <> [] -> visits k1 rest e -> In e E) -> In (apending a') E ->
  within_ends E 0 0
    (match decode_chunk_fuel f nd rest with
     | CUB | CFuel | CRet _ false _ => []
     | CRet nd' true o =>
         let s := d_string c' ++ o in
         if zlen s <? 1536 then append_calls c' []
         else
           let '(Dec nc _, fin) := finish_decoding nd' in
           if negb fin then []
           else if negb (zlen s =? 1536) then []
           else
             match d_sizes c' with
             | None => []
             | Some (ns, ss) =>
                 match use_code_table (d_table c') (table_of_bytes s) (last_mode ns ss) with
                 | None => []
                 | Some (t, _) =>
                     chunk_windows_calls (set_file c' (d_version c') (d_sizes c') [] t)
                                         (finish_except (zlen (d_unparsed nc)) rest)
                 end
             end
     end).
Proof.
  intros f c' nd an rest data k u n a' E H BR BO (ns & ss & S & SO) ST OP ON PN TN DN LE A OKA V I.
  assert (~ stopped (acore an)) as NN by (intros X; apply (aok_stopped an ON PN) in X; lia).
  pose proof (decode_chunk_fuel_sim f nd rest (d_string c') an LE DN ON NN BR) as M.
  destruct (decode_chunk_fuel f nd rest) as [nd' [|] o| |]; try exact Logic.I.
  destruct M as (an' & AC & DR'). cbv zeta.
  pose proof (acr_ok _ _ _ AC ON NN BR) as (ON' & PN' & _). rewrite PN in PN'.
  pose proof (drel_out _ _ _ DR') as TE. rewrite <- TE.
  destruct (Z.ltb_spec (zlen (d_target (acore an'))) 1536) as [L|L].
  { rewrite append_calls_empty by apply BO. exact Logic.I. }
  destruct (drel_finish _ _ _ DR' ON') as (nc & nn & -> & FN & UN & _). rewrite FN.
  destruct (acomplete an') eqn:AC'; cbn [negb]; [|exact Logic.I].
  destruct (Z.eqb_spec (zlen (d_target (acore an'))) 1536) as [L2|]; cbn [negb]; [|exact Logic.I].
  cbn [reset d_unparsed]. rewrite S, UN.
  destruct (use_code_table_ok (d_table c') (table_of_bytes (d_target (acore an'))) (last_mode ns ss)) as (t & b & U & TO & _).
  { apply BO. } { apply table_of_bytes_ok; auto. apply aok_target_bytes; auto. } { apply last_mode_range. }
  rewrite U. set (c2 := set_file c' (d_version c') (Some (ns, ss)) [] t).
  assert (base_ok c2) as BO2 by (apply base_file; auto).
  destruct (base_core c2 ns ss BO2 eq_refl SO) as (CO2 & TI2 & LI2 & NS2).
  destruct (base_core (full [] c2) ns ss (proj2 (base_unfull c2) BO2) eq_refl SO) as (COF2 & TIF2 & LIF2 & NSF2).
  assert (bytes_ok (finish_except (zlen (arest an')) rest)) as BF by (apply bytes_finish_except; [apply zlen_nonneg|exact BR]).
  destruct (chunk_windows_sim ns ss c2 (finish_except (zlen (arest an')) rest) [] [] CO2 COF2 TIF2 LIF2 (or_introl eq_refl) BF) as (r & R & _).
  { cbn. rewrite (bo_target _ BO). reflexivity. } { cbn. rewrite OP, (bo_target _ BO). reflexivity. } { exact ST. }
  assert (full [] c2 = set_file (full [] c') (d_version (full [] c')) (d_sizes (full [] c')) [] t) as EF.
  { unfold c2. rewrite full_nil_file. replace (d_sizes (full [] c')) with (Some (ns, ss)) by (symmetry; exact S). reflexivity. }
  assert (acr (ADec k u n) data (collapse r)) as AR.
  { eapply acr_table; eauto. eapply (after_done _ _ an' ns ss t b); [exact L2|exact AC'|exact S|exact U|]. rewrite <- EF. exact R. }
  pose proof (acr_fun _ _ _ AR _ A) as CR.
  assert (exists k2 u2, a' = ADec k2 u2 None) as (k2 & u2 & ->).
  { destruct r as [[k3 u3]|[k3 u3]| | |]; try discriminate; cbn in CR; injection CR as ->; eauto. }
  assert (core_ok ns ss k2) as COK.
  { pose proof (arun_ok _ _ _ R ns ss COF2 BF NSF2) as X. destruct r as [[k3 u3]|[k3 u3]| | |]; try discriminate; cbn in CR; injection CR as -> ->; tauto. }
  destruct (win_pending _ _ _ _ _ COK OKA I) as [PI PM].
  change 0 with (zlen (@nil Z)) at 2.
  eapply (chunk_windows_within ns ss c2 _ [] [] E r k2 u2); eauto.
  - left. reflexivity.
  - cbn. rewrite (bo_target _ BO). reflexivity.
  - cbn. rewrite OP, (bo_target _ BO). reflexivity.
  - intros e NE VV. eapply V; [|exact NE|exact VV]. rewrite EF. eapply part_table; eauto.
Qed.

Lemma chunk_within : forall d data O a a' E, drel O d a -> aok a -> ~ stopped (acore a) -> bytes_ok data -> acr a data (AOk a') ->
  (forall k1 rest e, window_part a data k1 rest -> rest <> [] -> visits k1 rest e -> In e E) -> In (apending a') E ->
  within_ends E 0 (zlen O) (decode_chunk_calls d data).
Proof.
  intros d data O a a' E DR OK NS BD A V I.
  pose proof (acr_ok _ _ _ A OK NS BD) as (OKA & _ & _).
  destruct DR as [c ST S T OP|c nd an ST S T OP U H|ns ss pre c CO SH ST OP]; unfold decode_chunk_calls; rewrite ST; cbn [negb]; cbv zeta.
  - inversion OK as [k0 u0 BO S0 BU HE E0|k0 n0 ns ss BO S0 SO ON PN TN E0|ns ss k0 u0 CO BU Q TI LI EX E0]; subst;
      [|pose proof (co_sizes _ _ _ CO) as X; cbn in X; congruence].
    set (chunk := d_unparsed c ++ data) in *. assert (bytes_ok chunk) as BC by (apply bytes_ok_app; auto).
    unfold read_file_header. rewrite S.
    destruct (aheader_cases (full [] c) None chunk S0) as [[C EA]|[[C EA]|(v & ind & tl & EC & VV)]].
    + rewrite C. exact Logic.I.
    + rewrite C. cbn [bind]. rewrite append_calls_empty by exact T. exact Logic.I.
    + rewrite EC in *. rewrite check_magic_hd by exact VV. cbn [bind]. rewrite zdrop_hd5.
      change (nth 3 (hd5 v ind tl) 0) with v. change (nth 4 (hd5 v ind tl) 0) with ind.
      pose proof (aheader_hd5 (full [] c) None v ind tl S0 VV) as AH.
      destruct (Z.testbit ind 0); [exact Logic.I|].
      destruct (Z.testbit ind 1).
      * destruct (parse_cache_sizes tl) as [[[ns ss] rest]| | |]; cbn [bind] in AH |- *; try exact Logic.I;
          [|rewrite append_calls_empty by exact T; exact Logic.I].
        assert (aheader (full [] c) None chunk = Ok (full [] (set_file c v (Some (ns, ss)) [] (d_table c)), Some a_table, rest)) as AH2
          by (rewrite EC; exact AH).
        destruct (aheader_ok (full [] c) None chunk _ _ _ ltac:(rewrite EC; exact BC) S0 BO AH2) as (BO' & BR & SS & _ & _ & ZL).
        destruct a_table_ok as (TO & TP & TT).
        eapply (nested_within _ (set_file c v (Some (ns, ss)) [] (d_table c)) table_decoder a_table rest data (full [] c) (d_unparsed c) None a' E AH2 BR
             (proj1 (base_unfull _) BO') SS ST OP TO TP); auto; [|exact table_drel|].
        -- rewrite TT. reflexivity.
        -- change (chunk_fuel table_decoder rest) with (Datatypes.S (length rest)).
           cbn [chunk_fuel pred]. fold chunk. Local Transparent zlen. unfold zlen in ZL. Local Opaque zlen. lia.
      * set (c2 := set_file c v (Some (kDefaultNearCacheSize, kDefaultSameCacheSize)) (d_string c) (d_table c)) in *.
        assert (aheader (full [] c) None chunk = Ok (full [] c2, None, tl)) as AH2 by (rewrite EC; exact AH).
        destruct (aheader_ok (full [] c) None chunk _ _ _ ltac:(rewrite EC; exact BC) S0 BO AH2) as (BO' & BR & (ns & ss & SS & SO) & _ & _ & ZL).
        destruct (base_core _ ns ss BO' SS SO) as (COF & TIF & LIF & NSF).
        destruct (base_core c2 ns ss (proj1 (base_unfull c2) BO') SS SO) as (CO & _).
        destruct (chunk_windows_sim ns ss c2 tl [] [] CO COF TIF LIF (or_introl eq_refl) BR) as (r & R & _).
        { cbn. rewrite T. reflexivity. } { cbn. rewrite OP, T. reflexivity. } { exact ST. }
        assert (acr (ADec (full [] c) (d_unparsed c) None) data (collapse r)) as AR by (eapply acr_win; eauto).
        pose proof (acr_fun _ _ _ AR _ A) as CR.
        assert (exists k2 u2, a' = ADec k2 u2 None) as (k2 & u2 & ->).
        { destruct r as [[k3 u3]|[k3 u3]| | |]; try discriminate; cbn in CR; injection CR as ->; eauto. }
        assert (core_ok ns ss k2) as COK.
        { pose proof (arun_ok _ _ _ R ns ss COF BR NSF) as X. destruct r as [[k3 u3]|[k3 u3]| | |]; try discriminate; cbn in CR; injection CR as -> ->; tauto. }
        destruct (win_pending _ _ _ _ _ COK OKA I) as [PI PM].
        eapply (chunk_windows_within ns ss c2 _ [] [] E r k2 u2); eauto.
        -- left. reflexivity.
        -- cbn. rewrite OP, T. reflexivity.
        -- intros e NE VV'. eapply V; [|exact NE|exact VV']. apply part_plain. exact AH2.
  - inversion OK as [k0 u0 BO S0 BU HE E0|k0 n0 ns ss BO S0 SO ON PN TN E0|ns ss k0 u0 CO BU Q TI LI EX E0]; subst.
    unfold read_file_header. destruct (d_sizes c) as [[ns' ss']|] eqn:DS; [|congruence]. rewrite U. cbn [app].
    rewrite zlen_nil.
    eapply (nested_within _ c nd an data data (full [] c) [] (Some an) a' E); auto.
    + unfold aheader. cbn [full d_sizes]. rewrite DS. reflexivity.
    + apply base_unfull. exact BO.
    + exists ns, ss. split; [cbn in S0; congruence|exact SO].
  - inversion OK as [k0 u0 BO S0 BU HE E0|k0 n0 ns1 ss1 BO S0 SO ON PN TN E0|ns1 ss1 k0 u0 CO1 BU Q TI LI EX E0]; subst.
    { pose proof (co_sizes _ _ _ CO) as X. cbn in S0. congruence. }
    assert (ns1 = ns /\ ss1 = ss) as [-> ->].
    { pose proof (co_sizes _ _ _ CO1) as X1. pose proof (co_sizes _ _ _ CO) as X2. cbn in X1. rewrite X2 in X1. injection X1 as <- <-. auto. }
    assert (bytes_ok (d_unparsed c ++ data)) as BUD by (apply bytes_ok_app; auto).
    unfold read_file_header. rewrite (co_sizes _ _ _ CO).
    destruct (chunk_windows_sim ns ss c (d_unparsed c ++ data) pre (pre ++ d_target c) CO CO1 TI LI SH BUD eq_refl OP ST) as (r & R & _).
    assert (aheader (full pre c) None (d_unparsed c ++ data) = Ok (full pre c, None, d_unparsed c ++ data)) as AH
      by (unfold aheader; rewrite (co_sizes _ _ _ CO1); reflexivity).
    assert (acr (ADec (full pre c) (d_unparsed c) None) data (collapse r)) as AR by (eapply acr_win; eauto).
    pose proof (acr_fun _ _ _ AR _ A) as CR.
    assert (exists k2 u2, a' = ADec k2 u2 None) as (k2 & u2 & ->).
    { destruct r as [[k3 u3]|[k3 u3]| | |]; try discriminate; cbn in CR; injection CR as ->; eauto. }
    assert (core_ok ns ss k2) as COK.
    { pose proof (arun_ok _ _ _ R ns ss CO1 BUD NS) as X. destruct r as [[k3 u3]|[k3 u3]| | |]; try discriminate; cbn in CR; injection CR as -> ->; tauto. }
    destruct (win_pending _ _ _ _ _ COK OKA I) as [PI PM].
    eapply (chunk_windows_within ns ss c _ pre _ E r k2 u2); eauto.
    intros e NE VV. eapply V; [|exact NE|exact VV]. apply part_plain. exact AH.
Qed.

(** ** Streams *)

Lemma chunks_within : forall chunks d O a k X Ts out d' o', drel O d a -> aok a -> unplanned a -> came k a X Ts ->
  d_sizes k = None -> base_ok k -> d_table k = default_table -> bytes_ok X -> Forall bytes_ok chunks ->
  decode_chunks d chunks out = Some (d', true, o') ->
  exists Ts' more a', came k a' (X ++ concat chunks) (Ts ++ Ts') /\ drel (O ++ more) d' a' /\ aok a' /\ unplanned a' /\ o' = out ++ more /\
    within_ends (0 :: apending a' :: ends 0 (Ts ++ Ts')) 0 (zlen O) (chunks_calls d chunks) /\
    (apending a = 0 \/ In (apending a) (ends 0 (Ts ++ Ts')) \/ apending a = apending a').
Proof.
  induction chunks as [|x tl IH]; intros d O a k X Ts out d' o' DR OK UP CM S BO DT BX F H; cbn [decode_chunks chunks_calls concat] in *.
  { injection H as <- <-. exists [], [], a. rewrite !app_nil_r. split; [exact CM|]. split; [exact DR|]. split; [exact OK|]. split; [exact UP|].
    split; [reflexivity|]. split; [exact Logic.I|auto]. }
  inversion F as [|? ? BY F']; subst. pose proof (unplanned_stopped a UP) as NS.
  pose proof (decode_chunk_sim d x O a DR OK NS BY) as M. pose proof (decode_chunk_appended d x) as AP.
  destruct (decode_chunk d x) as [d1 [|] o| |]; try discriminate. destruct M as (a1 & A & DR1).
  pose proof (acr_ok _ _ _ A OK NS BY) as (OK1 & PL & _).
  assert (unplanned a1) as UP1 by (unfold unplanned, has_planned in *; rewrite PL; exact UP).
  destruct (came_more _ _ _ A _ _ _ _ CM S BO DT OK NS BX BY eq_refl) as (Ts1 & CM1 & VS & PD).
  destruct (IH d1 (O ++ o) a1 k (X ++ x) (Ts ++ Ts1) (out ++ o) d' o' DR1 OK1 UP1 CM1 S BO DT ltac:(apply bytes_ok_app; auto) F' H)
    as (Ts2 & more & a' & CM2 & DR2 & OK2 & UP2 & EO & WI & PD2).
  rewrite <- app_assoc in CM2, DR2, EO, WI, PD2. rewrite <- app_assoc in CM2.
  exists (Ts1 ++ Ts2), (o ++ more), a'. split; [exact CM2|]. split; [exact DR2|]. split; [exact OK2|]. split; [exact UP2|]. split; [exact EO|].
  assert (forall e, In e (ends 0 (Ts ++ Ts1)) -> In e (ends 0 (Ts ++ Ts1 ++ Ts2))) as SUB.
  { intros e J. rewrite app_assoc, ends_app. apply in_or_app. auto. }
  split.
  - apply within_app; [|rewrite AP, <- zlen_app; exact WI].
    eapply within_mono; [eapply (chunk_within d x O a a1 (0 :: apending a1 :: ends 0 (Ts ++ Ts1))); eauto|lia|].
    + intros k1 rest e WP NE VV. right. right. eapply VS; eauto.
    + right. left. reflexivity.
    + intros e [<-|[<-|J]]; [left; lia| |right; right; right; auto].
      destruct PD2 as [->|[J| ->]]; [left; lia|right; right; right; exact J|right; right; left; reflexivity].
  - destruct PD as [->|[J| ->]]; auto.
Qed.

Lemma complete_pending : forall k a X Ts, came k a X Ts -> aok a -> unplanned a -> acomplete a = true -> d_target (acore a) = concat Ts ->
  apending a = 0 \/ In (apending a) (ends 0 Ts).
Proof.
  intros k a X Ts CM OK UP AC TG. destruct a as [k1 u [n|]]; [left; reflexivity|]. cbn [apending acore acomplete] in *.
  destruct (d_sizes k1); [|left; reflexivity]. destruct (d_win k1) eqn:W; [discriminate|].
  assert (reached_planned k1 = false) as RP.
  { destruct (reached_planned k1) eqn:RP; [|reflexivity]. destruct (unplanned_stopped _ UP). split; [exact W|exact RP]. }
  rewrite RP in AC. destruct u; [|discriminate].
  assert (pending k1 [] = zlen (concat Ts)) as ->.
  { unfold pending, target_bytes_remaining, window_length. rewrite W, RP, announced_nil. cbn. rewrite TG. lia. }
  destruct (ends_last Ts 0) as [->|J]; [left; reflexivity|right; exact J].
Qed.

Theorem stream_within : forall d dict chunks out, idle_plain d -> bytes_ok dict -> Forall bytes_ok chunks ->
  decode_stream d dict chunks = Some (true, out) ->
  exists Ts, vcd_file_parts lax lax (target_allowed d) (admits d) dict (concat chunks) Ts /\ concat Ts = out /\
    appended (stream_calls d dict chunks) = out /\ within_ends (ends 0 Ts) 0 0 (stream_calls d dict chunks).
Proof.
  intros d dict chunks out IP BD F H. pose proof (idle_plain_idle d IP) as [ID _]. pose proof (idle_ready d ID) as RD.
  destruct (start_facts d dict IP BD) as (k & EA & S & BO & DT & DD & DA & UP & LM).
  destruct (start_ok d dict RD BD) as (DR0 & OK & U & _).
  unfold decode_stream in H. pose proof (decode_chunks_appended chunks (start_decoding d dict) []) as AP.
  destruct (decode_chunks (start_decoding d dict) chunks []) as [[[d' [|]] o]|] eqn:DC; try discriminate.
  injection H as FN <-. rewrite EA in *.
  destruct (chunks_within chunks _ [] _ k [] [] [] d' o DR0 OK U (came_start k []) S BO DT ltac:(constructor) F DC)
    as (Ts & more & a & CM & DR & OKA & UA & EO & WI & _). cbn [app] in *. subst more.
  destruct (drel_finish _ _ _ DR OKA) as (c & n & -> & E & _). rewrite E in FN. cbn [snd] in FN.
  destruct (came_file k a _ _ dict (target_allowed d) (admits d) CM OKA S (bo_target _ BO) UA FN DA DD (fun p T => proj1 (LM p T))) as [FP TG].
  exists Ts. split; [exact FP|]. split; [rewrite <- TG; apply (drel_out _ _ _ DR)|]. split; [symmetry; exact AP|].
  rewrite zlen_nil in WI. eapply within_mono; [exact WI|lia|].
  intros e [<-|[<-|J]]; [left; lia| |auto].
  destruct (complete_pending _ _ _ _ CM OKA UA FN TG) as [->|J]; [left; lia|auto].
Qed.

(** ** The division into windows is unique *)

Lemma windows_parts_unique : forall t tl f dict ok prev ws Ts, windows_parts t tl f dict ok prev ws Ts ->
  forall t' tl' f' ok' Ts', same_format f f' -> windows_parts t' tl' f' dict ok' prev ws Ts' -> Ts = Ts'.
Proof.
  induction 1 as [prev|prev w T rest Ts W K R IH]; intros t' tl' f' ok' Ts' SF H'.
  - remember [] as x. destruct H' as [|prev w T rest Ts W K R]; auto. apply app_eq_nil in Heqx as [-> _]. apply window_ne in W. congruence.
  - remember (w ++ rest) as x. destruct H' as [prev|prev w' T' rest' Ts' W' K' R'].
    + symmetry in Heqx. apply app_eq_nil in Heqx as [-> _]. apply window_ne in W. congruence.
    + destruct (window_inj _ _ _ _ _ _ _ _ _ _ _ _ SF W W' (eq_sym Heqx)) as (-> & -> & ->).
      f_equal. eapply IH; eauto.
Qed.

Theorem file_parts_unique : forall t tl allow ok dict X Ts t' tl' allow' ok' Ts',
  vcd_file_parts t tl allow ok dict X Ts -> vcd_file_parts t' tl' allow' ok' dict X Ts' -> Ts = Ts'.
Proof.
  intros t tl allow ok dict X out t' tl' allow' ok' out' A B.
  destruct A as [|h v tbl ns ss ws out HD MF WS].
  - remember [] as x. destruct B as [|h' v' tbl' ns' ss' ws' out' HD' MF' WS']; auto.
    inversion HD'; subst; discriminate.
  - remember (h ++ ws) as x. destruct B as [|h' v' tbl' ns' ss' ws' out' HD' MF' WS'].
    + inversion HD; subst; discriminate.
    + destruct (head_inj _ _ _ _ _ _ _ HD _ _ _ _ _ _ _ _ _ HD' (eq_sym Heqx)) as (-> & -> & -> & -> & -> & ->).
      eapply windows_parts_unique; [exact WS| |exact WS'].
      pose proof (head_near _ _ _ _ _ _ _ HD). unfold same_format; cbn; auto.
Qed.

(** ** Data that has not come to an end *)

Lemma came_prefix : forall k a X Ts, came k a X Ts -> d_sizes k = None ->
  (apending a = 0 /\ Ts = []) \/
  exists h v tbl ns ss ws z, X = h ++ ws ++ z /\ head lax lax h v tbl ns ss /\
    windows_parts lax lax (file_format v tbl ns ss (d_allow k)) (d_dict k) (limits k) [] ws Ts.
Proof.
  intros k a X Ts [u|v ind p ns q ss kt nd X' Tn V BI I0 I1 VP VQ LN LS SO EK C|h v tbl ns ss k1 W Ts' k2 u HD SO BO S ST EV EA ED EL WC] BOK.
  - left. split; [|reflexivity]. cbn. rewrite BOK. reflexivity.
  - left. split; reflexivity.
  - right. destruct WC as (ks & ws & z & -> & AW & BZ & ALT). exists h, v, tbl, ns, ss, ws, z.
    split; [reflexivity|]. split; [exact HD|].
    pose proof (aw_means _ _ _ _ _ _ AW) as WS. rewrite (bo_target _ BO) in WS. rewrite <- ED, <- EL, <- EA, <- EV.
    refine (windows_parts_ext _ _ _ _ _ _ _ _ _ (tle_refl _) (tle_refl _) (fmt_file _ _ _ _ ST) (fun _ _ X => X) _ _ _ WS).
Qed.

Theorem chunks_prefix_within : forall d dict chunks d' out, idle_plain d -> bytes_ok dict -> Forall bytes_ok chunks ->
  decode_chunks (start_decoding d dict) chunks [] = Some (d', true, out) ->
  appended (stream_calls d dict chunks) = out /\
  ((forall size cap n, 0 <= size <= cap -> resized size cap (stream_calls d dict chunks) n -> n = 0) \/
   exists h v tbl ns ss ws z Ts, concat chunks = h ++ ws ++ z /\ head lax lax h v tbl ns ss /\
    windows_parts lax lax (file_format v tbl ns ss (target_allowed d)) dict (admits d) [] ws Ts /\
    forall size cap n, 0 <= size <= cap -> resized size cap (stream_calls d dict chunks) n -> n <= zlen Ts + 1).
Proof.
  intros d dict chunks d' out IP BD F DC. pose proof (idle_plain_idle d IP) as [ID _]. pose proof (idle_ready d ID) as RD.
  destruct (start_facts d dict IP BD) as (k & EA & S & BO & DT & DD & DA & UP & LM).
  destruct (start_ok d dict RD BD) as (DR0 & OK & U & _).
  pose proof (decode_chunks_appended chunks (start_decoding d dict) []) as AP. rewrite DC in AP.
  split; [symmetry; exact AP|]. rewrite EA in *.
  destruct (chunks_within chunks _ [] _ k [] [] [] d' out DR0 OK U (came_start k []) S BO DT ltac:(constructor) F DC)
    as (Ts & more & a & CM & DR & OKA & UA & EO & WI & _). cbn [app] in *. rewrite zlen_nil in WI.
  change (chunks_calls (start_decoding d dict) chunks) with (stream_calls d dict chunks) in WI.
  destruct (came_prefix _ _ _ _ CM S) as [[P0 ->]|(h & v & tbl & ns & ss & ws & z & EX & HD & WS)].
  - left. intros size cap n SC RZ. rewrite P0 in WI.
    assert (within_ends [] 0 0 (stream_calls d dict chunks)) as WI0.
    { eapply within_mono; [exact WI|lia|]. intros e [<-|[<-|[]]]; left; lia. }
    pose proof (resized_bound _ _ _ _ _ RZ SC WI0) as B. rewrite zlen_nil in B. pose proof (resized_nonneg _ _ _ _ RZ). lia.
  - right. exists h, v, tbl, ns, ss, ws, z, Ts. split; [exact EX|]. split; [exact HD|]. split.
    { rewrite DA, DD in WS.
      refine (windows_parts_ext _ _ _ _ _ _ _ _ _ (tle_refl _) (tle_refl _) _ (fun p T => proj1 (LM p T)) _ _ _ WS).
      repeat split. }
    intros size cap n SC RZ. assert (within_ends (apending a :: ends 0 Ts) 0 0 (stream_calls d dict chunks)) as WI0.
    { eapply within_mono; [exact WI|lia|]. intros e [<-|J]; [left; lia|auto]. }
    pose proof (resized_bound _ _ _ _ _ RZ SC WI0) as B. rewrite zlen_cons in B.
    rewrite zlen_ends in B. lia.
Qed.

(** ** Limits *)

Lemma windows_parts_ok : forall t tl f dict (ok : list Z -> list Z -> Prop) (P : list Z -> Prop) prev ws Ts, windows_parts t tl f dict ok prev ws Ts ->
  (forall p T, ok p T -> P T) -> Forall P Ts.
Proof. intros t tl f dict ok P prev ws Ts H K. induction H; constructor; eauto. Qed.

Lemma file_parts_ok : forall t tl allow (ok : list Z -> list Z -> Prop) (P : list Z -> Prop) dict X Ts, vcd_file_parts t tl allow ok dict X Ts ->
  (forall p T, ok p T -> P T) -> Forall P Ts.
Proof. intros t tl allow ok P dict X Ts [|h v tbl ns ss ws parts HD MF WS] K; [constructor|]. eapply windows_parts_ok; eauto. Qed.

Lemma windows_parts_total : forall t tl f dict (ok : list Z -> list Z -> Prop) prev ws Ts, windows_parts t tl f dict ok prev ws Ts ->
  Ts = [] \/ exists p T, prev ++ concat Ts = p ++ T /\ ok p T.
Proof.
  intros t tl f dict ok prev ws Ts H. induction H as [prev|prev w T rest Ts W K H IH]; [auto|]. right.
  destruct IH as [->|(p & T' & E & K')].
  - exists prev, T. cbn [concat]. rewrite app_nil_r. auto.
  - exists p, T'. cbn [concat]. rewrite app_assoc. auto.
Qed.

Lemma file_parts_total : forall t tl allow (ok : list Z -> list Z -> Prop) dict X Ts, vcd_file_parts t tl allow ok dict X Ts ->
  Ts = [] \/ exists p T, concat Ts = p ++ T /\ ok p T.
Proof. intros t tl allow ok dict X Ts [|h v tbl ns ss ws parts HD MF WS]; [auto|]. apply windows_parts_total in WS. exact WS. Qed.
