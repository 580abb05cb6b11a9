(** Using a decoder again, and changing the limits while decoding. *)

From Verif Require Import Base Spec Varint VarintFacts AddrCache AddrCacheFacts CodeTable CodeTableFacts
  InstructionMap DecodeTable HeaderParser Adler AdlerFacts Decoder CopyFacts BodyFacts BodyExt WindowExt
  WindowHeader WindowStep Refine Totals Abstract FileHeader Chunk Sim Stream Session Calls.
From Coq Require Import ZifyBool ZifyNat.

(** ** What is left in custom_code_table_string_ does not matter *)

Definition set_string (s : list Z) (c : core) : core := set_file c (d_version c) (d_sizes c) s (d_table c).

Definition map_x (f : core -> core) (r : dres) : dres :=
  match r with XOk (c, l) => XOk (f c, l) | XEod (c, l) => XEod (f c, l) | XErr => XErr | XUB => XUB | XFuel => XFuel end.

Lemma decode_window_string : forall s c data, decode_window (set_string s c) data = map_x (set_string s) (decode_window c data).
Proof.
  intros s c data. unfold decode_window. cbn [set_string set_file d_win].
  assert (forall tot w st av af, finish_window (set_string s c) tot w st av af = map_x (set_string s) (finish_window c tot w st av af)) as FW.
  { intros. unfold finish_window. cbn [set_string set_file d_dict d_table d_start].
    destruct (decode_body _ _ _ _ _); try reflexivity. destruct (_ && _); reflexivity. }
  destruct (d_win c); [apply FW|]. change (read_header (set_string s c) data) with (read_header c data).
  destruct (read_header c data) as [[[[w st] af] l]| | |]; try reflexivity. apply FW.
Qed.

Lemma window_loop_string : forall f s c data out,
  window_loop f (set_string s c) data out =
  (map_x (set_string s) (fst (window_loop f c data out)), snd (window_loop f c data out)).
Proof.
  induction f as [|f IH]; intros s c [|b data] out; try reflexivity. cbn [window_loop]. rewrite decode_window_string.
  destruct (decode_window c (b :: data)) as [[c' r]|[c' r]| | |]; try reflexivity. cbn [map_x].
  change (reached_planned (set_string s c')) with (reached_planned c'). destruct (reached_planned c'); [reflexivity|].
  change (d_allow (set_string s c')) with (d_allow c'). destruct (d_allow c'); [apply IH|].
  unfold flush_target. change (set_target_out (set_string s c') [] 0 0) with (set_string s (set_target_out c' [] 0 0)). apply IH.
Qed.

Inductive same_but_string : dec -> dec -> Prop :=
| sbs_eq : forall d, same_but_string d d
| sbs_string : forall s c, same_but_string (Dec c None) (Dec (set_string s c) None).

Definition same_result (r r' : cres) : Prop :=
  match r, r' with
  | CRet d ok o, CRet d' ok' o' => same_but_string d d' /\ ok' = ok /\ o' = o
  | _, _ => r = r'
  end.

Lemma same_result_refl : forall r, same_result r r.
Proof. intros []; cbn; auto. split; [constructor|auto]. Qed.

Lemma chunk_windows_string : forall s c data, same_result (chunk_windows c data) (chunk_windows (set_string s c) data).
Proof.
  intros s c data. unfold chunk_windows. rewrite window_loop_string.
  destruct (window_loop (S (length data)) c data []) as [[[c' r]|[c' r]| | |] out]; cbn; auto; (split; [|auto]).
  - match goal with |- same_but_string (Dec ?x None) _ => apply (sbs_string s x) end.
  - match goal with |- same_but_string (Dec ?x None) _ => apply (sbs_string s x) end.
  - apply (sbs_string s (reset c)).
Qed.

Lemma decode_chunk_string : forall d d' data, same_but_string d d' -> same_result (decode_chunk d data) (decode_chunk d' data).
Proof.
  intros d d' data [e|s c]; [apply same_result_refl|]. unfold decode_chunk.
  change (chunk_fuel (Dec (set_string s c) None) data) with (chunk_fuel (Dec c None) data).
  destruct (chunk_fuel_pos (Dec c None) data) as [f ->]. cbn [decode_chunk_fuel].
  change (d_started (set_string s c)) with (d_started c). destruct (negb (d_started c)).
  { cbn. split; [|auto]. apply (sbs_string s (reset c)). }
  change (d_unparsed (set_string s c)) with (d_unparsed c). unfold read_file_header.
  change (d_sizes (set_string s c)) with (d_sizes c). destruct (d_sizes c) as [sz|] eqn:S.
  { apply chunk_windows_string. }
  destruct (check_magic (d_unparsed c ++ data)) as [[]| | |]; cbn [bind]; auto.
  - destruct (Z.testbit (nth 4 (d_unparsed c ++ data) 0) 0). { cbn. split; [|auto]. apply (sbs_string s (reset c)). }
    destruct (Z.testbit (nth 4 (d_unparsed c ++ data) 0) 1).
    + destruct (parse_cache_sizes _) as [[[ns ss] rest]| | |]; cbn [bind].
      * apply same_result_refl.
      * cbn. split; [|auto]. match goal with |- same_but_string (Dec ?x None) _ => apply (sbs_string s x) end.
      * cbn. split; [|auto]. apply (sbs_string s (reset c)).
      * reflexivity.
    + set (c2 := set_file c _ _ (d_string c) (d_table c)). apply (chunk_windows_string s c2).
  - cbn. split; [|auto]. match goal with |- same_but_string (Dec ?x None) _ => apply (sbs_string s x) end.
  - cbn. split; [|auto]. apply (sbs_string s (reset c)).
  - reflexivity.
Qed.

Lemma decode_chunks_string : forall chunks d d' out, same_but_string d d' ->
  match decode_chunks d chunks out, decode_chunks d' chunks out with
  | Some (e, ok, o), Some (e', ok', o') => same_but_string e e' /\ ok' = ok /\ o' = o
  | None, None => True
  | _, _ => False
  end.
Proof.
  induction chunks as [|x tl IH]; intros d d' out H; [cbn; auto|]. cbn [decode_chunks].
  pose proof (decode_chunk_string d d' x H) as S. 
  destruct (decode_chunk d x) as [e ok o| |], (decode_chunk d' x) as [e' ok' o'| |]; try discriminate S; auto.
  destruct S as (S & -> & ->). destruct ok; [apply IH; exact S|]. auto.
Qed.

Lemma finish_string : forall d d', same_but_string d d' -> snd (finish_decoding d') = snd (finish_decoding d).
Proof. intros d d' []; reflexivity. Qed.

(** A new decoder with the settings of [d]. *)
Definition fresh_like (d : dec) : dec :=
  let '(Dec c _) := d in
  Dec (set_limits new_core (d_max_file c) (d_max_window c) (d_allow c) kUnlimitedBytes) None.

Definition the_table (d : dec) : table := let '(Dec c _) := d in d_table c.

Theorem reuse_default_table : forall d dict chunks, idle d -> the_table d = default_table ->
  decode_stream d dict chunks = decode_stream (fresh_like d) dict chunks.
Proof.
  intros d dict chunks ID T. pose proof (idle_start d dict ID) as ST. destruct d as [c n]. cbn in T.
  unfold decode_stream. rewrite ST.
  assert (same_but_string (Dec (start_core c dict) None) (start_decoding (fresh_like (Dec c n)) dict)) as S.
  { assert (start_decoding (fresh_like (Dec c n)) dict = Dec (set_string [] (start_core c dict)) None) as ->; [|constructor].
    unfold fresh_like, start_decoding, set_string, set_file, start_core. cbn. rewrite T. reflexivity. }
  pose proof (decode_chunks_string chunks _ _ [] S) as M.
  destruct (decode_chunks (Dec (start_core c dict) None) chunks []) as [[[e ok] o]|], (decode_chunks (start_decoding (fresh_like (Dec c n)) dict) chunks []) as [[[e' ok'] o']|];
    try contradiction; auto.
  destruct M as (M & -> & ->). destruct ok; auto. rewrite (finish_string _ _ M). reflexivity.
Qed.

(** ** When the code table stays as it is *)

Lemma decode_window_table : forall c data, match decode_window c data with
  | XOk (c', _) | XEod (c', _) => d_table c' = d_table c | _ => True end.
Proof.
  intros c data. unfold decode_window.
  assert (forall tot w st av af, match finish_window c tot w st av af with XOk (c', _) | XEod (c', _) => d_table c' = d_table c | _ => True end) as FW.
  { intros. unfold finish_window. destruct (decode_body _ _ _ _ _); auto; cbv zeta; destruct (_ && _); auto. }
  destruct (d_win c); [apply FW|]. destruct (read_header c data) as [[[[w st] af] l]| | |]; auto. apply FW.
Qed.

Lemma window_loop_table : forall f c data out, match fst (window_loop f c data out) with
  | XOk (c', _) | XEod (c', _) => d_table c' = d_table c | _ => True end.
Proof.
  induction f as [|f IH]; intros c [|b data] out; try exact I; try reflexivity. cbn [window_loop].
  pose proof (decode_window_table c (b :: data)) as D.
  destruct (decode_window c (b :: data)) as [[c' r]|[c' r]| | |]; auto.
  destruct (reached_planned c'); [exact D|]. destruct (d_allow c').
  - specialize (IH c' r out). rewrite <- D. destruct (fst (window_loop f c' r out)) as [[]|[]| | |]; auto.
  - unfold flush_target. specialize (IH (set_target_out c' [] 0 0) r (out ++ zdrop (d_out_pos c') (d_target c'))).
    rewrite <- D. destruct (fst (window_loop f _ r _)) as [[]|[]| | |]; auto.
Qed.

Lemma chunk_windows_table : forall c data d' ok o, chunk_windows c data = CRet d' ok o ->
  the_table d' = d_table c /\ (ok = true -> exists c', d' = Dec c' None).
Proof.
  intros c data d' ok o H. unfold chunk_windows in H. pose proof (window_loop_table (S (length data)) c data []) as T.
  destruct (window_loop (S (length data)) c data []) as [[[c' r]|[c' r]| | |] out]; try discriminate; cbn in *; injection H as <- <- <-; cbn; (split; [auto|]); [eauto|eauto|discriminate].
Qed.

Lemma window_loop_sizes : forall f c data out, match fst (window_loop f c data out) with
  | XOk (c', _) | XEod (c', _) => d_sizes c' = d_sizes c | _ => True end.
Proof.
  assert (forall c data, match decode_window c data with XOk (c', _) | XEod (c', _) => d_sizes c' = d_sizes c | _ => True end) as DW.
  { intros c data. unfold decode_window.
    assert (forall tot w st av af, match finish_window c tot w st av af with XOk (c', _) | XEod (c', _) => d_sizes c' = d_sizes c | _ => True end) as FW.
    { intros. unfold finish_window. destruct (decode_body _ _ _ _ _); auto; cbv zeta; destruct (_ && _); auto. }
    destruct (d_win c); [apply FW|]. destruct (read_header c data) as [[[[w st] af] l]| | |]; auto. apply FW. }
  induction f as [|f IH]; intros c [|b data] out; try exact I; try reflexivity. cbn [window_loop].
  pose proof (DW c (b :: data)) as D.
  destruct (decode_window c (b :: data)) as [[c' r]|[c' r]| | |]; auto.
  destruct (reached_planned c'); [exact D|]. destruct (d_allow c').
  - specialize (IH c' r out). rewrite <- D. destruct (fst (window_loop f c' r out)) as [[]|[]| | |]; auto.
  - unfold flush_target. specialize (IH (set_target_out c' [] 0 0) r (out ++ zdrop (d_out_pos c') (d_target c'))).
    rewrite <- D. destruct (fst (window_loop f _ r _)) as [[]|[]| | |]; auto.
Qed.

Lemma plain_table : forall chunks c out d' ok o, (d_sizes c = None -> no_code_table (d_unparsed c ++ concat chunks)) ->
  decode_chunks (Dec c None) chunks out = Some (d', ok, o) -> the_table d' = d_table c.
Proof.
  induction chunks as [|x tl IH]; intros c out d' ok o P H.
  { cbn in H. injection H as <- <- <-. reflexivity. }
  cbn [decode_chunks] in H. unfold decode_chunk in H. destruct (chunk_fuel_pos (Dec c None) x) as [f E]. rewrite E in H.
  assert (forall c1 data, (d_sizes c1 <> None) -> d_table c1 = d_table c ->
    match chunk_windows c1 data with
    | CRet d1 true o1 => decode_chunks d1 tl (out ++ o1)
    | CRet d1 false o1 => Some (d1, false, out ++ o1)
    | _ => None
    end = Some (d', ok, o) -> the_table d' = d_table c) as CW.
  { intros c1 data S1 T1 H1. pose proof (window_loop_sizes (S (length data)) c1 data []) as Z1.
    destruct (chunk_windows c1 data) as [d1 [|] o1| |] eqn:CE; try discriminate.
    - destruct (chunk_windows_table _ _ _ _ _ CE) as [T (c' & ->)]; [reflexivity|]. cbn in T. rewrite <- T1, <- T. eapply IH; [|exact H1].
      unfold chunk_windows in CE. destruct (window_loop (S (length data)) c1 data []) as [[[c2 r]|[c2 r]| | |] out2]; try discriminate; cbn in CE, Z1;
      injection CE as <- <-; cbn; congruence.
    - destruct (chunk_windows_table _ _ _ _ _ CE) as [T _]. injection H1 as <- <- <-. congruence. }
  cbn [decode_chunk_fuel] in H. destruct (negb (d_started c)).
  { cbn in H. injection H as <- <- <-. reflexivity. }
  unfold read_file_header in H. destruct (d_sizes c) as [sz|] eqn:S.
  { apply (CW c (d_unparsed c ++ x)); auto. congruence. }
  specialize (P eq_refl).
  destruct (check_magic (d_unparsed c ++ x)) as [[]| | |] eqn:C; cbn [bind] in H; try discriminate.
  - destruct (check_magic_inv _ C) as (v & ind & tl' & EQ & V). rewrite EQ in H.
    change (nth 3 (hd5 v ind tl') 0) with v in H. change (nth 4 (hd5 v ind tl') 0) with ind in H.
    destruct (Z.testbit ind 0). { cbn in H. injection H as <- <- <-. reflexivity. }
    rewrite (P v ind (tl' ++ concat tl)) in H.
    2:{ cbn [concat]. rewrite app_assoc, EQ. reflexivity. }
    eapply CW; [| |exact H]; [discriminate|reflexivity].
  - unfold chunk_done, append_new_output in H. cbn [set_unparsed d_out_pos d_target] in H. 
    match goal with X : decode_chunks (Dec ?cc None) _ _ = _ |- _ => change (d_table c) with (d_table cc); eapply (IH cc); [|exact X] end.
    intros _. cbn. rewrite <- app_assoc. exact P.
  - cbn in H. injection H as <- <- <-. reflexivity.
Qed.

(** Histories in which no custom code table was announced. *)
Inductive idle_plain : dec -> Prop :=
| ip_new : idle_plain new_decoder
| ip_max_file : forall d n, idle_plain d -> 0 <= n <= size_max -> idle_plain (fst (set_maximum_target_file_size d n))
| ip_max_window : forall d n, idle_plain d -> 0 <= n <= size_max -> idle_plain (fst (set_maximum_target_window_size d n))
| ip_allow : forall d b, idle_plain d -> idle_plain (set_allow_vcd_target d b)
| ip_decoded : forall d dict chunks d' ok out, idle_plain d -> bytes_ok dict -> Forall bytes_ok chunks ->
    no_code_table (concat chunks) ->
    decode_chunks (start_decoding d dict) chunks [] = Some (d', ok, out) ->
    idle_plain (fst (finish_decoding d')).

Lemma no_code_table_bad : forall X, no_code_table X -> ~ bad_cache X.
Proof. intros X P H. inversion H; subst; rewrite (P _ _ _ eq_refl) in *; discriminate. Qed.

Lemma idle_plain_idle : forall d, idle_plain d -> idle d /\ the_table d = default_table.
Proof.
  induction 1 as [|[c n] m H [I T] M|[c n] m H [I T] M|[c n] b H [I T]|d dict chunks d' ok out H [I T] BD F P DC].
  - split; [constructor|reflexivity].
  - split; [apply (idle_max_file (Dec c n)); auto|exact T].
  - split; [apply (idle_max_window (Dec c n)); auto|]. cbn. destruct (kTargetSizeLimit <? m); exact T.
  - split; [apply (idle_allow (Dec c n)); auto|]. cbn. destruct (d_started c); exact T.
  - split; [eapply idle_decoded; eauto using no_code_table_bad|].
    pose proof (idle_start d dict I) as ST. destruct d as [c n]. rewrite ST in DC. 
    pose proof (plain_table chunks (start_core c dict) [] d' ok out (fun _ => P) DC) as TT. destruct d' as [c' n']. cbn in *. congruence.
Qed.

(** ** Changing the limit while decoding *)

(** The part of the invariant that does not speak about the limit.  [B] is what
    holds in case of undefined behaviour. *)
Inductive lok (B : Prop) (O y : list Z) : dec -> Prop :=
| lok_start : forall d a, drel O d a -> aok a -> unplanned a -> (bad_in a y -> B) -> (let '(Dec c _) := d in d_total c = 0) ->
    match a with ADec k _ None => d_sizes k = None | _ => True end -> lok B O y d
| lok_win : forall ns ss pre c, core_ok ns ss c -> core_ok ns ss (full pre c) -> shiftable pre c -> d_started c = true ->
    d_out_pos c = zlen (d_target c) -> tot_inv (full pre c) -> lim_inv (full pre c) -> bytes_ok (d_unparsed c) -> has_planned c = false ->
    O = pre ++ d_target c ->
    (ns = 254 /\ ss = 0 -> B) -> lok B O y (Dec c None).

Lemma drel_lok : forall (B : Prop) O y d a, drel O d a -> aok a -> unplanned a -> (bad_in a y -> B) -> lok B O y d.
Proof.
  intros B O y d a DR OK UP NB. pose proof DR as DR0.
  destruct DR as [c ST S T OP|c nd an ST S T OP U H|ns ss pre c CO SH ST OP];
  inversion OK as [k0 u0 BO S0 BU HE E|k0 n0 ns1 ss1 BO S0 SO ON PN TN E|ns1 ss1 k0 u0 CO1 BU Q TI LI EX E]; subst.
  - eapply lok_start; eauto. apply (bo_total _ BO).
  - pose proof (co_sizes _ _ _ CO1) as X. cbn in X. congruence.
  - eapply lok_start; eauto. apply (bo_total _ BO). exact I.
  - pose proof (co_sizes _ _ _ CO) as X. cbn in S0. congruence.
  - pose proof (co_sizes _ _ _ CO1) as X1. pose proof (co_sizes _ _ _ CO) as X2. cbn in X1. rewrite X2 in X1. injection X1 as <- <-.
    eapply (lok_win _ _ _ ns ss pre); eauto. intros [-> ->]. apply NB. left. exact X2.
Qed.

Definition limit (d : dec) : Z := let '(Dec c _) := d in d_max_file c.
Definition promised (d : dec) : Z := let '(Dec c _) := d in d_total c.

Lemma full_limits : forall pre c n m b p, full pre (set_limits c n m b p) = set_limits (full pre c) n m b p.
Proof. reflexivity. Qed.

Lemma lok_out : forall B O y d, lok B O y d -> zlen O <= limit d /\ is_started d = true.
Proof.
  intros B O y d [d0 a DR OK UP NB TT SZ|ns ss pre c CO COF SH ST OP TI LI BU UP -> NB].
  - pose proof (drel_table _ _ _ DR OK) as TM. rewrite <- (drel_out _ _ _ DR).
    inversion DR as [c ST S T OP|c nd an ST S T OP U H|ns ss pre c CO SH ST OP]; subst; cbn in *.
    + rewrite T. cbn. rewrite zlen_nil. tauto.
    + rewrite T. cbn. rewrite zlen_nil. tauto.
    + pose proof (co_sizes _ _ _ CO). congruence.
  - cbn in *. destruct TI as (T0 & T1). destruct LI as (_ & _ & L & _). cbn in *. rewrite zlen_app in *.
    split; [|exact ST]. destruct (d_win c); lia.
Qed.

Lemma aheader_eod_any : forall k k' n u, d_sizes k = None -> d_sizes k' = None -> aheader k n u = Eod -> aheader k' n u = Eod.
Proof.
  intros k k' n u S S' H. unfold aheader in *. rewrite S in H. rewrite S'.
  destruct (check_magic u) as [[]| | |]; cbn [bind] in *; try discriminate; auto.
  destruct (Z.testbit _ 0); [discriminate|]. destruct (Z.testbit _ 1); [|discriminate].
  destruct (parse_cache_sizes _) as [[[ns ss] r]| | |]; cbn [bind] in *; try discriminate; auto.
Qed.

(** SetMaximumTargetFileSize keeps the invariant when the windows begun so far
    fit the new limit. *)
Lemma lok_limit : forall B O y d n, lok B O y d -> 0 <= n <= size_max -> promised d <= n -> lok B O y (fst (set_maximum_target_file_size d n)).
Proof.
  intros B O y d n [d0 a DR OK UP NB TT SZ|ns ss pre c CO COF SH ST OP TI LI BU UP -> NB] N P.
  - inversion DR as [c ST S T OP|c nd an ST S T OP U H|ns ss pre c CO SH ST OP]; subst; cbn [set_maximum_target_file_size fst].
    + inversion OK as [k0 u0 BO S0 BU HE E|k0 n0 ns1 ss1 BO S0 SO ON PN TN E|ns1 ss1 k0 u0 CO1 BU Q TI LI EX E]; subst;
        [|pose proof (co_sizes _ _ _ CO1) as X; cbn in X; congruence].
      match goal with |- lok _ _ _ (Dec ?cc None) => set (c2 := cc) end.
      apply (lok_start _ _ _ _ (ADec (full [] c2) (d_unparsed c2) None)); auto.
      * apply drel_start; auto.
      * apply aok_start; auto; [destruct BO; constructor; auto|]. exact (aheader_eod_any _ (full [] c2) _ _ S0 S0 HE).
    + inversion OK as [k0 u0 BO S0 BU HE E|k0 n0 ns1 ss1 BO S0 SO ON PN TN E|ns1 ss1 k0 u0 CO1 BU Q TI LI EX E]; subst.
      match goal with |- lok _ _ _ (Dec ?cc _) => set (c2 := cc) end.
      apply (lok_start _ _ _ _ (ADec (full [] c2) [] (Some an))); auto.
      * apply drel_nested; auto.
      * apply (aok_nested _ _ ns1 ss1); auto. destruct BO. constructor; auto.
    + pose proof (co_sizes _ _ _ CO). cbn in SZ. congruence.
  - cbn [set_maximum_target_file_size fst]. eapply (lok_win _ _ _ ns ss pre); auto.
    + destruct CO. constructor; auto.
    + destruct COF. constructor; auto.
    + cbn in P. destruct LI as (L1 & L2 & L3 & L4). split; [exact N|]. split; [exact L2|]. split; [exact P|exact L4].
Qed.

Lemma lok_chunk : forall B O y d x, lok B O (x ++ y) d -> bytes_ok x ->
  match decode_chunk d x with
  | CRet d' true o => lok B (O ++ o) y d' /\ limit d' = limit d
  | CRet d' false o => zlen (O ++ o) <= limit d
  | CUB => B
  | CFuel => False
  end.
Proof.
  intros B O y d x [d0 a DR OK UP NB TT SZ|ns ss pre c CO COF SH ST OP TI LI BU UP -> NB] BX.
  - pose proof (decode_chunk_sim d0 x O a DR OK (unplanned_stopped a UP) BX) as M.
    assert (limit d0 = d_max_file (acore a)) as ->.
    { inversion DR; subst; reflexivity. }
    destruct (decode_chunk d0 x) as [d' [|] o| |]; auto.
    + destruct M as (a' & AC & DR'). pose proof (acr_ok _ _ _ AC OK (unplanned_stopped a UP) BX) as (OK' & PL & _).
      assert (unplanned a') as UP' by (unfold unplanned, has_planned in *; rewrite PL; exact UP).
      split.
      { eapply drel_lok; eauto. intros BA. apply NB. eapply acr_bad_in; eauto. apply unplanned_stopped. exact UP. }
      pose proof (acr_cfg _ _ _ AC a' eq_refl OK (unplanned_stopped a UP) BX) as (_ & E & _). rewrite <- E.
      inversion DR'; subst; reflexivity.
    + tauto.
    + apply NB. apply bad_in_app. exact (acr_ok _ _ _ M OK (unplanned_stopped a UP) BX).
  - assert (bytes_ok (d_unparsed c ++ x)) as BUX by (apply bytes_ok_app; auto).
    unfold decode_chunk. destruct (chunk_fuel_pos (Dec c None) x) as [f ->]. cbn [decode_chunk_fuel]. rewrite ST. cbn [negb].
    unfold read_file_header. rewrite (co_sizes _ _ _ CO).
    destruct (chunk_windows_sim ns ss c (d_unparsed c ++ x) pre (pre ++ d_target c) CO COF TI LI SH BUX eq_refl OP ST) as (r & R & M).
    assert (~ stopped (full pre c)) as NS.
    { intros [_ X]. unfold reached_planned in X. change (has_planned (full pre c)) with (has_planned c) in X. rewrite UP in X. discriminate. }
    destruct (chunk_windows c (d_unparsed c ++ x)) as [d' [|] o| |]; auto.
    + destruct M as (a' & CR & D).
      pose proof (arun_ok _ _ _ R ns ss COF BUX NS) as A. pose proof (arun_tot _ _ _ R ns ss COF BUX TI LI) as TT.
      assert (exists k2 u2, a' = ADec k2 u2 None /\ core_ok ns ss k2 /\ cstep (full pre c) k2 /\ tot_inv k2 /\ lim_inv k2 /\ bytes_ok u2) as (k2 & u2 & -> & CO2 & CS2 & T2 & L2 & BU2).
      { destruct r as [[k2 u2]|[k2 u2]| | |]; try discriminate; cbn in CR; injection CR as <-; exists k2, u2; tauto. }
      assert (limit d' = d_max_file k2 /\ has_planned k2 = has_planned c) as [LE HP].
      { split; [inversion D; subst; reflexivity|]. apply cstep_planned in CS2 as [-> _]. reflexivity. }
      split.
      * inversion D as [c3 ST3 S3 T3 OP3|c3 nd an ST3 S3 T3 OP3 U3 H3|ns3 ss3 pre3 c3 CO3 SH3 ST3 OP3]; subst.
        -- pose proof (co_sizes _ _ _ CO2) as X. cbn in X. congruence.
        -- assert (ns3 = ns /\ ss3 = ss) as [-> ->].
           { pose proof (co_sizes _ _ _ CO3) as X1. pose proof (co_sizes _ _ _ CO2) as X2. cbn in X2. rewrite X1 in X2. injection X2 as <- <-. auto. }
           apply (lok_win _ _ _ ns ss pre3); auto. change (has_planned c3) with (has_planned (full pre3 c3)). congruence.
      * rewrite LE. destruct CS2 as (b1 & b2 & b3 & b4 & ->). reflexivity.
    + cbn [limit]. tauto.
    + apply NB. pose proof (arun_ok _ _ _ R ns ss COF BUX NS) as A.
      destruct r as [[k2 u2]|[k2 u2]| | |]; try discriminate M; [exact A|destruct A].
Qed.

Lemma lok_chunks : forall B chunks O y d, lok B O (concat chunks ++ y) d -> Forall bytes_ok chunks ->
  match decode_chunks d chunks O with
  | Some (d', true, O') => lok B O' y d' /\ limit d' = limit d
  | Some (d', false, O') => zlen O' <= limit d
  | None => B
  end.
Proof.
  intros B. induction chunks as [|x tl IH]; intros O y d L F; [cbn; auto|]. inversion F; subst. cbn [decode_chunks].
  cbn [concat] in L. rewrite <- app_assoc in L. pose proof (lok_chunk B O _ d x L ltac:(auto)) as M.
  destruct (decode_chunk d x) as [d' [|] o| |]; auto; [|contradiction].
  destruct M as [L' E']. rewrite <- E'. apply IH; auto.
Qed.

Theorem limit_change : forall d dict chunks1 chunks2 d1 out1 n, idle d -> bytes_ok dict -> Forall bytes_ok chunks1 -> Forall bytes_ok chunks2 ->
  decode_chunks (start_decoding d dict) chunks1 [] = Some (d1, true, out1) ->
  0 <= n <= size_max -> promised d1 <= n ->
  match decode_chunks (fst (set_maximum_target_file_size d1 n)) chunks2 out1 with
  | Some (d2, ok, out2) => zlen out2 <= n
  | None => bad_cache (concat chunks1 ++ concat chunks2)
  end.
Proof.
  intros d dict chunks1 chunks2 d1 out1 n ID BD F1 F2 D1 N P.
  destruct (start_ok d dict (idle_ready d ID) BD) as (DR & OK & UP & MF).
  assert (lok (bad_cache (concat chunks1 ++ concat chunks2)) [] (concat chunks1 ++ concat chunks2) (start_decoding d dict)) as L0.
  { eapply drel_lok; eauto. intros B. eapply start_bad_in; eauto. }
  pose proof (lok_chunks _ chunks1 [] _ _ L0 F1) as M. rewrite D1 in M. destruct M as [L1 _].
  rewrite <- (app_nil_r (concat chunks2)) in L1 at 2. pose proof (lok_limit _ _ _ _ n L1 N P) as L2.
  pose proof (lok_chunks _ chunks2 _ _ _ L2 F2) as M2.
  assert (limit (fst (set_maximum_target_file_size d1 n)) = n) as LN by (destruct d1; reflexivity).
  destruct (decode_chunks _ chunks2 out1) as [[[d2 [|]] out2]|]; [| |exact M2].
  - destruct M2 as [L3 E3]. destruct (lok_out _ _ _ _ L3) as [Z _]. lia.
  - lia.
Qed.
