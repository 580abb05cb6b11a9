(** A complete window is decoded or rejected at once, or it is stalled. *)

From Verif Require Import Base ListFacts Spec SpecBegun SpecStalled Varint VarintFacts AddrCache AddrCacheFacts CodeTable CodeTableFacts
  InstructionMap DecodeTable HeaderParser Adler AdlerFacts Decoder CopyFacts BodyFacts BodyExt WindowExt
  WindowHeader WindowStep WindowFacts Refine Totals Abstract FileHeader Chunk Sim Stream Session Reuse Usable Sound Complete Truncate Unique Files SpecParts
  Fields Output OutputFacts Chunked OutputCalls Count Kept BegunFacts FailedFacts Prompt.
From Coq Require Import ZifyBool ZifyNat.

Lemma declares_not_eod : forall c hd D y, bytes_ok (hd ++ y) -> declares (allow_extensions c) hd D -> header_fields c (hd ++ y) <> Eod.
Proof.
  intros c hd D y B DC. destruct DC as [ind sb bd dl bt tl di bnd nd bni ni bna na bcks o SF VD VT VND VNI VNA CB].
  rewrite <- !app_assoc in *. unfold header_fields. apply bytes_ok_app in B as [_ B].
  set (r := bd ++ bt ++ [di] ++ bnd ++ bni ++ bna ++ bcks ++ y) in *.
  assert (parse_win_indicator (zlen (d_dict c)) (zlen (d_target c)) (d_allow c) ([ind] ++ sb ++ r) = Err \/
    exists kind len pos, parse_win_indicator (zlen (d_dict c)) (zlen (d_target c)) (d_allow c) ([ind] ++ sb ++ r) = Ok (ind, kind, len, pos, r)) as PW.
  { unfold parse_win_indicator. cbn [app parse_byte bind]. unfold segment_fields in SF.
    assert (forall n b1 b2 len pos, bytes_ok ((b1 ++ b2) ++ r) -> varint b1 len -> varint b2 pos ->
      parse_source_segment n ((b1 ++ b2) ++ r) = Err \/ parse_source_segment n ((b1 ++ b2) ++ r) = Ok (len, pos, r)) as PS.
    { intros n b1 b2 len pos B' V1 V2. unfold parse_source_segment. rewrite <- app_assoc in *. unfold parse_size.
      destruct (parse_cases I32 b1 len (b2 ++ r) type_ok_I32 B' V1) as [-> | ->]; cbn [bind]; [|auto].
      destruct (_ <? _); [auto|]. apply bytes_ok_app in B' as [_ B'].
      destruct (parse_cases I32 b2 pos r type_ok_I32 B' V2) as [-> | ->]; cbn [bind]; [|auto].
      destruct (_ && _); [auto|]. destruct (_ <? _); auto. }
    destruct (Z.testbit ind 0) eqn:T0, (Z.testbit ind 1) eqn:T1; cbn [orb] in SF.
    - left. reflexivity.
    - destruct SF as (b1 & len & b2 & pos & -> & V1 & V2). destruct (PS (zlen (d_dict c)) _ _ _ _ B V1 V2) as [-> | ->]; cbn [bind]; eauto.
    - destruct SF as (b1 & len & b2 & pos & -> & V1 & V2). destruct (d_allow c); cbn [negb]; [|auto].
      destruct (PS (zlen (d_target c)) _ _ _ _ B V1 V2) as [-> | ->]; cbn [bind]; eauto.
    - subst sb. right. cbn [app]. eauto. }
  destruct PW as [-> | (kind & len & pos & ->)]; cbn [bind]; [discriminate|]. unfold r in *. clear r.
  apply bytes_ok_app in B as [_ B]. unfold parse_size at 1.
  destruct (parse_cases I32 bd dl _ type_ok_I32 B VD) as [-> | ->]; cbn [bind]; [|discriminate]. apply bytes_ok_app in B as [_ B].
  unfold parse_size at 1.
  destruct (parse_cases I32 bt tl _ type_ok_I32 B VT) as [-> | ->]; cbn [bind]; [|discriminate]. apply bytes_ok_app in B as [_ B].
  destruct (would_exceed c tl); [discriminate|]. unfold parse_delta_indicator. cbn [app parse_byte bind].
  destruct (_ =? 0); cbn [bind]; [|discriminate]. apply bytes_ok_cons in B as [_ B].
  unfold parse_section_lengths, parse_size.
  destruct (parse_cases I32 bnd nd _ type_ok_I32 B VND) as [-> | ->]; cbn [bind]; [|discriminate]. apply bytes_ok_app in B as [_ B].
  destruct (parse_cases I32 bni ni _ type_ok_I32 B VNI) as [-> | ->]; cbn [bind]; [|discriminate]. apply bytes_ok_app in B as [_ B].
  destruct (parse_cases I32 bna na _ type_ok_I32 B VNA) as [-> | ->]; cbn [bind]; [|discriminate]. apply bytes_ok_app in B as [_ B].
  unfold checksum_bytes in CB. destruct (allow_extensions c && Z.testbit ind 2).
  - destruct CB as (v & _ & V). unfold parse_checksum.
    destruct (parse_cases I64 bcks v _ type_ok_I64 B V) as [-> | ->]; cbn [bind]; [|discriminate].
    destruct (_ <? v); cbn [bind]; [discriminate|]. destruct (_ =? _); discriminate.
  - cbn [bind]. destruct (_ =? _); discriminate.
Qed.

Lemma rel_declares : forall c ns ss kind seglen pos tl nd ni na cks has hdr seg l hd D y,
  header_rel c ns ss (kind, seglen, pos, tl, nd, ni, na, cks, has) hdr seg -> declares (allow_extensions c) hd D -> hdr ++ l = hd ++ y ->
  hdr = hd /\ l = y /\ nd = h_data_len D /\ ni = h_inst_len D /\ na = h_addr_len D.
Proof.
  intros c ns ss kind seglen pos tl nd ni na cks has hdr seg l hd D y HR DC E.
  destruct HR as (ind & sb & bd & dl & bt & di & bnd & bni & bna & bcks & -> & _ & SG & _ & _ & VD & _ & VT & _ & _ & _ & _ & VND & _ & VNI & _ & VNA & _ & HC & CK & _).
  destruct DC as [ind' sb' bd' dl' bt' tl' di' bnd' nd' bni' ni' bna' na' bck' o SF VD' VT' VND' VNI' VNA' CB].
  cbn [h_data_len h_inst_len h_addr_len].
  rewrite <- !app_assoc in E. cbn [app] in E. injection E as <- E.
  assert (sb = sb' /\ bd ++ bt ++ di :: bnd ++ bni ++ bna ++ bcks ++ l = bd' ++ bt' ++ di' :: bnd' ++ bni' ++ bna' ++ bck' ++ y) as (<- & E1).
  { unfold segment_fields in SF.
    inversion SG as [Z0 Z1|b1 b2 len ps s0 Z0 Z1 V1 V2 SL|b1 b2 len ps s0 Z0 Z1 FT V1 V2 SL]; subst; rewrite Z0, Z1 in SF; cbn [orb] in SF.
    - subst sb'. split; [reflexivity|exact E].
    - destruct SF as (c1 & l' & c2 & p' & -> & U1 & U2). rewrite <- !app_assoc in E.
      destruct (varint_inj _ _ _ _ _ _ V1 U1 E) as (-> & -> & E').
      destruct (varint_inj _ _ _ _ _ _ V2 U2 E') as (-> & -> & E2). auto.
    - destruct SF as (c1 & l' & c2 & p' & -> & U1 & U2). rewrite <- !app_assoc in E.
      destruct (varint_inj _ _ _ _ _ _ V1 U1 E) as (-> & -> & E').
      destruct (varint_inj _ _ _ _ _ _ V2 U2 E') as (-> & -> & E2). auto. }
  clear E. destruct (varint_inj _ _ _ _ _ _ VD VD' E1) as (<- & <- & E). clear E1.
  destruct (varint_inj _ _ _ _ _ _ VT VT' E) as (<- & TL & E1). clear E. injection E1 as <- E1.
  destruct (varint_inj _ _ _ _ _ _ VND VND' E1) as (<- & <- & E). clear E1.
  destruct (varint_inj _ _ _ _ _ _ VNI VNI' E) as (<- & <- & E1). clear E.
  destruct (varint_inj _ _ _ _ _ _ VNA VNA' E1) as (<- & <- & E). clear E1.
  assert (bcks = bck' /\ l = y) as (<- & <-); [|auto].
  unfold checksum_bytes in CB. rewrite <- HC in CB. destruct has.
  - destruct CB as (x & _ & V), CK as [V' _]. destruct (varint_inj _ _ _ _ _ _ V' V E) as (-> & _ & ->). auto.
  - destruct CB as [-> _], CK as [-> _]. auto.
Qed.

(** As [FailedFacts.il_begun]; there are bytes of the section left. *)
Lemma il_left : forall c ns ss fd hdr seg ca total l c1 u1 m, core_ok ns ss c -> d_win c = None -> bytes_ok l ->
  header_rel c ns ss fd hdr seg -> fields_il c fd = true -> cache_init ns ss = Some ca ->
  finish_il c total (fields_window c fd ca) l = XEod (c1, u1) -> d_target c1 = d_target c ++ m ->
  exists b rest, l = b ++ rest /\ zlen b < w_expected (fields_window c fd ca) /\
    begun_window (fmt c ns ss) (d_dict c) (d_target c) (hdr ++ b) (w_len (fields_window c fd ca)) m.
Proof.
  intros c ns ss fd hdr seg ca total l c1 u1 m CO DW BL HR IL CI FI EM.
  pose proof (co_table _ _ _ CO) as TO. pose proof (co_win _ _ _ CO) as CW. rewrite DW in CW.
  destruct (cache_init_like ns ss ca (co_ns _ _ _ CO) (co_ss _ _ _ CO) CI) as (CR & NS & SS).
  set (w := fields_window c fd ca) in *.
  rewrite finish_il_eq in FI. rewrite CW in FI.
  assert (BI : binv (d_dict c) (d_table c) w (d_target c) seg (il_state w (d_target c) l) [] []).
  { replace (il_state w (d_target c) l) with
      {| b_il := true; b_inst := ztake (w_expected w) l; b_data := []; b_addr := [];
         b_pending := None; b_cache := ca; b_target := d_target c |}.
    2:{ unfold w. destruct fd as [[[[[[[[kind seglen] pos] tl] nd] ni] na] cks] has]. reflexivity. }
    eapply binv_init; eauto; try constructor; auto. apply bytes_ok_ztake. auto. }
  unfold loop in FI.
  destruct (body_loop _ _ _ _ _ (il_state w (d_target c) l)) as [st'|st'| | |] eqn:LOOP; try discriminate FI.
  { destruct (_ && _) in FI; [discriminate FI|]. destruct (_ && _) in FI; discriminate FI. }
  cbv zeta in FI. destruct (Z.ltb_spec 0 (w_expected w - (zlen (ztake (w_expected w) l) - zlen (b_inst st')))) as [LT|] in FI; [|discriminate FI].
  assert (d_target c1 = b_target st') as ET.
  { replace c1 with (fst (c1, u1)) by reflexivity.
    match goal with H : XEod ?x = XEod (c1, u1) |- _ => replace (c1, u1) with x by congruence end. reflexivity. }
  destruct (body_loop_begins _ _ _ _ _ _ _ _ _ _ TO BI eq_refl LOOP) as (h' & T' & b & I1 & I2 & I3 & I4).
  assert (m = T') as -> by (apply (app_inv_head (d_target c)); congruence).
  assert (w_pending w = None) as PN by (unfold w; destruct fd as [[[[[[[[kind seglen] pos] tl] nd] ni] na] cks] has]; reflexivity).
  cbn [il_state b_pending b_cache b_inst] in I3, I4. rewrite PN in I4.
  pose proof (fields_window_cache c fd ca) as WC. fold w in WC. rewrite WC, NS, SS in I4.
  exists b, (b_inst st' ++ zdrop (w_expected w) l). split.
  { rewrite app_assoc, <- I3, ztake_zdrop. reflexivity. }
  assert (zlen b < w_expected w) as ZB.
  { apply (f_equal zlen) in I3. rewrite zlen_app in I3. lia. }
  split; [exact ZB|].
  pose proof (interleaved_iff c ns ss fd) as II. unfold w in *. clear w.
  destruct fd as [[[[[[[[kind seglen] pos] tl] nd] ni] na] cks] has].
  destruct HR as (ind & sb & bd & dl & bt & di & bnd & bni & bna & bcks & -> & BIN & SG & KO & SLM & VD & LD & VT & LTL & WE & BDI & DI & VND & LND & VNI & LNI & VNA & LNA & HC & CKF & DL).
  pose proof (varint_nonneg _ _ VNI) as N0. cbn [fields_window w_len w_expected] in *. rewrite IL in ZB.
  apply II in IL as (EX & -> & ->). cbn [fmt f_ext] in EX.
  rewrite <- !app_assoc.
  refine (begun_window_intro (fmt c ns ss) (d_dict c) (d_target c) ind sb seg bd dl bt tl di bnd bni ni bna bcks (if has then Some cks else None) b h' T' EX BIN SG VD VT BDI DI VND VNI VNA _ _ _ I4 I2).
  - unfold checksum_bytes. rewrite EX in HC. cbn [andb] in *. rewrite <- HC. destruct has.
    + exists cks. split; [reflexivity|]. apply CKF.
    + split; [apply CKF|reflexivity].
  - lia.
  - lia.
Qed.

(** A window whose declared bytes are all there is not waited for, except if it is stalled. *)
Lemma decode_window_late : forall k ns ss c1 u1 m hd D body rest, core_ok ns ss k -> d_win k = None -> bytes_ok (hd ++ body ++ rest) ->
  decode_window k (hd ++ body ++ rest) = XEod (c1, u1) -> d_target c1 = d_target k ++ m ->
  declares (allow_extensions k) hd D -> zlen body = h_data_len D + h_inst_len D + h_addr_len D ->
  stalled (fmt k ns ss) (d_dict k) (d_target k) (hd ++ body) m.
Proof.
  intros k ns ss c1 u1 m hd D body rest CO WN BZ DW EM DC ZB. pose proof DW as DW0.
  rewrite (decode_window_none k ns ss) in DW by (auto; apply CO).
  destruct (header_fields k (hd ++ body ++ rest)) as [[fd l]| | |] eqn:HF; try discriminate DW.
  2:{ destruct (declares_not_eod k hd D _ BZ DC HF). }
  destruct (header_sound k ns ss _ fd l BZ HF) as (hdr & seg0 & ED & HR & BL). symmetry in ED.
  pose proof (interleaved_iff k ns ss fd) as II.
  destruct fd as [[[[[[[[kind seglen] pos] tl] nd0] ni0] na0] cks] has].
  destruct (rel_declares _ _ _ _ _ _ _ _ _ _ _ _ _ _ _ _ _ _ HR DC ED) as (-> & -> & E1 & E2 & E3).
  destruct (fields_il _ _) eqn:IL.
  - cbn [negb andb] in DW. destruct (cache_init ns ss) as [ca|] eqn:CI; [|discriminate DW]. cbv zeta in DW.
    destruct (il_left k ns ss _ hd seg0 ca _ _ c1 u1 m CO WN BL HR IL CI DW EM) as (b & r & EB & ZL & BG).
    destruct (proj1 II eq_refl) as (EX & N1 & N2). cbn [fields_window w_expected] in ZL. rewrite IL in ZL.
    assert (zlen b < zlen body) as ZL' by lia.
    destruct (app_eq_app _ _ _ _ EB) as (x & [[-> ->]|[-> ->]]).
    + exists (hd ++ b), x, (w_len (fields_window k (kind, seglen, pos, tl, nd0, ni0, na0, cks, has) ca)).
      rewrite zlen_app in ZL'. split; [rewrite <- app_assoc; reflexivity|]. split; [intros ->; rewrite zlen_nil in ZL'; lia|]. split; [exact BG|].
      intros b' r' L' m' EW BW.
      assert (Unique.same_format (fmt k ns ss) (fmt k ns ss)) as SF.
      { split; [reflexivity|]. split; [apply CO|]. auto. }
      destruct (decode_window_prompt k ns ss _ c1 u1 _ CO WN BZ DW0 SF) as [_ P].
      destruct (P b' (r' ++ rest) L' m') as (e & P1).
      { rewrite app_assoc, EW, <- app_assoc. reflexivity. }
      { exact BW. }
      exists e. apply (app_inv_head (d_target k)). congruence.
    + rewrite zlen_app in ZL'. pose proof (zlen_nonneg _ x). lia.
  - exfalso. cbn [negb andb] in DW. cbn [fields_total] in DW.
    destruct (Z.ltb_spec (zlen (body ++ rest)) (nd0 + ni0 + na0)) as [LT|_].
    { rewrite zlen_app in LT. pose proof (zlen_nonneg _ rest). lia. }
    destruct (cache_init ns ss) as [ca|] eqn:CI; [|discriminate DW]. cbv zeta in DW.
    match type of DW with finish_window _ ?total _ _ _ ?after = _ =>
      pose proof (finish_std k ns ss _ hd seg0 ca total (body ++ rest) after CO WN HR CI BL) as FS end.
    rewrite DW in FS. exact FS.
Qed.

(** The data of a window complete by its own fields. *)
Definition complete_window (ext : bool) (z hd body rest : list Z) : Prop :=
  z = hd ++ body ++ rest /\ exists D, declares ext hd D /\ zlen body = h_data_len D + h_inst_len D + h_addr_len D.

Lemma complete_ne : forall ext z hd body rest, complete_window ext z hd body rest -> z <> [].
Proof. intros ext z hd body rest (-> & D & DC & _). destruct DC. discriminate. Qed.

Lemma wcame_late : forall k0 ns ss W Ts k u, wcame k0 ns ss W Ts k u -> ~ stopped k ->
  exists ws z m, W = ws ++ z /\ windows_parts lax lax (fmt k0 ns ss) (d_dict k0) (limits k0) (d_target k0) ws Ts /\
    d_target k = d_target k0 ++ concat Ts ++ m /\
    (forall f, Unique.same_format (fmt k0 ns ss) f -> exhausted f (d_dict k0) (d_target k0 ++ concat Ts) z m) /\
    forall hd body rest, complete_window (allow_extensions k0) z hd body rest ->
      stalled (fmt k0 ns ss) (d_dict k0) (d_target k0 ++ concat Ts) (hd ++ body) m.
Proof.
  intros k0 ns ss W Ts k u (ks & ws & z & -> & AW & BZ & ALT) NS.
  pose proof (aw_means _ _ _ _ _ _ AW) as WS. pose proof (aw_target _ _ _ _ _ _ AW) as TG.
  destruct ALT as [(_ & <- & ST)|[(_ & -> & _ & ->)|(NSK & _ & [c1 u1] & DW & SR)]]; [contradiction| |].
  - exists ws, [], []. rewrite !app_nil_r. split; [reflexivity|]. split; [exact WS|]. split; [exact TG|]. split; [intros; apply exhausted_nil|].
    intros hd body rest C. destruct (complete_ne _ _ _ _ _ C eq_refl).
  - assert (d_target k = d_target c1) as ETG.
    { destruct SR as [E|(w & nops & _ & _ & _ & _ & E)]; [congruence|]. cbn [fst snd] in E.
      assert (c1 = set_win k (Some (next_win w (w_expected w + zlen nops) None (w_cache w))) (d_start k) (d_target k) (d_total k)) as -> by congruence.
      reflexivity. }
    rewrite ETG. pose proof (aw_core _ _ _ _ _ _ AW) as CO.
    pose proof (decode_window_step ks ns ss z [] CO BZ ltac:(constructor)) as STP. rewrite DW in STP.
    destruct STP as (_ & CS & _). destruct (cstep_out _ _ CS) as (_ & (m & EM) & _).
    exists ws, z, m. rewrite EM. split; [reflexivity|]. split; [exact WS|]. split; [rewrite TG, app_assoc; reflexivity|].
    destruct (aw_step _ _ _ _ _ _ AW) as (w0 & s0 & m0 & t0 & EK). rewrite <- TG.
    replace (fmt k0 ns ss) with (fmt ks ns ss) by (rewrite EK; reflexivity).
    replace (d_dict k0) with (d_dict ks) by (rewrite EK; reflexivity).
    replace (allow_extensions k0) with (allow_extensions ks) by (rewrite EK; reflexivity).
    split.
    + intros f SF. destruct (decode_window_prompt ks ns ss z c1 u1 f CO (aw_win _ _ _ _ _ _ AW) BZ DW SF) as [P1 P2].
      split; [exact P1|]. intros w rest L m' E B. destruct (P2 w rest L m' E B) as (e & T1). exists e.
      apply (app_inv_head (d_target ks)). congruence.
    + intros hd body rest (-> & D & DC & ZB). exact (decode_window_late ks ns ss c1 u1 m hd D body rest CO (aw_win _ _ _ _ _ _ AW) BZ DW EM DC ZB).
Qed.

(** Where the windows of two parses of the same bytes end. *)
Lemma parts_align : forall t tl f dict ok prev ws Ts, windows_parts t tl f dict ok prev ws Ts ->
  forall t' tl' f' ok' ws' Ts' z z', Unique.same_format f f' -> windows_parts t' tl' f' dict ok' prev ws' Ts' -> ws ++ z = ws' ++ z' ->
  (ws = ws' /\ Ts = Ts' /\ z = z') \/
  (exists t1 w T r, z' = w ++ r /\ Spec.window t1 f dict (prev ++ concat Ts') w T /\ ok (prev ++ concat Ts') T /\ (t1 = t \/ t1 = tl)) \/
  (exists t1 w T r, z = w ++ r /\ Spec.window t1 f' dict (prev ++ concat Ts) w T).
Proof.
  induction 1 as [prev|prev w T rest Ts W K R IH]; intros t' tl' f' ok' ws' Ts' z z' SF WP' E.
  - inversion WP' as [prev0|prev0 w' T' rest' Ts0 W' K' R']; subst; cbn [concat app] in *.
    + left. auto.
    + right. right. rewrite app_nil_r. eexists _, w', T', (rest' ++ z'). rewrite E, <- app_assoc. split; [reflexivity|exact W'].
  - inversion WP' as [prev0|prev0 w' T' rest' Ts0 W' K' R']; subst; cbn [concat app] in *.
    + right. left. rewrite app_nil_r. eexists _, w, T, (rest ++ z). rewrite <- E, <- app_assoc. split; [reflexivity|]. split; [exact W|]. split; [exact K|].
      destruct rest; auto.
    + rewrite <- !app_assoc in E. destruct (window_inj _ _ _ _ _ _ _ _ _ _ _ _ SF W W' E) as (-> & -> & E').
      rewrite !app_assoc. destruct (IH _ _ _ _ _ _ _ _ SF R' E') as [(-> & -> & ->)|[A|A]]; auto.
Qed.

(** A window at the beginning of the bytes of a complete window. *)
Lemma complete_covers : forall t f dict prev w T r z hd body rest, Spec.window t f dict prev w T -> z = w ++ r ->
  complete_window (f_ext f) z hd body rest -> exists w2, hd ++ body = w ++ w2 /\ (f_ext f = false -> w2 = []).
Proof.
  intros t f dict prev w T r z hd body rest W EZ (E & D & DC & ZB). rewrite EZ in E.
  destruct (window_declares _ _ _ _ _ _ _ _ _ _ W E DC) as (_ & _ & _ & _ & seg & items & hist & bd & EB & LA & _).
  assert (zlen bd <= zlen body /\ (f_ext f = false -> zlen bd = zlen body)) as [LE EQ].
  { pose proof (zlen_nonneg _ body). pose proof (zlen_nonneg _ bd).
    destruct LA as [((EX & N1 & N2) & _ & NI)|(_ & D1 & D2 & D3 & ->)].
    - split; [destruct NI as [NI|[_ NI]]; lia|congruence].
    - rewrite !zlen_app. lia. }
  assert (w = hd ++ bd) as ->.
  { apply (app_inv_tail r). rewrite <- app_assoc, E, EB. reflexivity. }
  destruct (app_eq_app _ _ _ _ EB) as (x & [[-> ->]|[-> ->]]).
  - exists x. split; [rewrite app_assoc; reflexivity|]. intros N. specialize (EQ N). rewrite zlen_app in EQ. apply zlen_0_nil. lia.
  - rewrite zlen_app in LE. assert (x = []) as -> by (apply zlen_0_nil; pose proof (zlen_nonneg _ x); lia).
    exists []. rewrite !app_nil_r. auto.
Qed.

(** A complete header has been read. *)
Lemma came_header : forall k a X Ts, came k a X Ts -> aok a -> d_sizes k = None -> base_ok k ->
  forall t tl h v tbl ns ss y, X = h ++ y -> head t tl h v tbl ns ss ->
  exists k1 k2 u, a = ADec k2 u None /\ base_ok k1 /\ d_sizes k1 = Some (ns, ss) /\ same_table (entry (d_table k1)) tbl /\ d_version k1 = v /\
    d_allow k1 = d_allow k /\ d_dict k1 = d_dict k /\ limits k1 = limits k /\ wcame k1 ns ss y Ts k2 u.
Proof.
  intros k a X Ts [u|v ind p ns q ss kt nd X' Tn V BI I0 I1 VP VQ LN LS SO EK C|h v tbl ns ss k1 W Ts' k2 u HD SO BO S ST EV EA ED EL WC]
    OK S0 BOK t tl h' v' tbl' ns' ss' y EX HD'.
  - exfalso. inversion OK as [k0 u0 BO0 S1 BU HE E|k0 n0 ns1 ss1 BO0 S1 SO1 ON PN TN E|ns1 ss1 k0 u0 CO BU Q TI LI EX' E]; subst.
    2:{ rewrite (co_sizes _ _ _ CO) in S0. discriminate S0. }
    inversion HD' as [v0 ind V BI I0 I1 E1|v0 ind b1 n1 b2 s1 h2 v2 tbl2 ns2 ss2 ws2 s tbl0 V BI I0 I1 VN VS NSL SSL]; subst.
    + change (file_header v' ind ++ y) with (hd5 v' ind y) in HE. rewrite aheader_hd5, I0, I1 in HE by auto. discriminate HE.
    + rewrite <- !app_assoc in HE. change (file_header v' ind ++ b1 ++ b2 ++ h2 ++ ws2 ++ y) with (hd5 v' ind (b1 ++ b2 ++ h2 ++ ws2 ++ y)) in HE.
      rewrite aheader_hd5, I0, I1, parse_cache_sizes_ok with (ns := ns') (ss := ss') in HE by auto. discriminate HE.
  - exfalso. inversion HD' as [v0 ind' V' BI' I0' I1' E1|v0 ind' b1 n1 b2 s1 h2 v2 tbl2 ns2 ss2 ws2 s tbl0 V' BI' I0' I1' VN VS NSL SSL HD2 MF2 WS2 LS2]; subst.
    { unfold file_header in EX. cbn [app] in EX. assert (ind = ind') by congruence. congruence. }
    rewrite <- !app_assoc in EX. unfold file_header in EX. cbn [app] in EX.
    assert (p ++ q ++ X' = b1 ++ b2 ++ h2 ++ ws2 ++ y) as E by congruence.
    destruct (varint_inj _ _ _ _ _ _ VP VN E) as (_ & _ & E2). destruct (varint_inj _ _ _ _ _ _ VQ VS E2) as (_ & _ & E3). clear E E2.
    inversion OK as [|k0 n0 ns1 ss1 BO0 S1 SO1 ON PN TN E|]; subst.
    destruct (parts_of_windows _ _ _ _ _ _ _ _ WS2) as (Tn2 & WP2 & ->). cbn [app] in LS2.
    destruct a_table_fields as (kt' & EKT & KS & KB & KT & KAL & KD & KW & KF & KP).
    assert (kt' = kt) as -> by congruence. rewrite <- KD in WP2.
    assert (~ stopped (acore nd)) as NSN by (intros STN; apply (proj1 (aok_stopped nd ON PN)) in STN; lia).
    destruct (came_prompt _ _ _ _ C ON NSN KS KB _ _ _ _ _ _ h2 v2 tbl2 ns2 ss2 ws2 y Tn2 [] eq_refl HD2 WP2 ltac:(left; reflexivity)) as (e & TE).
    rewrite TE, app_nil_r, zlen_app in TN. pose proof (zlen_nonneg _ e). lia.
  - destruct (head_inj _ _ _ _ _ _ _ HD _ _ _ _ _ _ _ _ _ HD' EX) as (_ & <- & <- & <- & <- & <-).
    exists k1, k2, u. auto 10.
Qed.

Lemma begun_same : forall f f' dict prev w L m, Sound.same_format f f' -> begun_window f dict prev w L m -> begun_window f' dict prev w L m.
Proof.
  intros f f' dict prev w L m SF W. destruct SF as (Q1 & Q2 & Q3 & Q4 & Q5).
  inversion W as [ind sb seg bd dl bt L0 di bnd bni ni bna bcks cks body hist m0 EX BI SG VD VT BDI DI VND VNI VNA CF DL ZB BG LT]; subst w L0 m0.
  refine (begun_window_intro f' dict prev ind sb seg bd dl bt L di bnd bni ni bna bcks cks body hist m _ BI _ VD VT BDI DI VND VNI VNA CF DL ZB _ LT); [congruence| |].
  - inversion SG; subst; [constructor|econstructor|eapply seg_target]; eauto; congruence.
  - rewrite <- Q3, <- Q4. eapply begins_table; [|exact BG]. intros op O. apply Q2. exact O.
Qed.

Lemma chunks_in_time : forall d dict chunks d' out, idle_plain d -> bytes_ok dict -> Forall bytes_ok chunks ->
  decode_chunks (start_decoding d dict) chunks [] = Some (d', true, out) ->
  forall t tl t' tl' ok allow h v tbl ns ss ws hd body rest Ts D, concat chunks = h ++ ws ++ hd ++ body ++ rest -> head t tl h v tbl ns ss ->
    windows_parts t' tl' (file_format v tbl ns ss allow) dict ok [] ws Ts ->
    declares (v =? 83) hd D -> zlen body = h_data_len D + h_inst_len D + h_addr_len D ->
    (exists w1 w2 T, hd ++ body = w1 ++ w2 /\ (v <> 83 -> w2 = []) /\
       Spec.window lax (file_format v tbl ns ss (target_allowed d)) dict (concat Ts) w1 T /\ admits d (concat Ts) T) \/
    exists m, stalled (file_format v tbl ns ss (target_allowed d)) dict (concat Ts) (hd ++ body) m /\ out = concat Ts ++ m.
Proof.
  intros d dict chunks d' out IP BD F DC t tl t' tl' ok allow h v tbl ns ss ws hd body rest Ts D EC HD WP DCL ZB.
  pose proof (idle_plain_idle d IP) as [ID _]. pose proof (idle_ready d ID) as RD.
  destruct (start_facts d dict IP BD) as (k & EA & S & BO & DT & DD & DA & UP & LM).
  destruct (start_ok d dict RD BD) as (DR0 & OK & U & _). rewrite EA in *.
  destruct (chunks_within chunks _ [] _ k [] [] [] d' out DR0 OK U (came_start k []) S BO DT ltac:(constructor) F DC)
      as (Ts0 & more & a & CM & DR & OKA & UA & EO & _). cbn [app] in *. subst more.
  destruct (came_header _ _ _ _ CM OKA S BO _ _ _ _ _ _ _ _ EC HD) as (k1 & k2 & u & -> & BO1 & S1 & ST & EV & EAL & EDI & ELM & WC).
  assert (~ stopped k2) as NS by (apply unplanned_stopped in UA; exact UA).
  destruct (wcame_late _ _ _ _ _ _ _ WC NS) as (ws0 & z & m & EW & WS & TG & EXH & LT).
  rewrite (bo_target _ BO1) in WS, TG, EXH, LT. cbn [app] in *. rewrite EDI, DD in WS, EXH, LT.
  pose proof (drel_out _ _ _ DR) as DO. cbn [acore] in DO.
  assert (Unique.same_format (fmt k1 ns ss) (file_format v tbl ns ss allow)) as SF.
  { pose proof (head_near _ _ _ _ _ _ _ HD) as HN. pose proof (fmt_file k1 ns ss tbl ST) as (Q1 & Q2 & Q3 & Q4 & _). rewrite EV in Q1.
    split; [cbn in *; congruence|split; [exact HN|split; [reflexivity|split; [reflexivity|]]]]. exact Q2. }
  assert (Sound.same_format (fmt k1 ns ss) (file_format v tbl ns ss (target_allowed d))) as SF2.
  { pose proof (fmt_file k1 ns ss tbl ST) as Q. rewrite EV, EAL, DA in Q. exact Q. }
  assert (allow_extensions k1 = (v =? 83)) as AE.
  { destruct SF2 as (Q & _). cbn in Q. exact Q. }
  assert (complete_window (v =? 83) (hd ++ body ++ rest) hd body rest) as CW by (split; [reflexivity|eauto]).
  destruct (parts_align _ _ _ _ _ _ _ _ WS _ _ _ _ _ _ _ _ SF WP (eq_sym EW)) as [(-> & -> & ->)|[(t1 & w & T & r & EZ & W & K & TT)|(t1 & w & T & r & EZ & W)]].
  - right. exists m. split; [|congruence]. rewrite AE in LT. destruct (LT hd body rest CW) as (b & r & L & E1 & RN & BG & MX).
    exists b, r, L. split; [exact E1|]. split; [exact RN|]. split; [eapply begun_same; eauto|].
    intros b' r' L' m' E' B'. apply (MX b' r' L' m' E'). eapply begun_same; [|exact B'].
    destruct SF2 as (Q1 & Q2 & Q3 & Q4 & Q5). split; [auto|]. split; [intros op O; symmetry; apply Q2; exact O|]. auto.
  - left. assert (Spec.window lax (file_format v tbl ns ss (target_allowed d)) dict (concat Ts) w T) as W'.
    { destruct TT as [-> | ->]; eapply window_ext; eauto. }
    destruct (complete_covers _ _ _ _ _ _ _ _ _ _ _ W' EZ CW) as (w2 & E2 & V2).
    exists w, w2, T. split; [exact E2|]. split.
    { intros NV. apply V2. cbn [file_format f_ext]. apply Z.eqb_neq. exact NV. }
    split; [exact W'|]. cbn [app] in K. rewrite ELM in K. apply LM. exact K.
  - exfalso. destruct (EXH _ SF) as [NW _]. exact (NW _ _ _ _ EZ W).
Qed.
