(** The input that a decoder keeps between two calls.

    At the end of a successful DecodeChunk the bytes that were not parsed are copied into
    unparsed_bytes_ (vcdecoder.cc 921-922); a decoder for a code table inside keeps its own. *)

From Verif Require Import Base ListFacts Spec Varint VarintFacts AddrCache AddrCacheFacts CodeTable CodeTableFacts
  InstructionMap DecodeTable HeaderParser Adler AdlerFacts Decoder CopyFacts BodyFacts BodyExt WindowExt
  WindowHeader WindowStep WindowFacts Refine Totals Abstract FileHeader Chunk Sim Stream Session Reuse Usable Sound Complete Truncate Unique Files SpecParts Output OutputFacts Chunked OutputCalls Count.
From Coq Require Import ZifyBool ZifyNat.

Fixpoint retained (d : dec) : list Z :=
  let '(Dec c n) := d in d_unparsed c ++ match n with Some nd => retained nd | None => [] end.

Lemma kept_waiting : forall d, waiting d = zlen (retained d).
Proof. fix IH 1. intros [c [nd|]]; cbn [waiting retained]; rewrite zlen_app; [rewrite IH; reflexivity|rewrite zlen_nil; lia]. Qed.

Lemma wcame_suffix : forall k0 ns ss W Ts k u, wcame k0 ns ss W Ts k u -> exists used, W = used ++ u.
Proof.
  intros k0 ns ss W Ts k u (ks & ws & z & -> & AW & BZ & ALT).
  assert (exists p, z = p ++ u) as (p & ->).
  { destruct ALT as [(-> & _)|[(_ & -> & -> & _)|(_ & _ & [c1 u1] & DW & SR)]]; [exists []; reflexivity|exists []; reflexivity|].
    pose proof (decode_window_step ks ns ss z [] (aw_core _ _ _ _ _ _ AW) BZ ltac:(constructor)) as STP. rewrite DW in STP.
    destruct STP as (_ & _ & _ & (used & ->) & _). destruct SR as [E|(w & nops & _ & _ & _ & _ & E)].
    - injection E as _ ->. exists used. reflexivity.
    - injection E as _ ->. cbn [snd]. exists (used ++ nops). rewrite app_assoc. reflexivity. }
  exists (ws ++ p). rewrite app_assoc. reflexivity.
Qed.

Lemma came_kept : forall k a X Ts, came k a X Ts -> forall O d, drel O d a -> exists used, X = used ++ retained d.
Proof.
  intros k a X Ts H. induction H as [k u|k v ind p ns q ss kt nd X Tn V BI I0 I1 VP VQ LN LS SO EK C IH|k h v tbl ns ss k1 W Ts k2 u HD SO BO S ST EV EA ED EL WC]; intros O d DR.
  - inversion DR as [c A1 A2 A3 A4 E1 E2 E3|c nd an A1 A2 A3 A4 A5 A6 E1 E2 E3|ns ss pre c A1 A2 A3 A4 E1 E2 E3]; subst; cbn [retained]; rewrite app_nil_r; exists []; reflexivity.
  - inversion DR as [|c nd0 an A1 A2 A3 A4 A5 A6 E1 E2 E3|]; subst. destruct (IH _ _ A6) as (used & ->). cbn [retained]. rewrite A5. cbn [app].
    exists (file_header (d_version c) ind ++ p ++ q ++ used). rewrite <- !app_assoc. reflexivity.
  - destruct (wcame_suffix _ _ _ _ _ _ _ WC) as (used & ->).
    exists (h ++ used). inversion DR as [c A1 A2 A3 A4 E1 E2 E3|c nd an A1 A2 A3 A4 A5 A6 E1 E2 E3|ns' ss' pre c A1 A2 A3 A4 E1 E2 E3]; subst; cbn [retained]; rewrite app_nil_r, app_assoc; reflexivity.
Qed.

Lemma chunks_came : forall d dict chunks d' out, idle_plain d -> bytes_ok dict -> Forall bytes_ok chunks ->
  decode_chunks (start_decoding d dict) chunks [] = Some (d', true, out) ->
  exists k a Ts, came k a (concat chunks) Ts /\ drel out d' a /\ aok a /\ unplanned a /\ d_sizes k = None /\ base_ok k /\ d_dict k = dict /\ d_allow k = target_allowed d /\
    (forall prev T, limits k prev T <-> admits d prev T).
Proof.
  intros d dict chunks d' out IP BD F DC. pose proof (idle_plain_idle d IP) as [ID _]. pose proof (idle_ready d ID) as RD.
  destruct (start_facts d dict IP BD) as (k & EA & S & BO & DT & DD & DA & UP & LM).
  destruct (start_ok d dict RD BD) as (DR0 & OK & U & _). rewrite EA in *.
  destruct (chunks_within chunks _ [] _ k [] [] [] d' out DR0 OK U (came_start k []) S BO DT ltac:(constructor) F DC)
    as (Ts & more & a & CM & DR & OKA & UA & EO & _). cbn [app] in *. subst more. exists k, a, Ts. auto 12.
Qed.

(** Standard format: nothing of an incomplete window has been read. *)
Lemma wcame_standard : forall k0 ns ss W Ts k u, wcame k0 ns ss W Ts k u -> allow_extensions k0 = false ->
  exists ws, W = ws ++ u /\ windows_parts lax lax (fmt k0 ns ss) (d_dict k0) (limits k0) (d_target k0) ws Ts /\ d_target k = d_target k0 ++ concat Ts.
Proof.
  intros k0 ns ss W Ts k u (ks & ws & z & -> & AW & BZ & ALT) EX. exists ws.
  assert (z = u /\ k = ks) as (-> & ->).
  { destruct ALT as [(-> & -> & _)|[(_ & -> & -> & ->)|(_ & _ & [c1 u1] & DW & SR)]]; auto.
    pose proof (decode_window_step ks ns ss z [] (aw_core _ _ _ _ _ _ AW) BZ ltac:(constructor)) as STP. rewrite DW in STP.
    assert (allow_extensions ks = false) as EX' by (destruct (aw_step _ _ _ _ _ _ AW) as (w & s & m & t & ->); exact EX).
    destruct STP as (_ & _ & _ & _ & [[-> ->]|[[X|X] _]] & _); [|congruence|rewrite (aw_win _ _ _ _ _ _ AW) in X; congruence].
    destruct SR as [E|(w & nops & _ & _ & _ & _ & E)]; [injection E as -> ->; auto|].
    assert (ks = set_win (fst (k, u)) (Some (next_win w (w_expected w + zlen nops) None (w_cache w))) (d_start (fst (k, u))) (d_target (fst (k, u))) (d_total (fst (k, u)))) as E' by congruence.
    pose proof (aw_win _ _ _ _ _ _ AW) as WN. rewrite E' in WN. discriminate WN. }
  split; [reflexivity|]. split; [apply (aw_means _ _ _ _ _ _ AW)|apply (aw_target _ _ _ _ _ _ AW)].
Qed.

Lemma drel_unparsed : forall O d k u, drel O d (ADec k u None) -> retained d = u.
Proof.
  intros O d k u DR. inversion DR as [c A1 A2 A3 A4 E1 E2 E3|c nd an A1 A2 A3 A4 A5 A6 E1 E2 E3|ns' ss' pre c A1 A2 A3 A4 E1 E2 E3]; subst; cbn [retained]; rewrite app_nil_r; reflexivity.
Qed.

Lemma kept_standard : forall d dict chunks d' out ind W, idle_plain d -> bytes_ok dict -> Forall bytes_ok chunks ->
  concat chunks = file_header 0 ind ++ W -> Z.testbit ind 1 = false ->
  decode_chunks (start_decoding d dict) chunks [] = Some (d', true, out) ->
  exists ws Ts, W = ws ++ retained d' /\ windows_parts lax lax (file_format 0 rfc_table 4 3 (target_allowed d)) dict (admits d) [] ws Ts /\ out = concat Ts.
Proof.
  intros d dict chunks d' out ind W IP BD F EX I1 DC.
  destruct (chunks_came d dict chunks d' out IP BD F DC) as (k & a & Ts & CM & DR & OKA & UA & S & BO & DD & DA & LM). rewrite EX in CM.
  remember (file_header 0 ind ++ W) as X eqn:EQ.
  destruct CM as [u|v ind' p ns q ss kt nd X Tn V BI I0 I1' VP VQ LN LS SO EK C|h v tbl ns ss k1 W' Ts k2 u HD SO BO1 S1 ST EV EA ED EL WC].
  - exfalso. inversion OKA as [k0 u0 BO0 S0 BU HE E|k0 n0 ns ss BO0 S0 SO ON PN TN E|ns ss k0 u0 CO BU Q TI LI EXW E]; subst.
    + change (file_header 0 ind ++ W) with (hd5 0 ind W) in HE. rewrite aheader_hd5 in HE by auto. destruct (Z.testbit ind 0); [discriminate HE|]. rewrite I1 in HE. discriminate HE.
    + apply (co_sizes _ _ _) in CO. congruence.
  - exfalso. unfold file_header in EQ. cbn [app] in EQ. injection EQ as _ -> _. congruence.
  - assert (h = file_header 0 ind /\ v = 0 /\ tbl = rfc_table /\ ns = 4 /\ ss = 3 /\ W' = W) as (-> & -> & -> & -> & -> & ->).
    { inversion HD as [v0 ind0 V0 BI0 I00 I10|]; subst.
      - unfold file_header in EQ. cbn [app] in EQ. injection EQ as E0 E1 E2. subst. rewrite E0. auto 10.
      - exfalso. unfold file_header in EQ. rewrite <- app_assoc in EQ. cbn [app] in EQ. injection EQ as _ -> _. congruence. }
    destruct (wcame_standard _ _ _ _ _ _ _ WC) as (ws & -> & WP & TG); [unfold allow_extensions; rewrite EV; reflexivity|].
    exists ws, Ts. rewrite (drel_unparsed _ _ _ _ DR). split; [reflexivity|]. rewrite (bo_target _ BO1) in WP, TG. split.
    + rewrite <- DD, <- ED, <- DA, <- EA. refine (windows_parts_ext _ _ _ _ _ _ _ _ _ (tle_refl _) (tle_refl _) _ _ _ _ _ WP).
      * pose proof (fmt_file _ 4 3 _ ST) as FF. rewrite EV in FF. exact FF.
      * intros p T LI. rewrite EL in LI. apply LM. exact LI.
    + pose proof (drel_out _ _ _ DR) as O. cbn [acore] in O. rewrite <- O, TG. reflexivity.
Qed.

Lemma kept_header : forall d dict chunks d' out, idle_plain d -> bytes_ok dict -> Forall bytes_ok chunks -> zlen (concat chunks) < 5 ->
  decode_chunks (start_decoding d dict) chunks [] = Some (d', true, out) -> retained d' = concat chunks.
Proof.
  intros d dict chunks d' out IP BD F L DC.
  destruct (chunks_came d dict chunks d' out IP BD F DC) as (k & a & Ts & CM & DR & _).
  destruct CM as [u|v ind p ns q ss kt nd X Tn V BI I0 I1 VP VQ LN LS SO EK C|h v tbl ns ss k1 W Ts k2 u HD SO BO1 S1 ST EV EA ED EL WC].
  - eapply drel_unparsed. exact DR.
  - exfalso. unfold file_header in L. rewrite zlen_app in L. pose proof (zlen_nonneg _ (p ++ q ++ X)). change (zlen [214; 195; 196; v; ind]) with 5 in L. lia.
  - exfalso. rewrite zlen_app in L. pose proof (zlen_nonneg _ W).
    inversion HD; subst; unfold file_header in *; rewrite ?zlen_app in L; match type of L with context [zlen [214; 195; 196; ?v; ?i]] => change (zlen [214; 195; 196; v; i]) with 5 in L end; [lia|].
    pose proof (zlen_nonneg _ b_near). pose proof (zlen_nonneg _ b_same). pose proof (zlen_nonneg _ h0). pose proof (zlen_nonneg _ ws). lia.
Qed.
