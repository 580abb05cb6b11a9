(** Soundness for data that arrives in pieces. *)

From Verif Require Import Base Spec Varint VarintFacts AddrCache AddrCacheFacts CodeTable CodeTableFacts
  InstructionMap DecodeTable HeaderParser Adler AdlerFacts Decoder CopyFacts BodyFacts BodyExt WindowExt
  WindowHeader WindowStep WindowFacts Refine Totals Abstract FileHeader Chunk Sim Stream Session Reuse Usable Sound Complete Truncate Files SpecParts Output OutputFacts.
From Coq Require Import ZifyBool ZifyNat.

Notation lax := (tol true).

Lemma windows_of_parts : forall t tl f dict ok prev ws Ts, windows_parts t tl f dict ok prev ws Ts ->
  windows t tl f dict ok prev ws (prev ++ concat Ts).
Proof.
  intros t tl f dict ok prev ws Ts H. induction H as [prev|prev w T rest Ts W K H IH].
  - cbn [concat]. rewrite app_nil_r. constructor.
  - cbn [concat]. rewrite app_assoc. econstructor; eauto.
Qed.

Lemma windows_parts_snoc : forall t f dict ok prev ws Ts w T, windows_parts t t f dict ok prev ws Ts ->
  Spec.window t f dict (prev ++ concat Ts) w T -> ok (prev ++ concat Ts) T -> windows_parts t t f dict ok prev (ws ++ w) (Ts ++ [T]).
Proof.
  intros t f dict ok prev ws Ts w T H. induction H as [prev|prev w0 T0 rest Ts W K H IH]; intros WW KK.
  - cbn [concat] in *. rewrite app_nil_r in *. cbn [app]. rewrite <- (app_nil_r w). apply wp_cons; auto. constructor.
  - cbn [concat] in *. rewrite app_assoc in *. rewrite <- app_assoc. cbn [app]. apply wp_cons; auto. destruct rest, (_ ++ w); exact W.
Qed.

Lemma windows_parts_ext : forall t t' tl tl' f1 f2 dict (ok ok' : list Z -> list Z -> Prop), tle t t' -> tle tl tl' -> same_format f1 f2 ->
  (forall p T, ok p T -> ok' p T) ->
  forall prev wb Ts, windows_parts t tl f1 dict ok prev wb Ts -> windows_parts t' tl' f2 dict ok' prev wb Ts.
Proof.
  intros t t' tl tl' f1 f2 dict ok ok' L L' SF K prev wb Ts H. induction H; [constructor|].
  apply wp_cons; auto. eapply window_ext; [exact SF|]. destruct rest; eapply window_weaken; eauto.
Qed.

(** The state at the start of a window, reached from [k0] by the windows [ws]. *)
Record at_window (k0 : core) (ns ss : Z) (ws : list Z) (Ts : list (list Z)) (ks : core) : Prop := {
  aw_core : core_ok ns ss ks;
  aw_win : d_win ks = None;
  aw_tot : tot_inv ks;
  aw_lim : lim_inv ks;
  aw_fit : modes_fit ns ss ws;
  aw_step : cstep k0 ks;
  aw_means : windows_parts lax lax (fmt k0 ns ss) (d_dict k0) (limits k0) (d_target k0) ws Ts;
  aw_target : d_target ks = d_target k0 ++ concat Ts
}.

Lemma at_window_next : forall k0 ns ss ws Ts ks data k1 rest, at_window k0 ns ss ws Ts ks -> ~ stopped ks -> bytes_ok data ->
  decode_window ks data = XOk (k1, rest) ->
  exists wb T, data = wb ++ rest /\ bytes_ok rest /\ at_window k0 ns ss (ws ++ wb) (Ts ++ [T]) k1.
Proof.
  intros k0 ns ss ws Ts ks data k1 rest [CO WN TI LI MF CS WS TG] NS BD DW.
  pose proof (decode_window_modes _ _ _ _ _ CO WN DW) as NSS.
  pose proof (decode_window_step ks ns ss data [] CO BD ltac:(constructor)) as ST. rewrite DW in ST.
  destruct ST as (CO' & CS' & WN' & BR & _).
  pose proof (decode_window_len ns ss ks data CO BD TI LI) as DL. rewrite DW in DL. destruct DL as (TI' & LI' & _).
  destruct (decode_window_sound ks ns ss data _ _ CO WN BD DW) as (wb & T & slack & -> & W & SL & WE & BT & ZT & WNE & EK).
  exists wb, T. split; [reflexivity|]. split; [exact BR|]. constructor; auto; [right; lia|eapply cstep_trans; eauto| |].
  2:{ rewrite EK. cbn [set_win d_target]. rewrite TG, concat_app. cbn [concat]. rewrite app_nil_r, app_assoc. reflexivity. }
  destruct CS as (w0 & s0 & m0 & t0 & EKS). apply windows_parts_snoc; [exact WS| |]; rewrite <- TG.
  - replace (fmt k0 ns ss) with (fmt ks ns ss) by (rewrite EKS; reflexivity). replace (d_dict k0) with (d_dict ks) by (rewrite EKS; reflexivity).
    eapply window_weaken; [|exact W]. destruct slack; [apply tle_refl|apply tle_tol; discriminate].
  - destruct TI as [T0 TI]. rewrite WN in TI. destruct TI as [TI _]. destruct (would_exceed_false ks (zlen T) WE LI T0 (zlen_nonneg _ T)) as (A & B & C).
    assert (limits ks (d_target ks) T) as LM.
    { unfold limits, within. split; [lia|]. intros HP. specialize (C HP). split; [|lia].
      assert (reached_planned ks = false) as NR by (destruct (reached_planned ks) eqn:X; [destruct NS; split; auto|reflexivity]).
      unfold reached_planned in NR. rewrite HP in NR. cbn [andb] in NR. lia. }
    replace (limits k0) with (limits ks) by (rewrite EKS; reflexivity). exact LM.
Qed.

(** The state after the data [W] behind the file header, whatever the pieces:
    the windows with the data [Ts] are complete. *)
Definition wcame (k0 : core) (ns ss : Z) (W : list Z) (Ts : list (list Z)) (k : core) (u : list Z) : Prop :=
  exists ks ws z, W = ws ++ z /\ at_window k0 ns ss ws Ts ks /\ bytes_ok z /\
    ((z = u /\ ks = k /\ stopped k) \/
     (~ stopped ks /\ z = [] /\ u = [] /\ k = ks) \/
     (~ stopped ks /\ z <> [] /\ exists p, decode_window ks z = XEod p /\ srel (k, u) p)).

Lemma at_window_end : forall k0 ns ss ws Ts T k, at_window k0 ns ss ws (Ts ++ [T]) k -> forall Ts',
  In (zlen (d_target k)) (ends (zlen (d_target k0)) ((Ts ++ [T]) ++ Ts')).
Proof.
  intros k0 ns ss ws Ts T k AW Ts'. rewrite ends_app. apply in_or_app. left. rewrite (aw_target _ _ _ _ _ _ AW), zlen_app.
  destruct (ends_last (Ts ++ [T]) (zlen (d_target k0))) as [E|E]; [destruct Ts; discriminate|exact E].
Qed.

Lemma wcame_start : forall ks data r, arun ks data r -> forall k0 ns ss ws Ts k u, at_window k0 ns ss ws Ts ks -> ~ stopped ks -> bytes_ok data ->
  collapse r = AOk (ADec k u None) -> exists Ts', wcame k0 ns ss (ws ++ data) (Ts ++ Ts') k u /\
    forall e, data <> [] -> visits ks data e -> In e (ends (zlen (d_target k0)) (Ts ++ Ts')).
Proof.
  induction 1 as [k1|k1 data k2 rest NE DW RP|k1 data k2 rest r NE DW RP H IH|k1 data p NE DW|k1 data NE DW|k1 data NE DW];
    intros k0 ns ss ws Ts k u AW NS BD C; try discriminate.
  - injection C as <- <-. exists []. rewrite (app_nil_r Ts). split; [|intros e X; congruence].
    exists k1, ws, []. split; [reflexivity|]. split; [exact AW|]. split; [constructor|]. right. left. auto.
  - injection C as <- <-. destruct (at_window_next _ _ _ _ _ _ _ _ _ AW NS BD DW) as (wb & T & -> & BR & AW').
    exists [T]. split.
    + exists k2, (ws ++ wb), rest. split; [rewrite app_assoc; reflexivity|]. split; [exact AW'|]. split; [exact BR|].
      left. split; [reflexivity|]. split; [reflexivity|]. split; [apply AW'|exact RP].
    + intros e _ V. inversion V as [k3 data k4 r4 DW'|k3 data k4 r4 e' DW' RP']; subst; rewrite DW' in DW; injection DW as -> ->; [|congruence].
      pose proof (at_window_end _ _ _ _ _ _ _ AW' []) as X. rewrite app_nil_r in X. exact X.
  - destruct (at_window_next _ _ _ _ _ _ _ _ _ AW NS BD DW) as (wb & T & -> & BR & AW').
    rewrite app_assoc. destruct (IH _ _ _ _ _ _ _ AW' ltac:(intros [_ X]; congruence) BR C) as (Ts' & WC & VS).
    exists ([T] ++ Ts'). rewrite app_assoc. split; [exact WC|].
    intros e _ V. inversion V as [k3 data k4 r4 DW'|k3 data k4 r4 e' DW' RP' NR V']; subst; rewrite DW' in DW; injection DW as -> ->; [|auto].
    eapply at_window_end; eauto.
  - destruct p as [k2 u2]. injection C as <- <-. exists []. rewrite (app_nil_r Ts). split.
    + exists k1, ws, data. split; [reflexivity|]. split; [exact AW|]. split; [exact BD|].
      right. right. split; [exact NS|]. split; [exact NE|]. exists (k2, u2). split; [exact DW|]. apply srel_refl.
    + intros e _ V. inversion V; congruence.
Qed.

Lemma wcame_more : forall k0 ns ss W Ts k u y r k' u', wcame k0 ns ss W Ts k u -> core_ok ns ss k -> ~ stopped k -> bytes_ok u -> bytes_ok y ->
  arun k (u ++ y) r -> collapse r = AOk (ADec k' u' None) -> exists Ts', wcame k0 ns ss (W ++ y) (Ts ++ Ts') k' u' /\
    (forall e, u ++ y <> [] -> visits k (u ++ y) e -> In e (ends (zlen (d_target k0)) (Ts ++ Ts'))) /\
    (pending k u = zlen (d_target k0) \/ In (pending k u) (ends (zlen (d_target k0)) (Ts ++ Ts')) \/ pending k u = pending k' u').
Proof.
  intros k0 ns ss W Ts k u y r k' u' (ks & ws & z & -> & AW & BZ & ALT) CO NS BU BY H C.
  assert (forall Ts', zlen (d_target ks) = zlen (d_target k0) \/ In (zlen (d_target ks)) (ends (zlen (d_target k0)) (Ts ++ Ts'))) as BASE.
  { intros Ts'. rewrite (aw_target _ _ _ _ _ _ AW), zlen_app. destruct (ends_last Ts (zlen (d_target k0))) as [->|X].
    - left. cbn [concat]. rewrite zlen_nil. lia.
    - right. rewrite ends_app. apply in_or_app. auto. }
  destruct ALT as [(_ & _ & ST)|[(NS' & -> & -> & ->)|(NS' & ZN & p & DW & SR)]]; [tauto| |].
  - rewrite app_nil_r. destruct (wcame_start _ _ _ H _ _ _ _ _ _ _ AW NS' BY C) as (Ts' & WC & VS).
    exists Ts'. split; [exact WC|]. split; [exact VS|].
    assert (pending ks [] = zlen (d_target ks)) as ->.
    { unfold pending, target_bytes_remaining, window_length. rewrite (aw_win _ _ _ _ _ _ AW). cbn. destruct (reached_planned ks); cbn; lia. }
    destruct (BASE Ts'); auto.
  - destruct (list_eq_dec Z.eq_dec (u ++ y) []) as [E|NE].
    { rewrite E in H. inversion H; subst; try congruence. apply app_eq_nil in E as [-> ->]. injection C as <- <-.
      exists []. rewrite (app_nil_r Ts). split; [|split; [intros e X; destruct X; reflexivity|auto]].
      exists ks, ws, z. rewrite app_nil_r. split; [reflexivity|]. split; [exact AW|]. split; [exact BZ|]. right. right. eauto. }
    destruct p as [c1 u1]. pose proof (decode_window_step ks ns ss z y (aw_core _ _ _ _ _ _ AW) BZ BY) as ST. rewrite DW in ST.
    destruct ST as (_ & _ & _ & _ & _ & WR).
    pose proof (decode_window_srel ns ss k u c1 u1 y CO SR BU BY) as WR0.
    assert (bytes_ok (z ++ y)) as BZY by (apply bytes_ok_app; auto).
    pose proof (window_announced ns ss ks z (aw_core _ _ _ _ _ _ AW) (aw_win _ _ _ _ _ _ AW) BZ (aw_tot _ _ _ _ _ _ AW) (aw_lim _ _ _ _ _ _ AW) NS') as PA. rewrite DW in PA.
    pose proof (window_announced ns ss ks (z ++ y) (aw_core _ _ _ _ _ _ AW) (aw_win _ _ _ _ _ _ AW) BZY (aw_tot _ _ _ _ _ _ AW) (aw_lim _ _ _ _ _ _ AW) NS') as PB.
    rewrite (pending_srel _ _ _ SR). cbn [fst snd]. rewrite PA.
    assert (forall Ts', zlen (d_target ks) + announced0 ks z = zlen (d_target k0) \/
       In (zlen (d_target ks) + announced0 ks z) (ends (zlen (d_target k0)) (Ts ++ Ts')) \/
       exists n, announced ks z = Some n /\ announced ks (z ++ y) = Some n) as KNOWN.
    { intros Ts'. unfold announced0. destruct (announced ks z) as [n|] eqn:AN.
      - right. right. exists n. split; [reflexivity|]. apply announced_more; auto.
      - rewrite Z.add_0_r. destruct (BASE Ts'); auto. }
    rewrite <- app_assoc.
    inversion H as [k1 E1 E2|k1 data k2 rest NE' D RP E1 E2|k1 data k2 rest r' NE' D RP H' E1 E2|k1 data p NE' D E1 E2|k1 data NE' D E1 E2|k1 data NE' D E1 E2]; subst; try congruence; try discriminate.
    + rewrite D in WR0. cbn in WR0. rewrite <- WR0 in WR. cbn in WR. symmetry in WR. injection C as <- <-.
      destruct (at_window_next _ _ _ _ _ _ _ _ _ AW NS' BZY WR) as (wb & T & EZ & BR & AW'). rewrite WR in PB. destruct PB as (n & PB1 & PB2). rewrite EZ, app_assoc.
      pose proof (at_window_end _ _ _ _ _ _ _ AW' []) as EN. rewrite app_nil_r in EN.
      exists [T]. split; [|split].
      * exists k2, (ws ++ wb), rest. split; [reflexivity|]. split; [exact AW'|]. split; [exact BR|].
        left. split; [reflexivity|]. split; [reflexivity|]. split; [apply AW'|exact RP].
      * intros e _ V. inversion V as [k3 data k4 r4 DW'|k3 data k4 r4 e' DW' RP']; subst; rewrite DW' in D; injection D as -> ->; [|congruence]. exact EN.
      * destruct (KNOWN [T]) as [K|[K|(m & K1 & K2)]]; auto. right. left. unfold announced0. rewrite K1.
        assert (m = n) as -> by congruence. rewrite <- PB2. exact EN.
    + rewrite D in WR0. cbn in WR0. rewrite <- WR0 in WR. cbn in WR. symmetry in WR.
      destruct (at_window_next _ _ _ _ _ _ _ _ _ AW NS' BZY WR) as (wb & T & EZ & BR & AW'). rewrite WR in PB. destruct PB as (n & PB1 & PB2). rewrite EZ, app_assoc.
      destruct (wcame_start _ _ _ H' _ _ _ _ _ _ _ AW' ltac:(intros [_ X]; congruence) BR C) as (Ts' & WC & VS).
      pose proof (at_window_end _ _ _ _ _ _ _ AW' Ts') as EN. rewrite <- (app_assoc Ts) in EN, WC, VS.
      exists ([T] ++ Ts'). split; [exact WC|]. split.
      * intros e _ V. inversion V as [k3 data k4 r4 DW'|k3 data k4 r4 e' DW' RP' NR V']; subst; rewrite DW' in D; injection D as -> ->; [exact EN|auto].
      * destruct (KNOWN ([T] ++ Ts')) as [K|[K|(m & K1 & K2)]]; auto. right. left. unfold announced0. rewrite K1.
        assert (m = n) as -> by congruence. rewrite <- PB2. exact EN.
    + rewrite D in WR0. cbn in WR0. destruct (decode_window c1 (u1 ++ y)) as [|p1| | |]; try discriminate.
      cbn in WR. destruct (decode_window ks (z ++ y)) as [|[k4 u4]| | |] eqn:DZ; try discriminate.
      destruct p as [k3 u3]. injection C as <- <-. exists []. rewrite (app_nil_r Ts).
      assert (srel (k3, u3) (k4, u4)) as SR' by (eapply srel_trans; eauto). split; [|split].
      * exists ks, ws, (z ++ y). split; [reflexivity|]. split; [exact AW|]. split; [exact BZY|].
        right. right. split; [exact NS'|]. split; [intros X; apply app_eq_nil in X; tauto|]. exists (k4, u4). split; [exact DZ|exact SR'].
      * intros e _ V. inversion V; congruence.
      * destruct (KNOWN []) as [K|[K|(m & K1 & K2)]]; auto; [rewrite app_nil_r in K; auto|]. right. right.
        rewrite (pending_srel _ _ _ SR'). cbn [fst snd]. rewrite PB. unfold announced0. rewrite K1, K2. reflexivity.
Qed.

(** The state of a decoder that was started in state [k], after [X]. *)
Inductive came (k : core) : adec -> list Z -> list (list Z) -> Prop :=
| came_start : forall u, came k (ADec k u None) u []
| came_table : forall v ind p ns q ss kt nd X Tn, v = 0 \/ v = 83 -> byte_ok ind -> Z.testbit ind 0 = false -> Z.testbit ind 1 = true ->
    varint p ns -> varint q ss -> ns <= 255 -> ss <= 255 -> sizes_ok ns ss -> a_table = ADec kt [] None -> came kt nd X Tn ->
    came k (ADec (set_file k v (Some (ns, ss)) [] (d_table k)) [] (Some nd)) (file_header v ind ++ p ++ q ++ X) []
| came_win : forall h v tbl ns ss k1 W Ts k2 u, head lax lax h v tbl ns ss -> sizes_ok ns ss -> base_ok k1 -> d_sizes k1 = Some (ns, ss) ->
    same_table (entry (d_table k1)) tbl -> d_version k1 = v -> d_allow k1 = d_allow k -> d_dict k1 = d_dict k -> limits k1 = limits k ->
    wcame k1 ns ss W Ts k2 u -> came k (ADec k2 u None) (h ++ W) Ts.

Lemma came_end : forall k a X Ts, came k a X Ts -> aok a -> d_sizes k = None -> X <> [] -> acomplete a = true ->
  exists h v tbl ns ss ws, X = h ++ ws ++ arest a /\ head lax lax h v tbl ns ss /\ modes_fit ns ss ws /\
    windows_parts lax lax (file_format v tbl ns ss (d_allow k)) (d_dict k) (limits k) [] ws Ts /\ d_target (acore a) = concat Ts /\
    (arest a = [] \/ stopped (acore a)).
Proof.
  intros k a X Ts [u|v ind p ns q ss kt nd X' Tn V BI I0 I1 VP VQ LN LS SO EK C|h v tbl ns ss k1 W Ts' k2 u HD SO BO S ST EV EA ED EL WC] OK S0 XN AC.
  - cbn in AC. rewrite S0 in AC. destruct u; [congruence|discriminate].
  - discriminate.
  - destruct WC as (ks & ws & z & -> & AW & BZ & ALT). exists h, v, tbl, ns, ss, ws.
    assert (z = u /\ d_target k2 = d_target ks /\ (u = [] \/ stopped k2)) as (-> & TG & AR).
    { destruct ALT as [(-> & -> & SP)|[(NS & -> & -> & ->)|(NS & ZN & p & DW & SR)]]; auto.
      exfalso. pose proof (decode_window_step ks ns ss z [] (aw_core _ _ _ _ _ _ AW) BZ ltac:(constructor)) as STP. rewrite DW in STP. destruct p as [c1 u1].
      destruct STP as (CO1 & _ & _ & _ & ALT & _). cbn in AC.
      destruct SR as [E|(w & nops & W & _)]; [|cbn in W; rewrite W in AC; destruct (d_sizes k2) eqn:SK; [discriminate|]].
      - injection E as -> ->. rewrite (co_sizes _ _ _ CO1) in AC. destruct ALT as [[-> ->]|[_ (w & E)]]; [|rewrite E in AC; discriminate].
        rewrite (aw_win _ _ _ _ _ _ AW) in AC. destruct (reached_planned ks) eqn:RP; [destruct NS; split; [apply AW|exact RP]|]. destruct z; [congruence|discriminate].
      - inversion OK as [k0 u0 BO0 S1 BU HE E|k0 n0 ns1 ss1 BO0 S1 SO1 ON PN TN E|ns1 ss1 k0 u0 CO BU Q TI LI EX E]; subst.
        + pose proof (bo_win _ BO0). congruence.
        + rewrite (co_sizes _ _ _ CO) in SK. discriminate. }
    cbn [arest acore]. split; [reflexivity|]. split; [exact HD|]. split; [apply AW|]. split; [|split; [|exact AR]].
    + pose proof (aw_means _ _ _ _ _ _ AW) as WS. rewrite (bo_target _ BO) in WS. rewrite <- ED, <- EL, <- EA, <- EV.
      refine (windows_parts_ext _ _ _ _ _ _ _ _ _ (tle_refl _) (tle_refl _) (fmt_file _ _ _ _ ST) (fun _ _ X => X) _ _ _ WS).
    + rewrite TG, (aw_target _ _ _ _ _ _ AW), (bo_target _ BO). reflexivity.
Qed.

Lemma wcame_core : forall k0 ns ss W Ts k u, wcame k0 ns ss W Ts k u -> d_sizes k = Some (ns, ss).
Proof.
  intros k0 ns ss W Ts k u (ks & ws & z & -> & AW & BZ & ALT). pose proof (co_sizes _ _ _ (aw_core _ _ _ _ _ _ AW)) as S.
  destruct ALT as [(_ & <- & _)|[(_ & _ & _ & ->)|(_ & _ & [c1 u1] & DW & SR)]]; auto.
  pose proof (decode_window_step ks ns ss z [] (aw_core _ _ _ _ _ _ AW) BZ ltac:(constructor)) as STP. rewrite DW in STP.
  destruct STP as (CO1 & _). apply co_sizes in CO1. destruct SR as [E|(w & nops & _ & _ & _ & _ & E)].
  - injection E as -> ->. exact CO1.
  - injection E as -> _. exact CO1.
Qed.

(** The windows read by a call start in this state with this data. *)
Inductive window_part : adec -> list Z -> core -> list Z -> Prop :=
| part_plain : forall k u n data k' rest, aheader k n (u ++ data) = Ok (k', None, rest) -> window_part (ADec k u n) data k' rest
| part_table : forall k u n data k' nd rest nd' ns ss t b, aheader k n (u ++ data) = Ok (k', Some nd, rest) -> acr nd rest (AOk nd') ->
    zlen (d_target (acore nd')) = 1536 -> acomplete nd' = true -> d_sizes k' = Some (ns, ss) ->
    use_code_table (d_table k') (table_of_bytes (d_target (acore nd'))) (last_mode ns ss) = Some (t, b) ->
    window_part (ADec k u n) data (set_file k' (d_version k') (d_sizes k') [] t) (finish_except (zlen (arest nd')) rest).

(** Where the target ends when the window at hand is complete. *)
Definition apending (a : adec) : Z := match a with ADec k u None => match d_sizes k with None => 0 | Some _ => pending k u end | ADec _ _ (Some _) => 0 end.

(** One more call. *)
Lemma came_more : forall a y r, acr a y r -> forall k X Ts a', came k a X Ts -> d_sizes k = None -> base_ok k -> d_table k = default_table ->
  aok a -> ~ stopped (acore a) -> bytes_ok X -> bytes_ok y -> r = AOk a' ->
  exists Ts', came k a' (X ++ y) (Ts ++ Ts') /\
    (forall k1 rest e, window_part a y k1 rest -> rest <> [] -> visits k1 rest e -> In e (ends 0 (Ts ++ Ts'))) /\
    (apending a = 0 \/ In (apending a) (ends 0 (Ts ++ Ts')) \/ apending a = apending a').
Proof.
  assert (forall k1 ns ss data r k h v tbl a', head lax lax h v tbl ns ss -> sizes_ok ns ss -> base_ok k1 -> d_sizes k1 = Some (ns, ss) ->
    same_table (entry (d_table k1)) tbl -> d_version k1 = v -> d_allow k1 = d_allow k -> d_dict k1 = d_dict k -> limits k1 = limits k ->
    bytes_ok data -> arun k1 data r -> collapse r = AOk a' -> exists Ts', came k a' (h ++ data) Ts' /\
    (forall e, data <> [] -> visits k1 data e -> In e (ends 0 Ts'))) as RUN.
  { intros k1 ns ss data r k h v tbl a' HD SO BO S ST EV EA ED EL BD H C.
    assert (exists k' u, a' = ADec k' u None) as (k' & u & ->).
    { destruct r as [[k2 u2]|[k2 u2]| | |]; try discriminate; cbn in C; injection C as <-; eauto. }
    destruct (base_core k1 ns ss BO S SO) as (CO & TI & LI & NS).
    assert (at_window k1 ns ss [] [] k1) as AW.
    { constructor; auto; [apply BO|left; reflexivity|apply cstep_refl|constructor|]. cbn [concat]. rewrite app_nil_r. reflexivity. }
    destruct (wcame_start _ _ _ H _ _ _ _ _ _ _ AW NS BD C) as (Ts' & WC & VS). cbn [app] in *.
    rewrite (bo_target _ BO), zlen_nil in VS. exists Ts'. split; [eapply came_win; eauto|exact VS]. }
  assert (forall kt nd X Tn k v ind p q ns ss rest r a', a_table = ADec kt [] None -> came kt nd X Tn -> aok nd -> bytes_ok X ->
    (exists p0, X = p0 ++ rest) -> (stopped (acore nd) -> zlen (arest nd) <= zlen rest) -> d_planned (acore nd) = 1536 ->
    v = 0 \/ v = 83 -> byte_ok ind -> Z.testbit ind 0 = false -> Z.testbit ind 1 = true -> varint p ns -> varint q ss -> ns <= 255 -> ss <= 255 -> sizes_ok ns ss ->
    base_ok k -> d_table k = default_table ->
    after (set_file k v (Some (ns, ss)) [] (d_table k)) rest (AOk nd) r -> r = AOk a' ->
    exists Ts', came k a' (file_header v ind ++ p ++ q ++ X) Ts' /\
      forall t b e, zlen (d_target (acore nd)) = 1536 -> acomplete nd = true ->
        use_code_table (d_table k) (table_of_bytes (d_target (acore nd))) (last_mode ns ss) = Some (t, b) ->
        finish_except (zlen (arest nd)) rest <> [] ->
        visits (set_file (set_file k v (Some (ns, ss)) [] (d_table k)) v (Some (ns, ss)) [] t) (finish_except (zlen (arest nd)) rest) e -> In e (ends 0 Ts')) as AFTER.
  { intros kt nd X Tn k v ind p q ns ss rest r a' EKT CM OK BX (p0 & EP) ZR PL V BI I0 I1 VP VQ LN LS SO BO DT AF ER. subst r.
    inversion AF as [| |nd0 L E1 E2| |nd0 ns' ss' t b r L CP S2 U R E1 E2]; subst.
    { exists []. split; [eapply came_table; eauto|]. intros; lia. }
    injection S2 as <- <-. assert (zlen (arest nd) <= zlen rest) as ZR' by (apply ZR, (aok_stopped nd OK PL), L). clear ZR. rename ZR' into ZR.
    destruct a_table_fields as (kt' & EKT' & KS & KB & KT & KAL & KD & KW & KF & KP). rewrite EKT in EKT'. injection EKT' as <-.
    assert (p0 ++ rest <> []) as XN.
    { intros E. apply app_eq_nil in E as [-> ->]. rewrite zlen_nil in ZR. cbn [app] in CM.
      assert (forall h v tbl ns ss y, head lax lax h v tbl ns ss -> h ++ y <> []) as HN.
      { intros h0 v0 t0 n0 s0 y0 H0 E0. inversion H0; subst; discriminate. }
      remember [] as x eqn:EX in CM. destruct CM as [u| |h v0 tbl ns0 ss0 k1 W Tw k2 u HD].
      - cbn [acore] in L. rewrite (bo_target _ KB), zlen_nil in L. lia.
      - discriminate.
      - destruct (HN _ _ _ _ _ _ HD EX). }
    destruct (came_end kt nd _ _ CM OK KS XN CP) as (h' & v' & tbl' & ns' & ss' & ws' & ER & HD & MF' & WP' & TG' & ALT').
    pose proof (windows_of_parts _ _ _ _ _ _ _ _ WP') as WS'. cbn [app] in WS'. rewrite <- TG' in WS'.
    assert (finish_except (zlen (arest nd)) rest = arest nd) as FE.
    { assert (exists p1, rest = p1 ++ arest nd) as [p1 ->]; [|apply finish_except_app].
      rewrite app_assoc in ER. apply app_eq_app in ER as (l & [[F1 F2]|[F1 F2]]).
      - exists []. rewrite F2 in ZR. rewrite zlen_app in ZR. assert (l = []) as ->; [|symmetry; exact F2].
        destruct l; [reflexivity|]. rewrite zlen_cons in ZR. pose proof (zlen_nonneg _ l). lia.
      - exists l. exact F2. }
    rewrite FE in *.
    cut (exists Ts', came k a' (file_header v ind ++ p ++ q ++ p0 ++ rest) Ts' /\
      forall e, arest nd <> [] -> visits (set_file (set_file k v (Some (ns, ss)) [] (d_table k)) v (Some (ns, ss)) [] t) (arest nd) e -> In e (ends 0 Ts')).
    { intros (Ts' & CM' & VS). exists Ts'. split; [exact CM'|]. intros t2 b2 e _ _ U2. cbn [set_file d_table] in U. rewrite U in U2. injection U2 as <- <-. apply VS. }
    assert (bytes_ok (d_target (acore nd))) as BS by (apply aok_target_bytes; exact OK).
    rewrite last_mode_mod in U.
    assert (0 <= (ns + ss + 1) mod 256 <= 255) as MR by lia.
    cbn [set_file d_table] in U. rewrite DT in U.
    destruct (use_code_table_usable default_table (d_target (acore nd)) _ BS L MR) as (t' & b' & U' & CASES). rewrite U in U'. injection U' as <- <-.
    assert (exists tbl, same_table (entry t) tbl /\ table_ok t /\ ((usable_table ((ns + ss + 1) mod 256) (d_target (acore nd)) /\ tbl = table_of_string (d_target (acore nd))) \/
       (~ usable_table ((ns + ss + 1) mod 256) (d_target (acore nd)) /\ tbl = rfc_table))) as (tbl & ST & TOK & UC).
    { destruct CASES as [(_ & UT & ->)|(_ & UT & ->)].
      - exists (table_of_string (d_target (acore nd))). split; [intros op O; apply entry_of_bytes; exact O|]. split; [apply table_of_bytes_ok; auto|auto].
      - exists rfc_table. split; [apply default_same|]. split; [apply default_table_ok|auto]. }
    replace (file_header v ind ++ p ++ q ++ p0 ++ rest) with ((file_header v ind ++ p ++ q ++ h' ++ ws') ++ arest nd).
    2:{ rewrite ER, <- !app_assoc. reflexivity. }
    eapply (RUN _ ns ss (arest nd) r k _ v tbl); [| | | | | | | | | |exact R|exact E2]; [| |apply base_file; [apply base_file; [exact BO|apply BO]|exact TOK]|reflexivity|exact ST|reflexivity|reflexivity|reflexivity|reflexivity|].
    - eapply head_custom; [exact V|exact BI|exact I0|exact I1|exact VP|exact VQ|exact LN|exact LS|exact HD|exact MF'| |exact L|exact UC].
      rewrite KAL, KD in WS'. refine (windows_ext _ _ _ _ _ _ _ _ _ (tle_refl _) (tle_refl _) _ _ _ _ _ WS').
      + unfold same_format. repeat split.
      + intros pp TT [W1 W2]. unfold table_limit. rewrite KW, KF in W1. rewrite KP in W2. split; [exact W1|]. apply W2. apply planned_1536. exact KP.
    - exact SO.
    - rewrite ER in BX. apply bytes_ok_app in BX as [_ BX]. apply bytes_ok_app in BX as [_ BX]. exact BX. }
  induction 1 as [k u n data H|k u n data H|k u n data H|k u n data k1 rest r H R|k u n data k1 nd rest r1 r H A IH AF];
    intros k0 X Ts a' CM S BO DT OK NS BX BY ER; try discriminate.
  - injection ER as <-.
    inversion CM as [u0 E1 E2|v ind p ns q ss kt nd X' Tn V BI I0 I1 VP VQ LN LS SO EK C E1 E2|h v tbl ns ss k1 W Tw k2 u0 HD SO BO1 S1 ST EV EA ED EL WC E1 E2]; subst.
    + exists []. split; [constructor|]. split; [|left; cbn; rewrite S; reflexivity].
      intros k1 rest e WP. inversion WP; subst; congruence.
    + discriminate.
    + unfold aheader in H. rewrite (wcame_core _ _ _ _ _ _ _ WC) in H. discriminate.
  - assert (forall k2 rest2, window_part (ADec k u n) data k2 rest2 -> k2 = k1 /\ rest2 = rest) as WPU.
    { intros k2 rest2 WP. inversion WP as [k3 u3 n3 data3 k4 r4 H4 E1 E2 E3|k3 u3 n3 data3 k4 nd4 r4 nd5 ns5 ss5 t5 b5 H4]; subst; rewrite H in H4; [|discriminate].
      injection H4 as <- <-. auto. }
    inversion CM as [u0 E1 E2|v ind p ns q ss kt nd X' Tn V BI I0 I1 VP VQ LN LS SO EK C E1 E2|h v tbl ns ss k2 W Tw k3 u0 HD SO BO1 S1 ST EV EA ED EL WC E1 E2]; subst.
    + assert (bytes_ok (X ++ data)) as BXD by (apply bytes_ok_app; auto).
      destruct (aheader_inv k None _ _ _ _ BXD S H) as (v & ind & tl & EX & V & I0 & BI & ALT).
      destruct ALT as [(I1 & -> & _ & EK)|(I1 & Z & _)]; [|discriminate].
      destruct (aheader_ok k None _ k1 None rest BXD S BO H) as (BO' & BR & (ns & ss & S' & SO) & _).
      assert (exists Ts', came k a' (file_header v ind ++ rest) Ts' /\ forall e, rest <> [] -> visits k1 rest e -> In e (ends 0 Ts')) as (Ts' & CM' & VS).
      { subst k1. cbn in S'. injection S' as <- <-. eapply (RUN _ 4 3 rest r k _ v rfc_table); eauto; try reflexivity.
        * constructor; auto.
        * cbn. rewrite DT. apply default_same. }
      exists Ts'. rewrite EX. split; [exact CM'|]. split; [|left; cbn; rewrite S; reflexivity].
      intros k2 rest2 e WP NR VV. apply WPU in WP as [-> ->]. apply VS; auto.
    + discriminate.
    + pose proof (wcame_core _ _ _ _ _ _ _ WC) as SK. unfold aheader in H. rewrite SK in H. injection H as <- <-.
      assert (core_ok ns ss k /\ bytes_ok u) as [CO BU].
      { inversion OK as [k0' u0 BO0 S2 BU HE E|k0' n0 ns1 ss1 BO0 S2 SO2 ON PN TN E|ns1 ss1 k0' u0 CO BU Q TI LI EX E]; subst; [congruence|].
        pose proof (co_sizes _ _ _ CO) as SK'. rewrite SK in SK'. injection SK' as <- <-. auto. }
      assert (exists k' u', a' = ADec k' u' None) as (k' & u' & ->).
      { destruct r as [[k3 u3]|[k3 u3]| | |]; try discriminate; cbn in ER; injection ER as <-; eauto. }
      destruct (wcame_more _ _ _ _ _ _ _ _ _ _ _ WC CO NS BU BY R ER) as (Ts' & WC' & VS & PD).
      rewrite (bo_target _ BO1), zlen_nil in VS, PD. pose proof (wcame_core _ _ _ _ _ _ _ WC') as SK'.
      exists Ts'. rewrite <- app_assoc. split; [eapply came_win; eauto|]. split; [|cbn; rewrite SK, SK'; exact PD].
      intros k2' rest2 e WP NR VV. apply WPU in WP as [-> ->]. apply VS; auto.
  - destruct r1 as [nd'| |]; [|inversion AF; subst; discriminate|inversion AF; subst; discriminate].
    assert (forall k2 rest2, window_part (ADec k u n) data k2 rest2 -> exists ns ss t b, d_sizes k1 = Some (ns, ss) /\ zlen (d_target (acore nd')) = 1536 /\ acomplete nd' = true /\
       use_code_table (d_table k1) (table_of_bytes (d_target (acore nd'))) (last_mode ns ss) = Some (t, b) /\
       k2 = set_file k1 (d_version k1) (d_sizes k1) [] t /\ rest2 = finish_except (zlen (arest nd')) rest) as WPU.
    { intros k2 rest2 WP. inversion WP as [k3 u3 n3 data3 k4 r4 H4|k3 u3 n3 data3 k4 nd4 r4 nd5 ns5 ss5 t5 b5 H4 AC5 L5 C5 S5 U5]; subst; rewrite H in H4; [discriminate|].
      injection H4 as <- <- <-. pose proof (acr_fun _ _ _ A _ AC5) as EN. injection EN as ->. exists ns5, ss5, t5, b5. auto 10. }
    inversion CM as [u0 E1 E2|v ind p ns q ss kt nd0 X' Tn V BI I0 I1 VP VQ LN LS SO EK C E1 E2|h v tbl ns ss k2 W Tw k3 u0 HD SO BO1 S1 ST EV EA ED EL WC E1 E2]; subst.
    + assert (bytes_ok (X ++ data)) as BXD by (apply bytes_ok_app; auto).
      destruct (aheader_inv k None _ _ _ _ BXD S H) as (v & ind & tl & EX & V & I0 & BI & ALT).
      destruct ALT as [(_ & _ & Z & _)|(I1 & EN & p & q & ns & ss & -> & VP & VQ & NSR & SSR & EK & _)]; [discriminate|]. injection EN as ->.
      destruct (aheader_ok k None _ k1 _ rest BXD S BO H) as (BO' & BR & _).
      destruct a_table_fields as (kt & EKT & KS & KB & KT & KAL & KD & KW & KF & KP).
      assert (aok a_table /\ ~ stopped (acore a_table)) as [TO TN].
      { split; [apply a_table_ok|]. intros [_ Z]. revert Z. vm_compute. discriminate. }
      destruct (IH kt [] [] nd') as (Tn & CT & _); auto; [rewrite EKT; constructor|constructor|].
      pose proof (acr_ok _ _ _ A TO TN BR) as (AO & PL & ZR). destruct a_table_ok as (_ & PT & _). rewrite PT in PL.
      rewrite EX. change (hd5 v ind (p ++ q ++ rest)) with (file_header v ind ++ p ++ q ++ rest). subst k1. cbn [app] in CT |- *.
      destruct (AFTER kt nd' rest Tn k v ind p q ns ss rest (AOk a') a') as (Ts' & CM' & VS); auto; try lia; [exists []; reflexivity|unfold sizes_ok; lia|].
      exists Ts'. split; [exact CM'|]. split; [|left; cbn; rewrite S; reflexivity].
      intros k2 rest2 e WP NR VV. apply WPU in WP as (ns' & ss' & t & b & E1 & E2 & E3 & E4 & -> & ->).
      cbn [set_file d_sizes] in E1. injection E1 as <- <-. eapply VS; eauto.
    + cbn [app aheader set_file d_sizes] in H. injection H as <- <- <-.
      destruct a_table_fields as (kt' & EKT' & KS & KB & KT & KAL & KD & KW & KF & KP). rewrite EK in EKT'. injection EKT' as <-.
      inversion OK as [k0' u0 BO0 S2 BU HE E|k0' n0 ns1 ss1 BO0 S2 SO2 ON PN TN E|ns1 ss1 k0' u0 CO BU Q TI LI EX E]; subst.
      assert (~ stopped (acore nd0)) as NSN by (intros Z; apply (aok_stopped nd0 ON PN) in Z; lia).
      assert (bytes_ok X') as BX'.
      { apply bytes_ok_app in BX as [_ BX]. apply bytes_ok_app in BX as [_ BX]. apply bytes_ok_app in BX as [_ BX]. exact BX. }
      destruct (IH kt X' Tn nd') as (Tm & CT & _); auto.
      pose proof (acr_ok _ _ _ A ON NSN BY) as (AO & PL & ZR). rewrite PN in PL.
      rewrite <- !app_assoc. destruct (AFTER kt nd' (X' ++ data) (Tn ++ Tm) k0 v ind p q ns ss data (AOk a') a') as (Ts' & CM' & VS); auto; [apply bytes_ok_app; auto|exists X'; reflexivity|].
      exists Ts'. split; [exact CM'|]. split; [|left; reflexivity].
      intros k2 rest2 e WP NR VV. apply WPU in WP as (ns' & ss' & t & b & E1 & E2 & E3 & E4 & -> & ->).
      cbn [set_file d_sizes] in E1. injection E1 as <- <-. eapply VS; eauto.
    + unfold aheader in H. rewrite (wcame_core _ _ _ _ _ _ _ WC) in H. discriminate.
Qed.

Theorem acrs_sound : forall chunks a R, acrs a chunks R -> forall k X Ts a', came k a X Ts -> d_sizes k = None -> base_ok k -> d_table k = default_table ->
  aok a -> unplanned a -> bytes_ok X -> Forall bytes_ok chunks -> R = AOk a' -> (exists Ts', came k a' (X ++ concat chunks) (Ts ++ Ts')) /\ aok a'.
Proof.
  induction 1 as [a|a x tl r A N|a x tl a1 r A B IH]; intros k X Ts a' CM S BO DT OK UP BX F ER.
  - injection ER as <-. cbn. rewrite app_nil_r. split; [exists []; rewrite app_nil_r; exact CM|exact OK].
  - destruct (N _ ER).
  - inversion F as [|? ? BY F']; subst. pose proof (unplanned_stopped a UP) as NS.
    pose proof (acr_ok _ _ _ A OK NS BY) as (AO & PL & _).
    destruct (came_more _ _ _ A _ _ _ _ CM S BO DT OK NS BX BY eq_refl) as (Ts1 & CM1 & _).
    cbn [concat]. rewrite app_assoc. destruct (IH k (X ++ x) (Ts ++ Ts1) a' CM1) as ((Ts2 & CM2) & OK2); auto.
    + unfold unplanned, has_planned in *. rewrite PL. exact UP.
    + apply bytes_ok_app; auto.
    + split; [|exact OK2]. exists (Ts1 ++ Ts2). rewrite app_assoc. exact CM2.
Qed.

(** A file whose windows are known. *)
Lemma came_file : forall k a X Ts dict allow (ok : list Z -> list Z -> Prop), came k a X Ts -> aok a -> d_sizes k = None -> d_target k = [] -> unplanned a -> acomplete a = true ->
  d_allow k = allow -> d_dict k = dict -> (forall p T, limits k p T -> ok p T) ->
  vcd_file_parts lax lax allow ok dict X Ts /\ d_target (acore a) = concat Ts.
Proof.
  intros k a X Ts dict allow ok CM OK S T0 UA AC EA ED LM.
  destruct (list_eq_dec Z.eq_dec X []) as [EX|XN].
  { rewrite EX in *. remember [] as x eqn:EE in CM. destruct CM as [u| |h v0 tbl ns0 ss0 k1 W Tw k2 u HD]; [|discriminate|].
    - cbn. split; [constructor|exact T0].
    - inversion HD; subst; discriminate. }
  destruct (came_end k a _ _ CM OK S XN AC) as (h & v & tbl & ns & ss & ws & EX & HD & MF & WS & TG & ALT).
  split; [|exact TG]. destruct ALT as [AR|ST]; [|destruct (unplanned_stopped a UA ST)]. rewrite AR, app_nil_r in EX. rewrite EX.
  eapply fp_intro; [destruct ws; exact HD|exact MF|]. rewrite EA, ED in WS.
  refine (windows_parts_ext _ _ _ _ _ _ _ _ _ (tle_refl _) (tle_refl _) _ _ _ _ _ WS); [repeat split|exact LM].
Qed.

Lemma file_of_parts : forall t tl allow ok dict X Ts, vcd_file_parts t tl allow ok dict X Ts -> vcd_file t tl allow ok dict X (concat Ts).
Proof.
  intros t tl allow ok dict X Ts [|h v tbl ns ss ws parts HD MF WS]; [constructor|].
  eapply file_intro; eauto. apply windows_of_parts in WS. exact WS.
Qed.

Theorem stream_sound : forall d dict chunks out, idle_plain d -> bytes_ok dict -> Forall bytes_ok chunks ->
  decode_stream d dict chunks = Some (true, out) ->
  vcd_file lax lax (target_allowed d) (admits d) dict (concat chunks) out.
Proof.
  intros d dict chunks out IP BD F H. pose proof (idle_plain_idle d IP) as [ID _]. pose proof (idle_ready d ID) as RD.
  destruct (start_facts d dict IP BD) as (k & EA & S & BO & DT & DD & DA & UP & LM).
  destruct (start_ok d dict RD BD) as (_ & OK & U & _).
  destruct (stream_start d dict chunks RD BD F) as (R & A & M).
  unfold decode_stream in H.
  destruct (decode_chunks (start_decoding d dict) chunks []) as [[[d' [|]] o]|]; try discriminate.
  injection H as FN <-. destruct M as (a & -> & DR & OKA & UA). destruct (drel_finish _ _ _ DR OKA) as (c & n & -> & E & _). rewrite E in FN. cbn [snd] in FN.
  rewrite EA in *. destruct (acrs_sound _ _ _ A k [] [] a (came_start k []) S BO DT OK U ltac:(constructor) F eq_refl) as [(Ts & CM) _]. cbn [app] in CM.
  rewrite <- (drel_out _ _ _ DR).
  destruct (came_file k a _ _ dict (target_allowed d) (admits d) CM OKA S (bo_target _ BO) UA FN DA DD (fun p T => proj1 (LM p T))) as [FP ->].
  apply file_of_parts. exact FP.
Qed.
