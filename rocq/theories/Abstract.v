(** An abstract decoder, used to reason about DecodeChunk.

    It keeps all target data ([Refine]); the bytes output so far are its target;
    the bytes not yet parsed are kept outside of the core; and it is given by
    relations instead of fuelled functions. *)

From Verif Require Import Base Spec Varint VarintFacts AddrCache AddrCacheFacts CodeTable CodeTableFacts
  InstructionMap DecodeTable HeaderParser Adler AdlerFacts Decoder CopyFacts BodyFacts BodyExt WindowExt
  WindowHeader WindowStep.
From Coq Require Import ZifyBool ZifyNat.

Inductive adec := ADec (k : core) (u : list Z) (nested : option adec).
Inductive ares := AOk (a : adec) | AErr | AUB.

Definition acore (a : adec) : core := let '(ADec k _ _) := a in k.
Definition arest (a : adec) : list Z := let '(ADec _ u _) := a in u.
Definition anested (a : adec) : option adec := let '(ADec _ _ n) := a in n.

(** ** The loop over windows *)

Inductive arun : core -> list Z -> dres -> Prop :=
| run_nil : forall k, arun k [] (XOk (k, []))
| run_stop : forall k data k' rest, data <> [] -> decode_window k data = XOk (k', rest) ->
    reached_planned k' = true -> arun k data (XOk (k', rest))
| run_step : forall k data k' rest r, data <> [] -> decode_window k data = XOk (k', rest) ->
    reached_planned k' = false -> arun k' rest r -> arun k data r
| run_eod : forall k data p, data <> [] -> decode_window k data = XEod p -> arun k data (XEod p)
| run_err : forall k data, data <> [] -> decode_window k data = XErr -> arun k data XErr
| run_ub : forall k data, data <> [] -> decode_window k data = XUB -> arun k data XUB.

Definition collapse (r : dres) : ares :=
  match r with
  | XOk (k, u) | XEod (k, u) => AOk (ADec k u None)
  | XErr => AErr
  | _ => AUB
  end.

Lemma arun_fun : forall k data r, arun k data r -> forall r', arun k data r' -> r' = r.
Proof.
  induction 1 as [k|k data k' rest NE DW RP|k data k' rest r NE DW RP H IH|k data p NE DW|k data NE DW|k data NE DW];
    intros r' H'; inversion H'; subst; try congruence.
  match goal with E : decode_window k data = XOk (?a, ?b) |- _ => assert (a = k' /\ b = rest) as [-> ->] by (split; congruence) end.
  apply IH. auto.
Qed.

Definition mid (k : core) : nat := match d_win k with Some _ => 1 | None => 0 end.

Lemma arun_exists : forall n ns ss k data, (length data + mid k <= n)%nat -> core_ok ns ss k -> bytes_ok data ->
  exists r, arun k data r.
Proof.
  induction n as [|n IH]; intros ns ss k data L CO BD.
  { destruct data; [|cbn in L; lia]. eexists. constructor. }
  destruct data as [|b data0]; [eexists; constructor|]. set (data := b :: data0) in *.
  assert (data <> []) as NE by (unfold data; congruence). clearbody data. clear b data0.
  pose proof (decode_window_step k ns ss data [] CO BD ltac:(constructor)) as ST.
  destruct (decode_window k data) as [[k' rest]|p| | |] eqn:DW; try contradiction.
  - destruct ST as (CO' & _ & WN & BR & (used & EU & UN) & _).
    destruct (reached_planned k') eqn:RP; [eexists; eapply run_stop; eauto|].
    destruct (IH ns ss k' rest) as [r R]; auto.
    { unfold mid in *. rewrite WN. destruct (d_win k) eqn:DK.
      - rewrite EU, app_length in L. lia.
      - specialize (UN eq_refl). destruct used; [congruence|]. rewrite EU, app_length in L. cbn in L. lia. }
    exists r. eapply run_step; eauto.
  - eexists. eapply run_eod; eauto.
  - eexists. eapply run_err; eauto.
  - eexists. eapply run_ub; eauto.
Qed.

Lemma arun_total : forall ns ss k data, core_ok ns ss k -> bytes_ok data -> exists r, arun k data r.
Proof. intros. eapply arun_exists; eauto. Qed.

(** ** States between two calls *)

Definition stopped (k : core) : Prop := d_win k = None /\ reached_planned k = true.

Definition quiet (k : core) (u : list Z) : Prop :=
  (d_win k = None /\ u = []) \/ stopped k \/ exists p, decode_window k u = XEod p /\ srel p (k, u).

Lemma cstep_planned : forall c c', cstep c c' -> has_planned c' = has_planned c /\ d_planned c' = d_planned c.
Proof. intros c c' (w & s & m & t & ->). split; reflexivity. Qed.

(** What a run leaves. *)
Lemma arun_ok : forall k data r, arun k data r -> forall ns ss, core_ok ns ss k -> bytes_ok data -> ~ stopped k ->
  match r with
  | XOk (k', u) | XEod (k', u) =>
      core_ok ns ss k' /\ cstep k k' /\ bytes_ok u /\ (exists used, data = used ++ u) /\ (data = [] -> k' = k) /\
      ((data = [] /\ k' = k /\ u = []) \/ quiet k' u) /\ (u <> [] -> ~ stopped k' -> quiet k' u)
  | XErr => True
  | XUB => ns = 254 /\ ss = 0
  | XFuel => False
  end.
Proof.
  induction 1 as [k|k data k' rest NE DW RP|k data k' rest r NE DW RP H IH|k data p NE DW|k data NE DW|k data NE DW]; intros ns ss CO BD NS.
  - split; [exact CO|]. split; [apply cstep_refl|]. split; [constructor|]. split; [exists []; reflexivity|].
    split; [reflexivity|]. split; [left; auto|congruence].
  - pose proof (decode_window_step k ns ss data [] CO BD ltac:(constructor)) as ST. rewrite DW in ST.
    destruct ST as (CO' & CS & WN & BR & (used & EU & UN) & _).
    split; [exact CO'|]. split; [exact CS|]. split; [exact BR|]. split; [exists used; exact EU|].
    split; [congruence|]. assert (quiet k' rest) as Q by (right; left; split; auto). auto.
  - pose proof (decode_window_step k ns ss data [] CO BD ltac:(constructor)) as ST. rewrite DW in ST.
    destruct ST as (CO' & CS & WN & BR & (used & EU & UN) & _).
    assert (~ stopped k') as NS' by (intros [_ X]; congruence).
    specialize (IH ns ss CO' BR NS').
    destruct r as [[k2 u]|[k2 u]| | |]; auto.
    + destruct IH as (A1 & A2 & A3 & (us2 & A4) & A5 & A6 & A7). split; [exact A1|]. split; [eapply cstep_trans; eauto|]. split; [exact A3|].
      split; [exists (used ++ us2); rewrite <- app_assoc, <- A4; exact EU|]. split; [congruence|].
      split; [|exact A7]. destruct A6 as [(B1 & B2 & B3)|A6]; [|auto]. right. left. subst. auto.
    + destruct IH as (A1 & A2 & A3 & (us2 & A4) & A5 & A6 & A7). split; [exact A1|]. split; [eapply cstep_trans; eauto|]. split; [exact A3|].
      split; [exists (used ++ us2); rewrite <- app_assoc, <- A4; exact EU|]. split; [congruence|].
      split; [|exact A7]. destruct A6 as [(B1 & B2 & B3)|A6]; [|auto]. right. left. subst. auto.
  - pose proof (decode_window_step k ns ss data [] CO BD ltac:(constructor)) as ST. rewrite DW in ST.
    destruct p as [k' u]. destruct ST as (CO' & CS & BR & (used & EU) & ALT & WR).
    split; [exact CO'|]. split; [exact CS|]. split; [exact BR|]. split; [exists used; exact EU|]. split; [congruence|].
    assert (quiet k' u) as Q; [|auto]. right. right. rewrite !app_nil_r, DW in WR.
    destruct (decode_window k' u) as [|p'| | |]; cbn in WR; try discriminate. exists p'. auto.
  - exact I.
  - pose proof (decode_window_step k ns ss data [] CO BD ltac:(constructor)) as ST. rewrite DW in ST. tauto.
Qed.

(** ** Relation between states and outcomes *)

Definition wsim (r r' : ares) : Prop :=
  match r, r' with
  | AOk (ADec k u None), AOk (ADec k' u' None) => srel (k, u) (k', u')
  | AErr, AErr => True
  | AUB, AUB => True
  | _, _ => False
  end.

Lemma srel_refl : forall p, srel p p. Proof. left. reflexivity. Qed.

Lemma arun_det_wsim : forall k data r r', arun k data r -> arun k data r' ->
  wsim (collapse r) (collapse r').
Proof.
  intros k data r r' H H'. rewrite (arun_fun _ _ _ H _ H'). destruct r as [[a b]|[a b]| | |]; cbn; auto using srel_refl.
Qed.

Lemma arun_cont : forall ns ss k d k' d' r r', core_ok ns ss k -> core_ok ns ss k' ->
  arun k d r -> arun k' d' r' -> d <> [] -> d' <> [] -> wrel (decode_window k d) (decode_window k' d') ->
  wsim (collapse r) (collapse r').
Proof.
  intros ns ss k d k' d' r r' CO CO' H H' NE NE' W.
  inversion H; subst; try congruence; rewrite H1 in W; inversion H'; subst; try congruence; 
    match goal with E : decode_window k' d' = _ |- _ => rewrite E in W; cbn in W; try congruence end.
  - injection W as -> ->. cbn. apply srel_refl.
  - injection W as -> ->. eapply arun_det_wsim; eauto.
  - destruct p, p0. exact W.
  - exact I.
  - exact I.
Qed.

Lemma set_next_win_id : forall k w, d_win k = Some w -> w_pending w = None ->
  set_win k (Some (next_win w (w_expected w + 0) None (w_cache w))) (d_start k) (d_target k) (d_total k) = k.
Proof.
  intros k w W P. transitivity (set_win k (d_win k) (d_start k) (d_target k) (d_total k)); [|apply set_win_same]. rewrite W. f_equal. f_equal.
  destruct w. cbn in *. rewrite P. unfold next_win. cbn. f_equal. lia.
Qed.

(** States that differ in unread no-op opcodes behave alike. *)
Lemma arun_srel : forall ns ss k u k' u' y r r', core_ok ns ss k -> srel (k, u) (k', u') -> bytes_ok u -> bytes_ok y ->
  quiet k u -> arun k (u ++ y) r -> arun k' (u' ++ y) r' -> wsim (collapse r) (collapse r').
Proof.
  intros ns ss k u k' u' y r r' CO SR BU BY Q H H'.
  destruct (srel_core_ok ns ss k u k' u' CO SR BU) as [CO' BU'].
  pose proof (decode_window_srel ns ss k u k' u' y CO SR BU BY) as W.
  destruct SR as [E|(w & nops & WK & P & L & F & E)].
  { injection E as <- <-. eapply arun_det_wsim; eauto. }
  cbn [fst snd] in *.
  destruct (list_eq_dec Z.eq_dec nops []) as [->|NN].
  { rewrite zlen_nil in E. rewrite set_next_win_id in E by auto. injection E as <- <-.
    eapply arun_det_wsim; eauto. }
  injection E as EK EU.
  assert (u' ++ y <> []) as NE'. { subst u'. destruct nops; [congruence|discriminate]. }
  destruct (list_eq_dec Z.eq_dec (u ++ y) []) as [EE|NE].
  - apply app_eq_nil in EE as [-> ->]. cbn [app] in *.
    inversion H; subst; try congruence. cbn [collapse].
    assert (exists p, decode_window k [] = XEod p /\ srel p (k, [])) as (p & DW & SP).
    { destruct Q as [[Q _]|[[Q _]|Q]]; congruence. }
    assert (p = (k, [])) as ->.
    { destruct SP as [SP|(w2 & n2 & W2 & P2 & L2 & F2 & SP)]; [exact SP|].
      destruct p as [k2 u2]. cbn [fst snd] in *. injection SP as S1 S2. symmetry in S2. apply app_eq_nil in S2 as [-> ->].
      rewrite zlen_nil in S1. rewrite set_next_win_id in S1 by auto. congruence. }
    rewrite DW in W. inversion H'; subst; try congruence;
      match goal with E : decode_window _ (_ ++ []) = _ |- _ => rewrite E in W; cbn in W; try congruence end.
    destruct p as [k3 u3]. cbn [wsim collapse]. exact W.
  - exact (arun_cont ns ss k _ k' _ r r' CO CO' H H' NE NE' W).
Qed.

(** Two calls against one. *)
Lemma arun_two : forall k x r, arun k x r -> forall ns ss y r2, core_ok ns ss k -> bytes_ok x -> bytes_ok y -> ~ stopped k ->
  arun k (x ++ y) r2 ->
  match r with
  | XOk (k', u) | XEod (k', u) =>
      (stopped k' /\ r2 = XOk (k', u ++ y)) \/
      (~ stopped k' /\ exists r3, arun k' (u ++ y) r3 /\ wsim (collapse r3) (collapse r2)) \/
      ((allow_extensions k = true \/ d_win k <> None) /\ (y <> [] /\ u = []) /\ r2 = XErr)
  | XErr => r2 = XErr
  | XUB => r2 = XUB
  | XFuel => False
  end.
Proof.
  induction 1 as [k|k data k' rest NE DW RP|k data k' rest r NE DW RP H IH|k data p NE DW|k data NE DW|k data NE DW]; intros ns ss y r2 CO BD BY NS H2.
  - right. left. split; [exact NS|]. exists r2. split; [exact H2|]. eapply arun_det_wsim; eauto.
  - pose proof (decode_window_step k ns ss data y CO BD BY) as ST. rewrite DW in ST.
    destruct ST as (CO' & CS & WN & BR & (used & EU & UN) & ALT).
    assert (data ++ y <> []) as NE2 by (destruct data; [congruence|discriminate]).
    destruct ALT as [ALT|(X & RE & ALT)].
    + left. split; [split; auto|]. inversion H2; subst; try congruence.
    + destruct (list_eq_dec Z.eq_dec y []) as [->|YN].
      * left. split; [split; auto|]. rewrite app_nil_r in H2. inversion H2; subst; try congruence.
        rewrite app_nil_r. congruence.
      * right. right. split; [exact X|]. split; [split; [exact YN|exact RE]|]. specialize (ALT YN). inversion H2; subst; congruence.
  - pose proof (decode_window_step k ns ss data y CO BD BY) as ST. rewrite DW in ST.
    destruct ST as (CO' & CS & WN & BR & (used & EU & UN) & ALT).
    assert (data ++ y <> []) as NE2 by (destruct data; [congruence|discriminate]).
    assert (~ stopped k') as NS' by (intros [_ X]; congruence).
    assert (decode_window k (data ++ y) = XOk (k', rest ++ y) \/ (rest = [] /\ y <> [] /\ (allow_extensions k = true \/ d_win k <> None) /\ decode_window k (data ++ y) = XErr)) as ALT2.
    { destruct ALT as [ALT|(X & RE & ALT)]; [auto|].
      destruct (list_eq_dec Z.eq_dec y []) as [->|YN]; [left; rewrite !app_nil_r; exact DW|right; auto 10]. }
    clear ALT. destruct ALT2 as [ALT|(RE & YN & X & ALT)].
    + assert (arun k' (rest ++ y) r2) as H2' by (inversion H2; subst; congruence).
      specialize (IH ns ss y r2 CO' BR BY NS' H2').
      assert (allow_extensions k' = allow_extensions k) as AE by (destruct CS as (a1 & a2 & a3 & a4 & ->); reflexivity).
      rewrite AE in IH. destruct r as [[k2 u]|[k2 u]| | |]; auto.
      * destruct IH as [IH|[IH|([IH|IH] & IH2)]]; auto. congruence.
      * destruct IH as [IH|[IH|([IH|IH] & IH2)]]; auto. congruence.
    + assert (r2 = XErr) as -> by (inversion H2; subst; congruence).
      subst rest. inversion H; subst; try congruence. auto 10.
  - pose proof (decode_window_step k ns ss data y CO BD BY) as ST. rewrite DW in ST.
    destruct p as [k' u]. destruct ST as (CO' & CS & BR & (used & EU) & ALT & WR).
    right. left. split.
    { intros [X1 X2]. destruct ALT as [[-> ->]|[_ (w & X)]]; [apply NS; split; auto|congruence]. }
    destruct (arun_total ns ss k' (u ++ y) CO' ltac:(apply bytes_ok_app; auto)) as [r3 H3].
    exists r3. split; [exact H3|].
    assert (data ++ y <> []) as NE2 by (destruct data; [congruence|discriminate]).
    destruct (list_eq_dec Z.eq_dec (u ++ y) []) as [EE|NE3].
    + apply app_eq_nil in EE as [-> ->]. rewrite app_nil_r in *. inversion H3; subst; try congruence.
      inversion H2; subst; try congruence.
      match goal with E : decode_window k _ = XEod ?p |- _ => assert (p = (k', [])) as -> by congruence end.
      cbn. apply srel_refl.
    + exact (arun_cont ns ss k' _ k _ r3 r2 CO' CO H3 H2 NE3 NE2 WR).
  - pose proof (decode_window_step k ns ss data y CO BD BY) as ST. rewrite DW in ST.
    assert (data ++ y <> []) as NE2 by (destruct data; [congruence|discriminate]).
    inversion H2; subst; congruence.
  - pose proof (decode_window_step k ns ss data y CO BD BY) as ST. rewrite DW in ST. destruct ST as [_ ST].
    assert (data ++ y <> []) as NE2 by (destruct data; [congruence|discriminate]).
    inversion H2; subst; congruence.
Qed.
