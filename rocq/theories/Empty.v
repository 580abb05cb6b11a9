(** Calls of DecodeChunk without data. *)

From Verif Require Import Base ListFacts Spec Varint AddrCache CodeTable CodeTableFacts HeaderParser InstructionMap DecodeTable Decoder BodyFacts WindowExt WindowStep Refine Totals Abstract
  FileHeader Chunk Sim Usable Stream Session.
From Coq Require Import ZifyBool ZifyNat.

Lemma asim_refl : forall a x r, acr a x r -> aok a -> ~ stopped (acore a) -> bytes_ok x -> asim r r.
Proof. intros a x r A OK NS BX. pose proof (acr_ok _ _ _ A OK NS BX) as O. destruct r; cbn; auto. apply arel_refl_aok. tauto. Qed.

(** Related states behave alike. *)
Lemma acr_arel : forall a a', arel a a' -> forall y r r', aok a -> ~ stopped (acore a) -> bytes_ok y -> acr a y r -> acr a' y r' -> asim r r'.
Proof.
  induction 1 as [k u k' u' SR|k u n n' H IH]; intros y r r' OK NS BY A A'.
  - inversion OK as [k0 u0 BO S BU HE E|k0 n0 ns ss BO S SO ON PN TN E|ns ss k0 u0 CO BU Q TI LI EX E]; subst.
    + destruct (srel_fields _ _ _ _ SR) as (_ & W & _). destruct (W (bo_win _ BO)) as [-> ->].
      rewrite (acr_fun _ _ _ A _ A'). eapply asim_refl; eauto.
    + destruct (srel_fields _ _ _ _ SR) as (_ & _ & _ & S' & _).
      assert (aheader k None (u ++ y) = Ok (k, None, u ++ y)) as HD by (unfold aheader; rewrite (co_sizes _ _ _ CO); reflexivity).
      assert (aheader k' None (u' ++ y) = Ok (k', None, u' ++ y)) as HD' by (unfold aheader; rewrite S', (co_sizes _ _ _ CO); reflexivity).
      assert (exists q, arun k (u ++ y) q /\ r = collapse q) as (q & RQ & ->).
      { inversion A; subst; rewrite HD in *; try discriminate. match goal with X : Ok _ = Ok _ |- _ => injection X as <- <- end. eauto. }
      assert (exists q, arun k' (u' ++ y) q /\ r' = collapse q) as (q' & RQ' & ->).
      { inversion A'; subst; rewrite HD' in *; try discriminate. match goal with X : Ok _ = Ok _ |- _ => injection X as <- <- end. eauto. }
      apply wsim_asim. exact (arun_srel ns ss k u k' u' y q q' CO SR BU BY Q RQ RQ').
  - inversion OK as [k0 u0 BO S BU HE E|k0 n0 ns ss BO S SO ON PN TN E|ns ss k0 u0 CO BU Q TI LI EX E]; subst. cbn [app] in *.
    assert (forall m, aheader k (Some m) ([] ++ y) = Ok (k, Some m, y)) as HD by (intros m; unfold aheader; rewrite S; reflexivity).
    assert (exists r1, acr n y r1 /\ after k y r1 r) as (r1 & R1 & AF).
    { inversion A; subst; rewrite HD in *; try discriminate. match goal with X : Ok _ = Ok _ |- _ => injection X as <- <- <- end. eauto. }
    assert (exists r1, acr n' y r1 /\ after k y r1 r') as (r1' & R1' & AF').
    { inversion A'; subst; rewrite HD in *; try discriminate. match goal with X : Ok _ = Ok _ |- _ => injection X as <- <- <- end. eauto. }
    assert (~ stopped (acore n)) as NN by (intros X; apply (aok_stopped n ON PN) in X; lia).
    specialize (IH y r1 r1' ON NN BY R1 R1'). pose proof (acr_ok _ _ _ R1 ON NN BY) as AO.
    destruct r1 as [m| |]; destruct r1' as [m'| |]; cbn in IH; try contradiction.
    + destruct AO as (AO & PL & NE). rewrite PN in PL. destruct (arel_acore m m' IH AO) as (TE & CE & EQ & _).
      destruct (aok_stopped m AO PL) as [SI SL].
      destruct (Z.ltb_spec (zlen (d_target (acore m))) 1536) as [L|L].
      * inversion AF; subst; try lia. inversion AF'; subst; rewrite TE in *; try lia. cbn. constructor. exact IH.
      * assert (stopped (acore m)) as ST by (apply SI; lia). rewrite (EQ ST) in *. rewrite (after_fun _ _ _ _ AF' _ AF).
        pose proof (after_ok k ns ss y (AOk m) r' BO S SO BY) as AOK.
        assert (forall nd, AOk m = AOk nd -> aok nd /\ d_planned (acore nd) = 1536) as X by (intros nd0 E; injection E as <-; auto).
        rewrite (after_fun _ _ _ _ AF' _ AF) in AF. specialize (AOK X AF'). destruct r'; cbn; auto. apply arel_refl_aok. tauto.
    + inversion AF; subst. inversion AF'; subst. exact Logic.I.
    + inversion AF; subst. inversion AF'; subst. exact Logic.I.
Qed.

Lemma acr_empty : forall a, aok a -> ~ stopped (acore a) -> forall r, acr a [] r -> exists a1, r = AOk a1 /\ arel a1 a.
Proof.
  induction 1 as [k u BO S BU HE|k n ns ss BO S SO ON IH PN TN|ns ss k u CO BU Q TI LI EX]; intros NS r A.
  - exists (ADec k u None). split; [|constructor; apply srel_refl]. inversion A; subst; rewrite app_nil_r in *; congruence.
  - assert (aheader k (Some n) ([] ++ []) = Ok (k, Some n, [])) as HD by (unfold aheader; rewrite S; reflexivity).
    assert (exists r1, acr n [] r1 /\ after k [] r1 r) as (r1 & R1 & AF).
    { inversion A; subst; rewrite HD in *; try discriminate. match goal with X : Ok _ = Ok _ |- _ => injection X as <- <- <- end. eauto. }
    assert (~ stopped (acore n)) as NN by (intros X; apply (aok_stopped n ON PN) in X; lia).
    destruct (IH NN r1 R1) as (n1 & -> & AR). pose proof (acr_ok _ _ _ R1 ON NN ltac:(constructor)) as (O1 & _).
    destruct (arel_acore _ _ AR O1) as (TE & _). rewrite TE in TN.
    inversion AF; subst; try lia. eexists. split; [reflexivity|]. constructor. exact AR.
  - assert (aheader k None (u ++ []) = Ok (k, None, u)) as HD by (unfold aheader; rewrite (co_sizes _ _ _ CO), app_nil_r; reflexivity).
    assert (exists q, arun k u q /\ r = collapse q) as (q & RQ & ->).
    { inversion A; subst; rewrite HD in *; try discriminate. match goal with X : Ok _ = Ok _ |- _ => injection X as <- <- end. eauto. }
    destruct (list_eq_dec Z.eq_dec u []) as [->|NE].
    { inversion RQ; subst; try congruence. eexists. split; [reflexivity|]. constructor. apply srel_refl. }
    destruct Q as [[_ X]|[X|([k1 u1] & DW & SR)]]; [congruence|contradiction|].
    inversion RQ; subst; try congruence. assert (p = (k1, u1)) as -> by congruence. eexists. split; [reflexivity|]. constructor. exact SR.
Qed.

Lemma acrs_arel : forall l a a' r r', arel a a' -> aok a -> unplanned a -> aok a' -> unplanned a' -> Forall bytes_ok l -> acrs a l r -> acrs a' l r' -> asim r r'.
Proof.
  induction l as [|x l IH]; intros a a' r r' AR OK UP OK' UP' F A A'.
  - inversion A; subst. inversion A'; subst. exact AR.
  - inversion F as [|? ? BX FL]; subst. pose proof (unplanned_stopped a UP) as NS. pose proof (unplanned_stopped a' UP') as NS'.
    assert (forall b, acr a x (AOk b) -> aok b /\ unplanned b) as KB.
    { intros b B. pose proof (acr_ok _ _ _ B OK NS BX) as (O & P & _). split; [exact O|]. unfold unplanned, has_planned in *. rewrite P. exact UP. }
    assert (forall b, acr a' x (AOk b) -> aok b /\ unplanned b) as KB'.
    { intros b B. pose proof (acr_ok _ _ _ B OK' NS' BX) as (O & P & _). split; [exact O|]. unfold unplanned, has_planned in *. rewrite P. exact UP'. }
    inversion A as [|? ? ? ? B N|? ? ? b ? B C]; inversion A' as [|? ? ? ? B' N'|? ? ? b' ? B' C']; subst.
    + eapply acr_arel; eauto.
    + pose proof (acr_arel a a' AR x _ _ OK NS BX B B') as S. destruct r as [z| |]; cbn in S; try contradiction. destruct (N z eq_refl).
    + pose proof (acr_arel a a' AR x _ _ OK NS BX B B') as S. destruct r' as [z| |]; cbn in S; try contradiction. destruct (N' z eq_refl).
    + pose proof (acr_arel a a' AR x _ _ OK NS BX B B') as S. cbn in S. destruct (KB _ B), (KB' _ B'). eapply IH; eauto.
Qed.

Lemma acrs_empty : forall l1 a l2 r1 r2, aok a -> unplanned a -> Forall bytes_ok (l1 ++ l2) -> acrs a (l1 ++ [] :: l2) r1 -> acrs a (l1 ++ l2) r2 -> asim r1 r2.
Proof.
  induction l1 as [|x l1 IH]; intros a l2 r1 r2 OK UP F A1 A2; cbn [app] in *; pose proof (unplanned_stopped a UP) as NS.
  - inversion A1 as [|? ? ? ? B N|? ? ? b ? B C]; subst; destruct (acr_empty a OK NS _ B) as (a1 & E & AR); [destruct (N _ E)|].
    injection E as ->. pose proof (acr_ok _ _ _ B OK NS ltac:(constructor)) as (O & P & _).
    eapply acrs_arel; eauto. unfold unplanned, has_planned in *. rewrite P. exact UP.
  - inversion F as [|? ? BX FL]; subst.
    inversion A1 as [|? ? ? ? B N|? ? ? b ? B C]; inversion A2 as [|? ? ? ? B' N'|? ? ? b' ? B' C']; subst.
    + rewrite (acr_fun _ _ _ B _ B'). eapply asim_refl; eauto.
    + pose proof (acr_fun _ _ _ B _ B') as E. destruct (N _ (eq_sym E)).
    + pose proof (acr_fun _ _ _ B _ B') as E. destruct (N' _ E).
    + pose proof (acr_fun _ _ _ B _ B') as E. injection E as ->. pose proof (acr_ok _ _ _ B OK NS BX) as (O & P & _).
      eapply IH; eauto. unfold unplanned, has_planned in *. rewrite P. exact UP.
Qed.

(** Sessions that agree up to [asim] have the same result. *)
Lemma asim_result : forall d dict l1 l2, ready d -> bytes_ok dict -> Forall bytes_ok l1 -> Forall bytes_ok l2 ->
  (forall a b, acrs (astart d dict) l1 a -> acrs (astart d dict) l2 b -> asim a b) ->
  same_result (decode_stream d dict l1) (decode_stream d dict l2).
Proof.
  intros d dict l1 l2 RD BD F1 F2 S.
  destruct (stream_start d dict l1 RD BD F1) as (R1 & A1 & M1). destruct (stream_start d dict l2 RD BD F2) as (R2 & A2 & M2).
  specialize (S _ _ A1 A2). unfold decode_stream.
  destruct (decode_chunks (start_decoding d dict) l1 []) as [[[d1 [|]] o1]|]; destruct (decode_chunks (start_decoding d dict) l2 []) as [[[d2 [|]] o2]|]; cbn [same_result].
  - destruct M1 as (a1 & -> & D1 & O1 & U1). destruct M2 as (a2 & -> & D2 & O2 & U2). cbn in S.
    destruct (arel_acore _ _ S O1) as (T & AC & _). rewrite (drel_out _ _ _ D1), (drel_out _ _ _ D2) in T.
    destruct (drel_finish _ _ _ D1 O1) as (c1 & n1 & -> & -> & _). destruct (drel_finish _ _ _ D2 O2) as (c2 & n2 & -> & -> & _). cbn. split; congruence.
  - destruct M1 as (a1 & -> & _). destruct M2 as (-> & _). contradiction.
  - destruct M1 as (a1 & -> & _). destruct M2 as (-> & _). contradiction.
  - destruct M2 as (a1 & -> & _). destruct M1 as (-> & _). contradiction.
  - split; [reflexivity|discriminate].
  - destruct M1 as (-> & _). destruct M2 as (-> & _). contradiction.
  - destruct M2 as (a1 & -> & _). destruct M1 as (-> & _). contradiction.
  - destruct M1 as (-> & _). destruct M2 as (-> & _). contradiction.
  - exact Logic.I.
Qed.
