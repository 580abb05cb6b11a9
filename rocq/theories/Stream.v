(** Whole streams: StartDecoding, DecodeChunk*, FinishDecoding. *)

From Verif Require Import Base Spec Varint VarintFacts AddrCache AddrCacheFacts CodeTable CodeTableFacts
  InstructionMap DecodeTable HeaderParser Adler AdlerFacts Decoder CopyFacts BodyFacts BodyExt WindowExt
  WindowHeader WindowStep Refine Totals Abstract FileHeader Chunk Sim.
From Coq Require Import ZifyBool ZifyNat.

(** A decoder on which StartDecoding may be called. *)
Definition ready (d : dec) : Prop :=
  let '(Dec c _) := d in
  d_started c = false /\ table_ok (d_table c) /\ 0 <= d_max_file c <= size_max.

Definition astart (d : dec) (dict : list Z) : adec :=
  let '(Dec c _) := d in ADec (full [] (start_core c dict)) [] None.

Lemma start_ok : forall d dict, ready d -> bytes_ok dict ->
  drel [] (start_decoding d dict) (astart d dict) /\ aok (astart d dict) /\ unplanned (astart d dict) /\
  d_max_file (acore (astart d dict)) = (let '(Dec c _) := d in d_max_file c).
Proof.
  intros [c n] dict (ST & T & M) BD. unfold start_decoding, astart. rewrite ST. split; [|split; [|split]].
  - change [] with (d_unparsed (start_core c dict)) at 2. apply drel_start; reflexivity.
  - apply aok_start; try reflexivity; [|constructor]. constructor; auto; cbn; try lia.
    unfold kUnlimitedBytes, size_max. lia.
  - reflexivity.
  - reflexivity.
Qed.

Lemma acr_bad_in : forall a x r, acr a x r -> forall a' y, r = AOk a' -> aok a -> ~ stopped (acore a) -> bytes_ok x -> bad_in a' y -> bad_in a (x ++ y).
Proof.
  assert (forall ns ss k data r a', arun k data r -> core_ok ns ss k -> bytes_ok data -> ~ stopped k -> collapse r = AOk a' -> forall y, bad_in a' y ->
    ns = 254 /\ ss = 0) as AR.
  { intros ns ss k data r a' R CO BD NS C y HE. pose proof (arun_ok _ _ _ R ns ss CO BD NS) as A.
    destruct r as [[k2 u2]|[k2 u2]| | |]; try discriminate; cbn in C; injection C as <-; cbn [bad_in] in HE;
    destruct A as (CO' & CS & _); rewrite (co_sizes _ _ _ CO') in HE; (destruct HE as [HE|[HE _]]; [injection HE as -> ->; auto|discriminate]). }
  induction 1 as [k u n x H|k u n x H|k u n x H|k u n x k' rest r H R|k u n x k' nd rest r1 r H A IH AF];
    intros a' y E OK NS BX HE; try discriminate.
  - injection E as <-. inversion OK as [k0 u0 BO S BU HE' E|k0 n0 ns ss BO S SO ON PN TN E|ns ss k0 u0 CO BU Q TI LI EX E]; subst;
      try (unfold aheader in H; rewrite ?S, ?(co_sizes _ _ _ CO) in H; discriminate).
    cbn [bad_in] in *. rewrite app_assoc. exact HE.
  - inversion OK as [k0 u0 BO S BU HE' E0|k0 n0 ns ss BO S SO ON PN TN E0|ns ss k0 u0 CO BU Q TI LI EX E0]; subst.
    + assert (bytes_ok (u ++ x)) as BUX by (apply bytes_ok_app; auto).
      destruct (aheader_ok k None _ k' None rest BUX S BO H) as (BO' & BR & (ns & ss & S' & SO) & _ & PL & _).
      destruct (base_core _ ns ss BO' S' SO) as (CO & TI & LI & NS').
      destruct (AR ns ss k' rest r a' R CO BR NS' E y HE) as [-> ->].
      destruct (aheader_inv k None _ _ _ _ BUX S H) as (v & ind & tl & _ & V & I0 & BI & ALT).
      destruct ALT as [(I1 & -> & X & ->)|(I1 & X & _)]; [|discriminate]. cbn in S'. discriminate.
    + unfold aheader in H. rewrite S in H. discriminate.
    + unfold aheader in H. rewrite (co_sizes _ _ _ CO) in H. injection H as <- <-.
      destruct (AR ns ss k (u ++ x) r a' R CO ltac:(apply bytes_ok_app; auto) NS E y HE) as [-> ->].
      left. apply (co_sizes _ _ _ CO).
  - assert (base_ok k' /\ bytes_ok rest /\ (exists ns ss, d_sizes k' = Some (ns, ss) /\ sizes_ok ns ss) /\ aok nd /\
      ~ stopped (acore nd) /\ d_planned (acore nd) = 1536 /\
      (d_sizes k' = Some (254, 0) \/ bad_in nd (rest ++ y) -> bad_in (ADec k u n) (x ++ y))) as
      (BO' & BR & (ns & ss & S' & SO) & ON & NN & PN & HX).
    { inversion OK as [k0 u0 BO S BU HE' E0|k0 n0 ns ss BO S SO ON PN TN E0|ns ss k0 u0 CO BU Q TI LI EX E0]; subst.
      - assert (bytes_ok (u ++ x)) as BUX by (apply bytes_ok_app; auto).
        destruct (aheader_ok k None _ k' (Some nd) rest BUX S BO H) as (BO' & BR & SS & NN & PL & _).
        destruct NN as [NN|NN]; [discriminate|]. injection NN as ->. destruct a_table_ok as (TO & TP & TT).
        split; [exact BO'|]. split; [exact BR|]. split; [exact SS|]. split; [exact TO|]. split; [|split; [exact TP|]].
        + intros [_ X]. revert X. vm_compute. discriminate.
        + destruct (aheader_inv k None _ _ _ _ BUX S H) as (v & ind & tl & EQ & V & I0 & BI & ALT).
          destruct ALT as [(I1 & -> & X & _)|(I1 & _ & p & q & n1 & s1 & -> & VP & VQ & _ & _ & -> & _)]; [discriminate|].
          cbn [bad_in]. rewrite app_assoc, EQ. intros X. right. split; [exact S|].
          replace (hd5 v ind (p ++ q ++ rest) ++ y) with (hd5 v ind (p ++ q ++ (rest ++ y))) by (unfold hd5; cbn [app]; rewrite <- !app_assoc; reflexivity).
          destruct X as [X|[X|[_ X]]]; [|discriminate|eapply bad_nested; eauto].
          cbn in X. injection X as -> ->. apply bad_here; auto.
      - unfold aheader in H. rewrite S in H. injection H as <- <- <-. cbn [app] in *.
        split; [exact BO|]. split; [exact BX|]. split; [eauto|]. split; [exact ON|]. split; [|split; [exact PN|auto]].
        intros ST. apply (aok_stopped n0 ON PN) in ST. lia.
      - unfold aheader in H. rewrite (co_sizes _ _ _ CO) in H. discriminate. }
    apply HX. subst r. pose proof (acr_ok _ _ _ A ON NN BR) as AO. inversion AF; subst.
    + cbn [bad_in] in HE. destruct HE as [HE|HE]; [left; exact HE|right]. eapply IH; eauto.
    + left. destruct AO as (AO1 & AO2 & _).
      match goal with X : d_sizes k' = Some (?a, ?b) |- _ => rewrite S' in X; injection X as <- <- end.
      match goal with X : use_code_table _ _ _ = Some _ |- _ => pose proof (after_core k' ns ss _ _ _ BO' S' SO AO1 ltac:(eassumption) X) as (CO & TI & LI & NS2 & Q & BO2) end.
      match goal with X : arun ?kk ?dd ?z |- _ => assert (ns = 254 /\ ss = 0) as [-> ->];
        [eapply (AR ns ss kk dd z a'); eauto|exact S'] end.
      apply bytes_finish_except; [apply zlen_nonneg|exact BR].
Qed.

Lemma bad_in_app : forall a x y, bad_in a x -> bad_in a (x ++ y).
Proof.
  fix IH 1. intros [k u [n|]] x y H; cbn [bad_in] in *; (destruct H as [H|H]; [left; exact H|right]).
  - apply IH. exact H.
  - destruct H as [S H]. split; [exact S|]. rewrite app_assoc. apply bad_cache_app. exact H.
Qed.

Definition same_cfg (k k' : core) : Prop :=
  d_dict k' = d_dict k /\ d_max_file k' = d_max_file k /\ d_max_window k' = d_max_window k /\
  d_allow k' = d_allow k /\ d_planned k' = d_planned k.

Lemma cstep_cfg : forall k k', cstep k k' -> same_cfg k k'.
Proof. intros k k' (w & s & m & t & ->). unfold same_cfg. auto 10. Qed.

Lemma acr_cfg : forall a x r, acr a x r -> forall a', r = AOk a' -> aok a -> ~ stopped (acore a) -> bytes_ok x -> same_cfg (acore a) (acore a').
Proof.
  assert (forall ns ss k data r a', arun k data r -> core_ok ns ss k -> bytes_ok data -> ~ stopped k -> collapse r = AOk a' ->
    same_cfg k (acore a')) as AR.
  { intros ns ss k data r a' R CO BD NS C. pose proof (arun_ok _ _ _ R ns ss CO BD NS) as A.
    destruct r as [[k2 u2]|[k2 u2]| | |]; try discriminate; cbn in C; injection C as <-; destruct A as (CO' & CS & _); apply cstep_cfg; exact CS. }
  intros a x r H. destruct H as [k u n x H|k u n x H|k u n x H|k u n x k' rest r H R|k u n x k' nd rest r1 r H A AF];
    intros a' E OK NS BX; try discriminate.
  - injection E as <-. unfold same_cfg. auto 10.
  - inversion OK as [k0 u0 BO S BU HE' E0|k0 n0 ns ss BO S SO ON PN TN E0|ns ss k0 u0 CO BU Q TI LI EX E0]; subst.
    + assert (bytes_ok (u ++ x)) as BUX by (apply bytes_ok_app; auto).
      destruct (aheader_ok k None _ k' None rest BUX S BO H) as (BO' & BR & (ns & ss & S' & SO) & _ & PL & _).
      destruct (base_core _ ns ss BO' S' SO) as (CO & TI & LI & NS').
      pose proof (AR ns ss k' rest r a' R CO BR NS' E) as SC.
      destruct (aheader_inv k None _ k' None rest BUX S H) as (v & ind & tl & EQ & V & I0 & BI & ALT).
      destruct ALT as [(I1 & -> & X & ->)|(I1 & X & _)]; [|discriminate]. exact SC.
    + unfold aheader in H. rewrite S in H. discriminate.
    + unfold aheader in H. rewrite (co_sizes _ _ _ CO) in H. injection H as <- <-.
      eapply (AR ns ss k (u ++ x) r a'); eauto. apply bytes_ok_app; auto.
  - assert (base_ok k' /\ bytes_ok rest /\ (exists ns ss, d_sizes k' = Some (ns, ss) /\ sizes_ok ns ss) /\ aok nd /\
      ~ stopped (acore nd) /\ d_planned (acore nd) = 1536 /\ same_cfg k k') as
      (BO' & BR & (ns & ss & S' & SO) & ON & NN & PN & HX).
    { inversion OK as [k0 u0 BO S BU HE' E0|k0 n0 ns ss BO S SO ON PN TN E0|ns ss k0 u0 CO BU Q TI LI EX E0]; subst.
      - assert (bytes_ok (u ++ x)) as BUX by (apply bytes_ok_app; auto).
        destruct (aheader_ok k None _ k' (Some nd) rest BUX S BO H) as (BO' & BR & SS & NN & PL & _).
        destruct NN as [NN|NN]; [discriminate|]. injection NN as ->. destruct a_table_ok as (TO & TP & TT).
        split; [exact BO'|]. split; [exact BR|]. split; [exact SS|]. split; [exact TO|]. split; [|split; [exact TP|]].
        + intros [_ X]. revert X. vm_compute. discriminate.
        + destruct (aheader_inv k None _ _ _ _ BUX S H) as (v & ind & tl & EQ & V & I0 & BI & ALT).
          destruct ALT as [(I1 & -> & X & _)|(I1 & _ & p & q & n1 & s1 & -> & VP & VQ & _ & _ & -> & _)]; [discriminate|].
          unfold same_cfg. auto 10.
      - unfold aheader in H. rewrite S in H. injection H as <- <- <-. cbn [app] in *.
        split; [exact BO|]. split; [exact BX|]. split; [eauto|]. split; [exact ON|]. split; [|split; [exact PN|unfold same_cfg; auto 10]].
        intros ST. apply (aok_stopped n0 ON PN) in ST. lia.
      - unfold aheader in H. rewrite (co_sizes _ _ _ CO) in H. discriminate. }
    subst r. pose proof (acr_ok _ _ _ A ON NN BR) as AO. cbn [acore]. inversion AF; subst.
    + exact HX.
    + destruct AO as (AO1 & AO2 & _).
      match goal with X : d_sizes k' = Some (?a, ?b) |- _ => rewrite S' in X; injection X as <- <- end.
      match goal with X : use_code_table _ _ _ = Some _ |- _ => pose proof (after_core k' ns ss _ _ _ BO' S' SO AO1 ltac:(eassumption) X) as (CO & TI & LI & NS2 & Q & BO2) end.
      match goal with X : arun ?kk ?dd ?z |- _ => assert (same_cfg kk (acore a')) as SC by (eapply (AR ns ss kk dd z a'); eauto; apply bytes_finish_except; [apply zlen_nonneg|exact BR]) end.
      unfold same_cfg in *. cbn in SC. intuition congruence.
Qed.

(** All calls. *)
Lemma stream_sim : forall chunks d O a out, drel O d a -> aok a -> unplanned a -> Forall bytes_ok chunks ->
  exists R, acrs a chunks R /\
  match decode_chunks d chunks out with
  | Some (d', true, out') => exists more a', out' = out ++ more /\ R = AOk a' /\ drel (O ++ more) d' a' /\ aok a' /\ unplanned a'
  | Some (d', false, out') => R = AErr /\ (exists more, out' = out ++ more /\ zlen (O ++ more) <= d_max_file (acore a)) /\ failed d'
  | None => R = AUB /\ bad_in a (concat chunks)
  end.
Proof.
  induction chunks as [|x tl IH]; intros d O a out DR OK UP F.
  { exists (AOk a). split; [constructor|]. cbn. exists [], a. rewrite !app_nil_r. auto. }
  inversion F; subst. pose proof (unplanned_stopped a UP) as NS.
  pose proof (decode_chunk_sim d x O a DR OK NS ltac:(auto)) as M.
  cbn [decode_chunks]. destruct (decode_chunk d x) as [d' [|] o| |]; try contradiction.
  - destruct M as (a' & AC & DR'). pose proof (acr_ok _ _ _ AC OK NS ltac:(auto)) as (OK' & PL & _).
    assert (unplanned a') as UP' by (unfold unplanned, has_planned in *; rewrite PL; exact UP).
    destruct (IH d' (O ++ o) a' (out ++ o) DR' OK' UP' ltac:(auto)) as (R & AR & M).
    exists R. split; [eapply acrs_cons; eauto|].
    destruct (decode_chunks d' tl (out ++ o)) as [[[d2 [|]] out2]|]; auto.
      * destruct M as (more & a2 & -> & -> & D2 & O2 & U2). exists (o ++ more), a2. rewrite !app_assoc. auto.
      * destruct M as (-> & (more & -> & Z) & FD). split; [reflexivity|]. split; [|exact FD]. exists (o ++ more). rewrite !app_assoc. split; [reflexivity|].
        assert (d_max_file (acore a') = d_max_file (acore a)) as <-; [|exact Z].
        apply (acr_cfg _ _ _ AC a' eq_refl OK NS). auto.
      * destruct M as [-> B]. split; [reflexivity|]. cbn [concat]. eapply acr_bad_in; eauto.
  - exists AErr. destruct M as (AC & Z & FD). split; [apply acrs_fail; [exact AC|discriminate]|]. split; [reflexivity|].
    split; [|exact FD]. exists o. auto.
  - exists AUB. split; [apply acrs_fail; [exact M|discriminate]|]. split; [reflexivity|]. cbn [concat]. apply bad_in_app.
    exact (acr_ok _ _ _ M OK NS ltac:(auto)).
Qed.
