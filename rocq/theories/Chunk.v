(** The abstract decoder at the level of DecodeChunk calls. *)

From Verif Require Import Base Spec Varint VarintFacts AddrCache AddrCacheFacts CodeTable CodeTableFacts
  InstructionMap DecodeTable HeaderParser Adler AdlerFacts Decoder CopyFacts BodyFacts BodyExt WindowExt
  WindowHeader WindowStep Refine Totals Abstract FileHeader.
From Coq Require Import ZifyBool ZifyNat.

Definition acomplete (a : adec) : bool :=
  let '(ADec k u n) := a in
  match d_sizes k, n, d_win k with
  | None, _, _ => negb (nonempty u)
  | _, Some _, _ => false
  | _, _, Some _ => false
  | _, _, _ => if reached_planned k then true else negb (nonempty u)
  end.

(** What happens with the result of the nested decoder. *)
Inductive after (k : core) (rest : list Z) : ares -> ares -> Prop :=
| after_err : after k rest AErr AErr
| after_ub : after k rest AUB AUB
| after_more : forall nd, zlen (d_target (acore nd)) < 1536 -> after k rest (AOk nd) (AOk (ADec k [] (Some nd)))
| after_bad : forall nd, 1536 <= zlen (d_target (acore nd)) ->
    acomplete nd = false \/ zlen (d_target (acore nd)) <> 1536 -> after k rest (AOk nd) AErr
| after_done : forall nd ns ss t b r, zlen (d_target (acore nd)) = 1536 -> acomplete nd = true ->
    d_sizes k = Some (ns, ss) ->
    use_code_table (d_table k) (table_of_bytes (d_target (acore nd))) (last_mode ns ss) = Some (t, b) ->
    arun (set_file k (d_version k) (d_sizes k) [] t) (finish_except (zlen (arest nd)) rest) r ->
    after k rest (AOk nd) (collapse r).

(** One DecodeChunk call. *)
Inductive acr : adec -> list Z -> ares -> Prop :=
| acr_err : forall k u n data, aheader k n (u ++ data) = Err -> acr (ADec k u n) data AErr
| acr_eod : forall k u n data, aheader k n (u ++ data) = Eod -> acr (ADec k u n) data (AOk (ADec k (u ++ data) n))
| acr_ub : forall k u n data, aheader k n (u ++ data) = UB -> acr (ADec k u n) data AUB
| acr_win : forall k u n data k' rest r, aheader k n (u ++ data) = Ok (k', None, rest) -> arun k' rest r ->
    acr (ADec k u n) data (collapse r)
| acr_table : forall k u n data k' nd rest r1 r, aheader k n (u ++ data) = Ok (k', Some nd, rest) ->
    acr nd rest r1 -> after k' rest r1 r -> acr (ADec k u n) data r.

Lemma after_fun : forall k rest r1 r, after k rest r1 r -> forall r', after k rest r1 r' -> r' = r.
Proof.
  destruct 1 as [| |nd L|nd L B|nd ns ss t b r L C S U R]; intros r' H'; inversion H'; subst; auto;
    try lia; try (exfalso; match goal with X : _ \/ _ |- _ => destruct X; congruence end); try congruence.
  rewrite S in *. match goal with X : Some (ns, ss) = Some (_, _) |- _ => injection X as <- <- end.
  rewrite U in *. match goal with X : Some (t, b) = Some (_, _) |- _ => injection X as <- <- end.
  f_equal. eapply arun_fun; eauto.
Qed.

Lemma acr_fun : forall a data r, acr a data r -> forall r', acr a data r' -> r' = r.
Proof.
  induction 1 as [k u n data H|k u n data H|k u n data H|k u n data k' rest r H R|k u n data k' nd rest r1 r H A IH AF];
    intros r' H'; inversion H'; subst; try congruence.
  - rewrite H in *. match goal with X : Ok _ = Ok _ |- _ => injection X as <- <- end.
    f_equal. eapply arun_fun; eauto.
  - rewrite H in *. match goal with X : Ok _ = Ok _ |- _ => injection X as <- <- <- end.
    match goal with X : acr nd rest ?z |- _ => rewrite (IH _ X) in * end. eapply after_fun; eauto.
Qed.

(** ** Invariant *)

Record base_ok (k : core) : Prop := {
  bo_table : table_ok (d_table k);
  bo_dict : bytes_ok (d_dict k);
  bo_target : d_target k = [];
  bo_win : d_win k = None;
  bo_start : d_start k = 0;
  bo_total : d_total k = 0;
  bo_max : 0 <= d_max_file k <= size_max;
  bo_plan : 0 <= d_planned k <= size_max;
  bo_more : reached_planned k = false
}.

Definition sizes_ok (ns ss : Z) : Prop := 0 <= ns <= 255 /\ 0 <= ss <= 255.

(** Only windows in the interleaved format are ever left unfinished. *)
Definition ext_win (k : core) : Prop := d_win k <> None -> allow_extensions k = true.

Inductive aok : adec -> Prop :=
| aok_start : forall k u, base_ok k -> d_sizes k = None -> bytes_ok u -> aheader k None u = Eod -> aok (ADec k u None)
| aok_nested : forall k n ns ss, base_ok k -> d_sizes k = Some (ns, ss) -> sizes_ok ns ss ->
    aok n -> d_planned (acore n) = 1536 -> zlen (d_target (acore n)) < 1536 -> aok (ADec k [] (Some n))
| aok_win : forall ns ss k u, core_ok ns ss k -> bytes_ok u -> quiet k u -> tot_inv k -> lim_inv k ->
    ext_win k -> aok (ADec k u None).

Lemma base_file : forall k v s t z, base_ok k -> table_ok t -> base_ok (set_file k v z s t).
Proof. intros k v s t z [] T. constructor; auto. Qed.

Lemma base_core : forall k ns ss, base_ok k -> d_sizes k = Some (ns, ss) -> sizes_ok ns ss ->
  core_ok ns ss k /\ tot_inv k /\ lim_inv k /\ ~ stopped k.
Proof.
  intros k ns ss B S (NS & SS). destruct B as [T D G W ST TT MX PL MO].
  split; [|split; [|split]].
  - constructor; auto; try lia; rewrite ?G, ?W, ?ST; auto; [constructor|discriminate].
  - unfold tot_inv. rewrite W, TT, G, ST. split; [lia|]. auto.
  - unfold lim_inv. rewrite TT. split; [lia|]. split; [lia|]. split; [lia|]. intros. lia.
  - intros [_ X]. congruence.
Qed.

Lemma default_sizes_ok : sizes_ok 4 3.
Proof. unfold sizes_ok. lia. Qed.

Local Transparent zlen.
Lemma a_table_ok : aok a_table /\ d_planned (acore a_table) = 1536 /\ d_target (acore a_table) = [].
Proof.
  split; [|split; reflexivity]. unfold a_table, table_decoder. cbn [app]. apply aok_start; try reflexivity.
  - constructor; try reflexivity.
    + apply default_table_ok.
    + apply bytes_okb_ok. vm_compute. reflexivity.
    + cbn. unfold kDefaultMaximumTargetFileSize, size_max. lia.
    + cbn. unfold size_max. lia.
  - constructor.
Qed.
Local Opaque zlen.

Lemma planned_1536 : forall k, d_planned k = 1536 -> has_planned k = true.
Proof. intros k H. unfold has_planned. rewrite H. reflexivity. Qed.

(** The outer header. *)
Lemma aheader_ok : forall k n l k' n' rest, bytes_ok l -> d_sizes k = None -> base_ok k -> aheader k n l = Ok (k', n', rest) ->
  base_ok k' /\ bytes_ok rest /\ (exists ns ss, d_sizes k' = Some (ns, ss) /\ sizes_ok ns ss) /\
  (n' = n \/ n' = Some a_table) /\ d_planned k' = d_planned k /\ zlen rest < zlen l.
Proof.
  intros k n l k' n' rest B S BO H.
  pose proof (aheader_local k n l (k', n') rest B S H) as (p & E & PN & _).
  assert (bytes_ok rest) as BR by (eapply bytes_ok_suffix; eauto).
  assert (zlen rest < zlen l) as ZL.
  { rewrite E, zlen_app. destruct p as [|b p]; [congruence|]. rewrite zlen_cons. pose proof (zlen_nonneg _ p). lia. }
  destruct (aheader_inv k n l k' n' rest B S H) as (v & ind & tl & -> & V & I0 & BI & ALT).
  destruct ALT as [(I1 & -> & -> & ->)|(I1 & -> & p' & q & ns & ss & -> & VP & VQ & NS & SS & -> & PC)].
  - split; [apply base_file; auto; apply BO|]. split; [exact BR|]. split; [exists 4, 3; split; [reflexivity|apply default_sizes_ok]|].
    split; [auto|]. split; [reflexivity|exact ZL].
  - split; [apply base_file; auto; apply BO|]. split; [exact BR|].
    split; [exists ns, ss; split; [reflexivity|unfold sizes_ok; auto]|]. split; [auto|]. split; [reflexivity|exact ZL].
Qed.

(** ** Runs keep the size accounting *)

Lemma arun_tot : forall k data r, arun k data r -> forall ns ss, core_ok ns ss k -> bytes_ok data -> tot_inv k -> lim_inv k ->
  match r with XOk (k', _) | XEod (k', _) => tot_inv k' /\ lim_inv k' | _ => True end.
Proof.
  induction 1 as [k|k data k' rest NE DW RP|k data k' rest r NE DW RP H IH|k data [k' u] NE DW|k data NE DW|k data NE DW]; intros ns ss CO BD TI LI; auto.
  - pose proof (decode_window_len ns ss k data CO BD TI LI) as L. rewrite DW in L. tauto.
  - pose proof (decode_window_len ns ss k data CO BD TI LI) as L. rewrite DW in L.
    pose proof (decode_window_step k ns ss data [] CO BD ltac:(constructor)) as ST. rewrite DW in ST.
    apply (IH ns ss); tauto.
  - pose proof (decode_window_len ns ss k data CO BD TI LI) as L. rewrite DW in L. tauto.
Qed.

Lemma arun_ext : forall k data r, arun k data r -> forall ns ss, core_ok ns ss k -> bytes_ok data -> ext_win k ->
  match r with XOk (k', _) | XEod (k', _) => ext_win k' | _ => True end.
Proof.
  induction 1 as [k|k data k' rest NE DW RP|k data k' rest r NE DW RP H IH|k data [k' u] NE DW|k data NE DW|k data NE DW]; intros ns ss CO BD EX; auto;
    pose proof (decode_window_step k ns ss data [] CO BD ltac:(constructor)) as ST; rewrite DW in ST.
  - intros X. destruct ST as (_ & _ & W & _). congruence.
  - apply (IH ns ss); try tauto. intros X. destruct ST as (_ & _ & W & _). congruence.
  - destruct ST as (_ & CS & _ & _ & ALT & _). intros X.
    assert (allow_extensions k' = allow_extensions k) as -> by (destruct CS as (a1 & a2 & a3 & a4 & ->); reflexivity).
    destruct ALT as [[-> _]|[[ALT|ALT] _]]; auto.
Qed.

Lemma base_ext : forall k, base_ok k -> ext_win k.
Proof. intros k B X. rewrite (bo_win _ B) in X. congruence. Qed.

Lemma tot_stopped : forall k, tot_inv k -> lim_inv k -> d_planned k = 1536 ->
  (stopped k <-> zlen (d_target k) = 1536) /\ zlen (d_target k) <= 1536.
Proof.
  intros k (T0 & T) (L1 & L2 & L3 & L4) P. pose proof (planned_1536 k P) as HP. specialize (L4 HP). rewrite P in *.
  unfold stopped, reached_planned. rewrite HP, P. cbn [andb]. destruct (d_win k) as [w|].
  - split; [|lia]. split; [intros [X _]; discriminate|lia].
  - split; [|lia]. split; [lia|]. intros. split; [reflexivity|lia].
Qed.

(** ** No early end: a call that finishes the planned target used up everything
    that was kept from earlier calls *)

Lemma arun_no_early : forall ns ss k u y r k' u', core_ok ns ss k -> bytes_ok u -> bytes_ok y -> quiet k u -> ~ stopped k ->
  arun k (u ++ y) r -> collapse r = AOk (ADec k' u' None) -> stopped k' -> zlen u' <= zlen y.
Proof.
  intros ns ss k u y r k' u' CO BU BY Q NS H C ST.
  assert (bytes_ok (u ++ y)) as BUY by (apply bytes_ok_app; auto).
  destruct Q as [[W ->]|[Q|(p & DW & SP)]]; [|contradiction|].
  - pose proof (arun_ok _ _ _ H ns ss CO BUY NS) as A. cbn [app] in *.
    destruct r as [[k2 u2]|[k2 u2]| | |]; try discriminate; cbn in C; injection C as -> ->;
    destruct A as (_ & _ & _ & (us & ->) & _); rewrite zlen_app; pose proof (zlen_nonneg _ us); lia.
  - remember (u ++ y) as d eqn:ED. inversion H; subst d; subst.
    + match goal with X : [] = u ++ y |- _ => symmetry in X; apply app_eq_nil in X as [-> ->] end. cbn in C. injection C as -> ->. lia.
    + match goal with X : decode_window k (u ++ y) = XOk _ |- _ => pose proof (decode_window_no_early ns ss k u y p _ _ CO BU BY DW X) end.
      cbn in C. injection C as -> ->. assumption.
    + match goal with X : decode_window k (u ++ y) = XOk _ |- _ => pose proof (decode_window_no_early ns ss k u y p _ _ CO BU BY DW X) as NEA;
        pose proof (decode_window_step k ns ss (u ++ y) [] CO BUY ltac:(constructor)) as STP; rewrite X in STP end.
      destruct STP as (CO' & _ & WN & BR & _).
      match goal with X : arun k'0 rest r |- _ => pose proof (arun_ok _ _ _ X ns ss CO' BR) as A end.
      assert (~ stopped k'0) as NS' by (intros [_ X]; congruence). specialize (A NS').
      destruct r as [[k2 u2]|[k2 u2]| | |]; try discriminate; cbn in C; injection C as -> ->;
      destruct A as (_ & _ & _ & (us & E) & _); rewrite E, zlen_app in NEA; pose proof (zlen_nonneg _ us); lia.
    + destruct p0 as [k2 u2]. cbn in C. injection C as -> ->.
      match goal with X : decode_window k (u ++ y) = XEod _ |- _ => 
        pose proof (decode_window_step k ns ss (u ++ y) [] CO BUY ltac:(constructor)) as STP; rewrite X in STP end.
      destruct STP as (_ & _ & _ & _ & ALT & _). destruct ALT as [[-> ->]|[_ (w & X)]]; [contradiction|].
      destruct ST as [ST _]. congruence.
    + discriminate.
    + discriminate.
Qed.

(** ** A call keeps the invariant *)

Fixpoint bad_in (a : adec) (data : list Z) : Prop :=
  let '(ADec k u n) := a in
  d_sizes k = Some (254, 0) \/
  match n with
  | Some n' => bad_in n' data
  | None => d_sizes k = None /\ bad_cache (u ++ data)
  end.

Lemma finish_except_suffix : forall n rest, 0 <= n -> exists p, rest = p ++ finish_except n rest.
Proof.
  intros n rest N. unfold finish_except. destruct (Z.ltb_spec (zlen rest) n).
  - exists rest. rewrite app_nil_r. reflexivity.
  - exists (ztake (zlen rest - n) rest). symmetry. apply ztake_zdrop.
Qed.

Lemma bytes_finish_except : forall n rest, 0 <= n -> bytes_ok rest -> bytes_ok (finish_except n rest).
Proof. intros n rest N B. destruct (finish_except_suffix n rest N) as [p E]. eapply bytes_ok_suffix; eauto. Qed.

Lemma aok_bytes : forall a, aok a -> bytes_ok (arest a).
Proof. intros a []; auto. constructor. Qed.

(** Cores during the whole stream. *)
Lemma arun_aok : forall ns ss k data r, arun k data r -> core_ok ns ss k -> bytes_ok data -> tot_inv k -> lim_inv k -> ~ stopped k -> ext_win k ->
  (data = [] -> quiet k []) ->
  match collapse r with
  | AOk a' => aok a' /\ d_planned (acore a') = d_planned k /\ anested a' = None /\ core_ok ns ss (acore a') /\ cstep k (acore a')
  | AErr => True
  | AUB => ns = 254 /\ ss = 0
  end.
Proof.
  intros ns ss k data r H CO BD TI LI NS EX Q0. pose proof (arun_ext _ _ _ H ns ss CO BD EX) as EX'.
  pose proof (arun_ok _ _ _ H ns ss CO BD NS) as A. pose proof (arun_tot _ _ _ H ns ss CO BD TI LI) as T.
  destruct r as [[k' u]|[k' u]| | |]; cbn; auto.
  - destruct A as (A1 & A2 & A3 & A4 & A5 & A6 & A7). split; [|split; [|auto]].
    + apply (aok_win ns ss); auto; try tauto. destruct A6 as [(-> & -> & ->)|A6]; auto.
    + apply cstep_planned in A2. tauto.
  - destruct A as (A1 & A2 & A3 & A4 & A5 & A6 & A7). split; [|split; [|auto]].
    + apply (aok_win ns ss); auto; try tauto. destruct A6 as [(-> & -> & ->)|A6]; auto.
    + apply cstep_planned in A2. tauto.
  - destruct A.
Qed.

Lemma aok_target_bytes : forall a, aok a -> bytes_ok (d_target (acore a)).
Proof.
  intros a [k2 u2 B2|k2 n2 ? ? B2|? ? k2 u2 C2]; cbn [acore] in *; try (rewrite (bo_target _ B2); constructor). apply C2.
Qed.

Lemma aok_stopped : forall a, aok a -> d_planned (acore a) = 1536 -> 
  (stopped (acore a) <-> zlen (d_target (acore a)) = 1536) /\ zlen (d_target (acore a)) <= 1536.
Proof.
  intros a [k2 u2 B2|k2 n2 ? ? B2|? ? k2 u2 C2 _ _ T2 L2] P; cbn [acore] in *; [| |apply tot_stopped; auto];
    rewrite (bo_target _ B2), zlen_nil; (split; [|lia]); (split; [|lia]); intros [_ X]; rewrite (bo_more _ B2) in X; discriminate.
Qed.

(** The core on which the windows are decoded once the code table is there. *)
Lemma after_core : forall k ns ss nd t b, base_ok k -> d_sizes k = Some (ns, ss) -> sizes_ok ns ss -> aok nd ->
  zlen (d_target (acore nd)) = 1536 ->
  use_code_table (d_table k) (table_of_bytes (d_target (acore nd))) (last_mode ns ss) = Some (t, b) ->
  let k' := set_file k (d_version k) (d_sizes k) [] t in
  core_ok ns ss k' /\ tot_inv k' /\ lim_inv k' /\ ~ stopped k' /\ quiet k' [] /\ base_ok k'.
Proof.
  intros k ns ss nd t b BO S SO ON L U k'.
  destruct (use_code_table_ok (d_table k) (table_of_bytes (d_target (acore nd))) (last_mode ns ss)) as (t' & b' & U' & TO & _).
  { apply BO. } { apply table_of_bytes_ok; auto. apply aok_target_bytes; auto. } { apply last_mode_range. }
  rewrite U in U'. injection U' as <- <-.
  assert (base_ok k') as BO' by (apply base_file; auto).
  destruct (base_core _ ns ss BO' S SO) as (CO & TI & LI & NS). split; [exact CO|]. split; [exact TI|]. split; [exact LI|].
  split; [exact NS|]. split; [|exact BO']. left. split; [apply BO|reflexivity].
Qed.

(** A state whose file header has been read but not the code table. *)
Lemma after_ok : forall k ns ss rest r1 r, base_ok k -> d_sizes k = Some (ns, ss) -> sizes_ok ns ss -> bytes_ok rest ->
  (forall nd, r1 = AOk nd -> aok nd /\ d_planned (acore nd) = 1536) ->
  after k rest r1 r ->
  match r with
  | AOk a' => aok a' /\ d_planned (acore a') = d_planned k /\ (stopped (acore a') -> zlen (arest a') <= zlen rest)
  | AErr => True
  | AUB => r1 = AUB \/ (ns = 254 /\ ss = 0)
  end.
Proof.
  intros k ns ss rest r1 r BO S SO BR H1 AF. destruct AF as [| |nd L|nd L B|nd ns' ss' t b r L C S' U R]; auto.
  - destruct (H1 nd eq_refl) as [H2 H3]. split; [|split; [reflexivity|]].
    + eapply aok_nested; eauto.
    + intros [_ X]. cbn [acore] in X. rewrite (bo_more _ BO) in X. discriminate.
  - destruct (H1 nd eq_refl) as [H2 H3]. rewrite S in S'. injection S' as <- <-.
    destruct (after_core k ns ss nd t b BO S SO H2 L U) as (CO & TI & LI & NS & Q & BO').
    assert (bytes_ok (finish_except (zlen (arest nd)) rest)) as BF by (apply bytes_finish_except; [apply zlen_nonneg|exact BR]).
    pose proof (arun_aok ns ss _ _ _ R CO BF TI LI NS (base_ext _ BO') (fun _ => Q)) as A.
    pose proof (arun_ok _ _ _ R ns ss CO BF NS) as AO.
    destruct (finish_except_suffix (zlen (arest nd)) rest (zlen_nonneg _ _)) as [pp EP].
    assert (zlen (finish_except (zlen (arest nd)) rest) <= zlen rest) as ZF by (rewrite EP at 2; rewrite zlen_app; pose proof (zlen_nonneg _ pp); lia).
    destruct r as [[k2 u2]|[k2 u2]| | |]; cbn in *; auto; destruct A as (A1 & A2 & _); (split; [exact A1|]); (split; [exact A2|]);
    intros _; destruct AO as (_ & _ & _ & (us & EE) & _); rewrite EE, zlen_app in ZF; pose proof (zlen_nonneg _ us); lia.
Qed.

Lemma acr_ok : forall a data r, acr a data r -> aok a -> ~ stopped (acore a) -> bytes_ok data ->
  match r with
  | AOk a' => aok a' /\ d_planned (acore a') = d_planned (acore a) /\ (stopped (acore a') -> zlen (arest a') <= zlen data)
  | AErr => True
  | AUB => bad_in a data
  end.
Proof.
  induction 1 as [k u n data H|k u n data H|k u n data H|k u n data k' rest r H R|k u n data k' nd rest r1 r H A IH AF];
    intros OK NS BD; auto.
  - (* Eod *)
    inversion OK as [k0 u0 BO S BU HE E|k0 n0 ns ss BO S SO ON PN TN E|ns ss k0 u0 CO BU Q TI LI EX E]; subst;
      try (unfold aheader in H; rewrite ?S, ?(co_sizes _ _ _ CO) in H; discriminate).
    split; [|split; [reflexivity|intros; contradiction]].
    apply aok_start; auto. apply bytes_ok_app; auto.
  - (* UB *)
    inversion OK as [k0 u0 BO S BU HE E|k0 n0 ns ss BO S SO ON PN TN E|ns ss k0 u0 CO BU Q TI LI EX E]; subst;
      try (unfold aheader in H; rewrite ?S, ?(co_sizes _ _ _ CO) in H; discriminate).
    exfalso. eapply aheader_ub; [|exact H]. apply bytes_ok_app; auto.
  - (* windows *)
    inversion OK as [k0 u0 BO S BU HE E|k0 n0 ns ss BO S SO ON PN TN E|ns ss k0 u0 CO BU Q TI LI EX E]; subst.
    + assert (bytes_ok (u ++ data)) as BUD by (apply bytes_ok_app; auto).
      destruct (aheader_ok k None _ k' None rest BUD S BO H) as (BO' & BR & (ns & ss & S' & SO) & _ & PL & _).
      destruct (base_core _ ns ss BO' S' SO) as (CO & TI & LI & NS').
      assert (quiet k' []) as Q by (left; split; [apply BO'|reflexivity]).
      pose proof (arun_aok ns ss _ _ _ R CO BR TI LI NS' (base_ext _ BO') (fun _ => Q)) as A.
      pose proof (aheader_no_early k None u data _ rest BUD S HE H) as NE.
      pose proof (arun_ok _ _ _ R ns ss CO BR NS') as AO.
      assert (ns = 254 /\ ss = 0 -> bad_in (ADec k u None) data) as BAD.
      { intros [-> ->]. right. split; [exact S|]. destruct (aheader_inv k None _ _ _ _ BUD S H) as (v & ind & tl & -> & V & I0 & BI & ALT).
        destruct ALT as [(I1 & -> & X & ->)|(I1 & X & _)]; [|discriminate]. cbn in S'. discriminate. }
      destruct r as [[k2 u2]|[k2 u2]| | |]; [| |exact I|exact (BAD A)|exact (BAD A)]; cbn in *; destruct A as (A1 & A2 & _); (split; [exact A1|split; [congruence|]]);
      intros _; destruct AO as (_ & _ & _ & (us & ->) & _); rewrite zlen_app in NE; pose proof (zlen_nonneg _ us); lia.
    + unfold aheader in H. rewrite S in H. discriminate.
    + unfold aheader in H. rewrite (co_sizes _ _ _ CO) in H. injection H as <- <-.
      assert (bytes_ok (u ++ data)) as BUD by (apply bytes_ok_app; auto).
      assert (u ++ data = [] -> quiet k []) as Q0. { intros E. apply app_eq_nil in E as [-> ->]. exact Q. }
      pose proof (arun_aok ns ss _ _ _ R CO BUD TI LI NS EX Q0) as A.
      pose proof (fun k2 u2 => arun_no_early ns ss k u data r k2 u2 CO BU BD Q NS R) as NE.
      destruct (collapse r) as [[k2 u2 n2]| |] eqn:CR; auto; [|left; rewrite (co_sizes _ _ _ CO); destruct A as [-> ->]; reflexivity]. cbn [acore anested arest] in *.
      destruct A as (A1 & A2 & -> & _). split; [exact A1|]. split; [exact A2|]. intros ST. eauto.
  - (* nested *)
    inversion OK as [k0 u0 BO S BU HE E|k0 n0 ns ss BO S SO ON PN TN E|ns ss k0 u0 CO BU Q TI LI EX E]; subst.
    + assert (bytes_ok (u ++ data)) as BUD by (apply bytes_ok_app; auto).
      destruct (aheader_ok k None _ k' (Some nd) rest BUD S BO H) as (BO' & BR & (ns & ss & S' & SO) & NN & PL & _).
      destruct NN as [NN|NN]; [discriminate|]. injection NN as ->.
      destruct a_table_ok as (TO & TP & TT).
      assert (~ stopped (acore a_table)) as TS. { intros [_ X]. revert X. vm_compute. discriminate. }
      specialize (IH TO TS BR).
      assert (forall nd, r1 = AOk nd -> aok nd /\ d_planned (acore nd) = 1536) as H1.
      { intros nd ->. split; [tauto|]. destruct IH as (_ & -> & _). exact TP. }
      pose proof (after_ok k' ns ss rest r1 r BO' S' SO BR H1 AF) as AO.
      pose proof (aheader_no_early k None u data _ rest BUD S HE H) as NE.
      destruct r as [a'| |]; auto.
      * destruct AO as (AO1 & AO2 & AO3). split; [exact AO1|]. split; [cbn [acore]; congruence|]. intros ST. specialize (AO3 ST). lia.
      * right. split; [exact S|].
        destruct (aheader_inv k None _ _ _ _ BUD S H) as (v & ind & tl & -> & V & I0 & BI & ALT).
        destruct ALT as [(I1 & -> & X & _)|(I1 & _ & p & q & n1 & s1 & -> & VP & VQ & _ & _ & -> & _)]; [discriminate|].
        destruct AO as [-> |[-> ->]].
        -- cbn in IH. destruct IH as [IH|[_ IH]]; [discriminate|]. eapply bad_nested; eauto.
        -- cbn in S'. injection S' as -> ->. apply bad_here; auto.
    + unfold aheader in H. rewrite S in H. injection H as <- <- <-. cbn [app] in *.
      assert (~ stopped (acore n0)) as NS0 by (intros ST; apply (aok_stopped n0 ON PN) in ST; lia).
      specialize (IH ON NS0 BD).
      assert (forall nd, r1 = AOk nd -> aok nd /\ d_planned (acore nd) = 1536) as H1.
      { intros nd ->. split; [tauto|]. destruct IH as (_ & -> & _). exact PN. }
      pose proof (after_ok k ns ss data r1 r BO S SO BD H1 AF) as AO.
      destruct r as [a'| |]; auto. destruct AO as [-> |[-> ->]]; [right; exact IH|left; exact S].
    + unfold aheader in H. rewrite (co_sizes _ _ _ CO) in H. discriminate.
Qed.

(** ** Existence *)

Fixpoint afuel (a : adec) (data : list Z) : nat :=
  let '(ADec k u n) := a in
  match n with
  | Some n' => S (afuel n' data)
  | None => match d_sizes k with None => S (length (u ++ data)) | Some _ => O end
  end.

Local Transparent zlen.
Lemma acr_exists : forall f a data, (afuel a data <= f)%nat -> aok a -> ~ stopped (acore a) -> bytes_ok data -> exists r, acr a data r.
Proof.
  induction f as [|f IH]; intros a data LE OK NS BD.
  - destruct OK as [k u BO S BU HE|k n ns ss BO S SO ON PN TN|ns ss k u CO BU Q TI LI EX].
    + cbn in LE. rewrite S in LE. lia.
    + cbn in LE. lia.
    + assert (bytes_ok (u ++ data)) as BUD by (apply bytes_ok_app; auto).
      destruct (arun_total ns ss k (u ++ data) CO BUD) as [r R]. exists (collapse r). eapply acr_win; eauto.
      unfold aheader. rewrite (co_sizes _ _ _ CO). reflexivity.
  - assert (forall k u n k' nd rest ns ss, aheader k n (u ++ data) = Ok (k', Some nd, rest) -> base_ok k' -> d_sizes k' = Some (ns, ss) ->
      sizes_ok ns ss -> aok nd -> ~ stopped (acore nd) -> d_planned (acore nd) = 1536 -> bytes_ok rest -> (afuel nd rest <= f)%nat ->
      exists r, acr (ADec k u n) data r) as NEST.
    { intros k u n k' nd rest ns ss H BO' S' SO ON NN PN BR LE'.
      destruct (IH nd rest LE' ON NN BR) as [r1 R1]. pose proof (acr_ok _ _ _ R1 ON NN BR) as AO.
      assert (exists r, after k' rest r1 r) as [r AF]; [|exists r; eapply acr_table; eauto].
      destruct r1 as [nd'| |]; [|exists AErr; constructor|exists AUB; constructor].
      destruct AO as (AO1 & AO2 & _). rewrite PN in AO2.
      destruct (aok_stopped nd' AO1 AO2) as [SI LI1].
      destruct (Z.ltb_spec (zlen (d_target (acore nd'))) 1536) as [L|L]; [eexists; apply after_more; exact L|].
      assert (zlen (d_target (acore nd')) = 1536) as L2 by lia.
      destruct (acomplete nd') eqn:AC; [|exists AErr; apply after_bad; auto].
      destruct (use_code_table_ok (d_table k') (table_of_bytes (d_target (acore nd'))) (last_mode ns ss)) as (t & b & U & TO & _).
      { apply BO'. } { apply table_of_bytes_ok; auto. apply aok_target_bytes; auto. } { apply last_mode_range. }
      destruct (after_core k' ns ss nd' t b BO' S' SO AO1 L2 U) as (CO & _).
      destruct (arun_total ns ss _ (finish_except (zlen (arest nd')) rest) CO) as [r R].
      { apply bytes_finish_except; [apply zlen_nonneg|exact BR]. }
      exists (collapse r). eapply after_done; eauto. }
    destruct OK as [k u BO S BU HE|k n ns ss BO S SO ON PN TN|ns ss k u CO BU Q TI LI EX].
    + assert (bytes_ok (u ++ data)) as BUD by (apply bytes_ok_app; auto).
      destruct (aheader k None (u ++ data)) as [[[k' n'] rest]| | |] eqn:H.
      * destruct (aheader_ok k None _ k' n' rest BUD S BO H) as (BO' & BR & (ns & ss & S' & SO) & NN & PL & ZL).
        destruct n' as [nd|].
        -- destruct NN as [NN|NN]; [discriminate|]. injection NN as ->. destruct a_table_ok as (TO & TP & TT).
           eapply (NEST k u None k' a_table rest ns ss); eauto.
           ++ intros [_ X]. revert X. vm_compute. discriminate.
           ++ cbn in LE. rewrite S in LE. change (afuel a_table rest) with (Datatypes.S (length rest)). unfold zlen in ZL. lia.
        -- destruct (base_core _ ns ss BO' S' SO) as (CO & _).
           destruct (arun_total ns ss k' rest CO BR) as [r R]. exists (collapse r). eapply acr_win; eauto.
      * eexists. apply acr_eod. exact H.
      * eexists. apply acr_err. exact H.
      * eexists. apply acr_ub. exact H.
    + apply (NEST k [] (Some n) k n data ns ss); auto.
      * unfold aheader. rewrite S. reflexivity.
      * intros ST. apply (aok_stopped n ON PN) in ST. lia.
      * cbn [afuel] in LE. lia.
    + assert (bytes_ok (u ++ data)) as BUD by (apply bytes_ok_app; auto).
      destruct (arun_total ns ss k (u ++ data) CO BUD) as [r R]. exists (collapse r). eapply acr_win; eauto.
      unfold aheader. rewrite (co_sizes _ _ _ CO). reflexivity.
Qed.
Local Opaque zlen.

Lemma acr_total : forall a data, aok a -> ~ stopped (acore a) -> bytes_ok data -> exists r, acr a data r.
Proof. intros a data. eapply acr_exists. constructor. Qed.

(** ** Two calls against one *)

Inductive arel : adec -> adec -> Prop :=
| arel_win : forall k u k' u', srel (k, u) (k', u') -> arel (ADec k u None) (ADec k' u' None)
| arel_nest : forall k u n n', arel n n' -> arel (ADec k u (Some n)) (ADec k u (Some n')).

Definition asim (r r' : ares) : Prop :=
  match r, r' with
  | AOk a, AOk a' => arel a a'
  | AErr, AErr => True
  | AUB, AUB => True
  | _, _ => False
  end.

Lemma wsim_asim : forall r r', wsim r r' -> asim r r'.
Proof. intros [[k u [n|]]| |] [[k' u' [n'|]]| |]; cbn; try tauto. intros. constructor. auto. Qed.

Lemma arel_refl_aok : forall a, aok a -> arel a a.
Proof. induction 1 as [k u|k n ns ss BO S SO ON IH PN TN|ns ss k u]; constructor; auto; apply srel_refl. Qed.

Lemma arel_trans : forall a b c, arel a b -> arel b c -> arel a c.
Proof.
  intros a b c H. revert c. induction H as [k u k' u' SR|k u n n' H IH]; intros c H2; inversion H2; subst; constructor; auto.
  eapply srel_trans; eauto.
Qed.

Lemma asim_trans : forall a b c, asim a b -> asim b c -> asim a c.
Proof. intros [] [] []; cbn; try tauto. apply arel_trans. Qed.

(** Related states have the same output; and they are equal when no window is open. *)
Lemma srel_fields : forall k u k' u', srel (k, u) (k', u') ->
  d_target k' = d_target k /\ (d_win k = None -> k' = k /\ u' = u) /\ (d_win k <> None -> d_win k' <> None) /\
  d_sizes k' = d_sizes k /\ d_table k' = d_table k /\ reached_planned k' = reached_planned k /\ d_planned k' = d_planned k.
Proof.
  intros k u k' u' [E|(w & nops & W & P & L & F & E)]; cbn [fst snd] in *.
  - injection E as <- <-. auto 10.
  - injection E as -> ->. split; [reflexivity|]. split; [congruence|]. split; [discriminate|]. auto.
Qed.

Lemma arel_acore : forall a a', arel a a' -> aok a -> d_target (acore a') = d_target (acore a) /\ acomplete a' = acomplete a /\
  (stopped (acore a) -> a' = a) /\ d_planned (acore a') = d_planned (acore a).
Proof.
  intros a a' [k u k' u' SR|k u n n' H] OK; cbn [acore].
  - destruct (srel_fields _ _ _ _ SR) as (T & W & W2 & S & TB & RP & PL). split; [exact T|]. split; [|split; [|exact PL]].
    + cbn [acomplete]. rewrite S, RP. destruct (d_win k) as [w|] eqn:DW.
      * destruct (d_win k') as [w'|]; [|destruct (W2 ltac:(discriminate) eq_refl)]. destruct (d_sizes k) eqn:DS; [reflexivity|].
        inversion OK; subst; [|match goal with X : core_ok _ _ k |- _ => rewrite (co_sizes _ _ _ X) in DS; discriminate end].
        match goal with X : base_ok k |- _ => rewrite (bo_win _ X) in DW; discriminate end.
      * destruct (W eq_refl) as [-> ->]. rewrite DW. reflexivity.
    + intros [X _]. destruct (W X) as [-> ->]. reflexivity.
  - split; [reflexivity|]. split; [cbn; destruct (d_sizes k); reflexivity|]. split; [|reflexivity].
    intros [_ X]. inversion OK; subst. match goal with X : base_ok k |- _ => rewrite (bo_more _ X) in *; discriminate end.
Qed.

Definition grow (a : adec) (y : list Z) : adec := let '(ADec k u n) := a in ADec k (u ++ y) n.

Fixpoint has_ext (a : adec) (data : list Z) : Prop :=
  let '(ADec k u n) := a in
  match n with
  | Some n' => allow_extensions k = true \/ has_ext n' data
  | None => match d_sizes k with None => s_version (u ++ data) | Some _ => allow_extensions k = true end
  end.

Lemma finish_except_app : forall n rest y, 0 <= n <= zlen rest ->
  finish_except (n + zlen y) (rest ++ y) = finish_except n rest ++ y.
Proof.
  intros n rest y N. unfold finish_except. rewrite zlen_app. pose proof (zlen_nonneg _ y).
  destruct (Z.ltb_spec (zlen rest + zlen y) (n + zlen y)); [lia|]. destruct (Z.ltb_spec (zlen rest) n); [lia|].
  replace (zlen rest + zlen y - (n + zlen y)) with (zlen rest - n) by lia. apply zdrop_app_le. lia.
Qed.

Lemma finish_except_drop : forall n rest y, 0 <= n <= zlen y -> finish_except n (rest ++ y) = finish_except n y.
Proof.
  intros n rest y N. unfold finish_except. rewrite zlen_app. pose proof (zlen_nonneg _ rest).
  destruct (Z.ltb_spec (zlen rest + zlen y) n); [lia|]. destruct (Z.ltb_spec (zlen y) n); [lia|].
  rewrite zdrop_app_ge by lia. f_equal. lia.
Qed.

(** Windows: from [arun_two] to calls. *)
Lemma acr_two_win : forall ns ss k x r y r2, arun k x r -> core_ok ns ss k -> bytes_ok x -> bytes_ok y -> ~ stopped k ->
  tot_inv k -> lim_inv k -> ext_win k -> (x = [] -> quiet k []) ->
  arun k (x ++ y) r2 ->
  match collapse r with
  | AOk a' => (stopped (acore a') /\ collapse r2 = AOk (grow a' y)) \/
      (~ stopped (acore a') /\ exists r3, acr a' y r3 /\ asim r3 (collapse r2)) \/
      (allow_extensions k = true /\ (y <> [] /\ arest a' = []) /\ collapse r2 = AErr)
  | AErr => collapse r2 = AErr
  | AUB => collapse r2 = AUB
  end.
Proof.
  intros ns ss k x r y r2 H CO BX BY NS TI LI EX Q H2.
  pose proof (arun_two k x r H ns ss y r2 CO BX BY NS H2) as T.
  pose proof (arun_aok ns ss k x r H CO BX TI LI NS EX Q) as A.
  destruct r as [[k' u]|[k' u]| | |]; cbn [collapse] in *; auto; [| |subst; reflexivity|subst; reflexivity|contradiction]; cbn [acore anested grow] in *;
    destruct A as (A1 & A2 & _ & CO' & A3).
  - destruct T as [[T1 ->]|[(T1 & r3 & T2 & T3)|(T1 & T2 & ->)]].
    + left. auto.
    + right. left. split; [exact T1|]. exists (collapse r3). split; [|apply wsim_asim; exact T3].
      eapply acr_win; eauto. unfold aheader. rewrite (co_sizes _ _ _ CO'). reflexivity.
    + right. right. split; [|auto]. destruct T1 as [T1|T1]; auto.
  - destruct T as [[T1 ->]|[(T1 & r3 & T2 & T3)|(T1 & T2 & ->)]].
    + left. auto.
    + right. left. split; [exact T1|]. exists (collapse r3). split; [|apply wsim_asim; exact T3].
      eapply acr_win; eauto. unfold aheader. rewrite (co_sizes _ _ _ CO'). reflexivity.
    + right. right. split; [|auto]. destruct T1 as [T1|T1]; auto.
Qed.

Lemma acr_two : forall a x r, acr a x r -> forall y r2, aok a -> ~ stopped (acore a) -> bytes_ok x -> bytes_ok y ->
  acr a (x ++ y) r2 ->
  match r with
  | AOk a' => (stopped (acore a') /\ r2 = AOk (grow a' y)) \/
      (~ stopped (acore a') /\ exists r3, acr a' y r3 /\ asim r3 r2) \/
      (has_ext a x /\ (y <> [] /\ arest a' = []) /\ r2 = AErr)
  | AErr => r2 = AErr
  | AUB => r2 = AUB
  end.
Proof.
  induction 1 as [k u n x H|k u n x H|k u n x H|k u n x k' rest r H R|k u n x k' nd rest r1 r H A IH AF];
    intros y r2 OK NS BX BY H2.
  - pose proof (aheader_mono k n (u ++ x) y) as M. rewrite H, <- app_assoc in M. inversion H2; subst; congruence.
  - (* header incomplete *)
    right. left. inversion OK as [k0 u0 BO S BU HE E|k0 n0 ns ss BO S SO ON PN TN E|ns ss k0 u0 CO BU Q TI LI EX E]; subst;
      try (unfold aheader in H; rewrite ?S, ?(co_sizes _ _ _ CO) in H; discriminate).
    split; [exact NS|]. exists r2. split.
    + inversion H2; subst; rewrite app_assoc in *.
      * apply acr_err; auto. * apply acr_eod; auto. * apply acr_ub; auto. * eapply acr_win; eauto. * eapply acr_table; eauto.
    + assert (aok (ADec k u None)) as OK' by (apply aok_start; auto).
      pose proof (acr_ok _ _ _ H2 OK' NS ltac:(apply bytes_ok_app; auto)) as AO.
      destruct r2 as [a2| |]; cbn; auto. apply arel_refl_aok. tauto.
  - pose proof (aheader_mono k n (u ++ x) y) as M. rewrite H, <- app_assoc in M. inversion H2; subst; congruence.
  - (* windows *)
    pose proof (aheader_mono k n (u ++ x) y) as M. rewrite H, <- app_assoc in M.
    assert (exists r2', arun k' (rest ++ y) r2' /\ r2 = collapse r2') as (r2' & R2 & ->).
    { inversion H2; subst; rewrite M in *; try discriminate.
      match goal with X : Ok _ = Ok _ |- _ => injection X as <- <- end. eauto. }
    inversion OK as [k0 u0 BO S BU HE E|k0 n0 ns ss BO S SO ON PN TN E|ns ss k0 u0 CO BU Q TI LI EX E]; subst.
    + assert (bytes_ok (u ++ x)) as BUX by (apply bytes_ok_app; auto).
      destruct (aheader_ok k None _ k' None rest BUX S BO H) as (BO' & BR & (ns & ss & S' & SO) & _ & PL & _).
      destruct (base_core _ ns ss BO' S' SO) as (CO & TI & LI & NS').
      assert (quiet k' []) as Q by (left; split; [apply BO'|reflexivity]).
      pose proof (acr_two_win ns ss k' rest r y r2' R CO BR BY NS' TI LI (base_ext _ BO') (fun _ => Q) R2) as T.
      destruct (collapse r) as [a'| |]; auto.
      destruct T as [T|[T|(T1 & T2 & T3)]]; auto. right. right. split; [|auto]. cbn [has_ext]. rewrite S.
      destruct (aheader_inv k None _ k' None rest BUX S H) as (v & ind & tl & -> & V & I0 & BI & ALT).
      destruct ALT as [(I1 & -> & X & ->)|(I1 & X & _)]; [|discriminate].
      unfold allow_extensions in T1. cbn in T1. assert (v = 83) as -> by lia. constructor.
    + unfold aheader in H. rewrite S in H. discriminate.
    + unfold aheader in H. rewrite (co_sizes _ _ _ CO) in H. injection H as <- <-.
      assert (bytes_ok (u ++ x)) as BUX by (apply bytes_ok_app; auto).
      assert (u ++ x = [] -> quiet k []) as Q0. { intros E. apply app_eq_nil in E as [-> ->]. exact Q. }
      pose proof (acr_two_win ns ss k (u ++ x) r y r2' R CO BUX BY NS TI LI EX Q0 R2) as T.
      destruct (collapse r) as [a'| |]; auto.
      destruct T as [T|[T|(T1 & T2 & T3)]]; auto. right. right. split; [|auto]. cbn [has_ext]. rewrite (co_sizes _ _ _ CO). exact T1.
  - (* nested *)
    pose proof (aheader_mono k n (u ++ x) y) as M. rewrite H, <- app_assoc in M.
    assert (exists r1', acr nd (rest ++ y) r1' /\ after k' (rest ++ y) r1' r2) as (r1' & R1' & AF2).
    { inversion H2; subst; rewrite M in *; try discriminate.
      match goal with X : Ok _ = Ok _ |- _ => injection X as <- <- <- end. eauto. }
    assert (base_ok k' /\ bytes_ok rest /\ (exists ns ss, d_sizes k' = Some (ns, ss) /\ sizes_ok ns ss) /\ aok nd /\
      ~ stopped (acore nd) /\ d_planned (acore nd) = 1536 /\
      ((allow_extensions k' = true \/ has_ext nd rest) -> has_ext (ADec k u n) x)) as
      (BO' & BR & (ns & ss & S' & SO) & ON & NN & PN & HX).
    { inversion OK as [k0 u0 BO S BU HE E|k0 n0 ns ss BO S SO ON PN TN E|ns ss k0 u0 CO BU Q TI LI EX E]; subst.
      - assert (bytes_ok (u ++ x)) as BUX by (apply bytes_ok_app; auto).
        destruct (aheader_ok k None _ k' (Some nd) rest BUX S BO H) as (BO' & BR & SS & NN & PL & _).
        destruct NN as [NN|NN]; [discriminate|]. injection NN as ->. destruct a_table_ok as (TO & TP & TT).
        split; [exact BO'|]. split; [exact BR|]. split; [exact SS|]. split; [exact TO|]. split; [|split; [exact TP|]].
        + intros [_ X]. revert X. vm_compute. discriminate.
        + destruct (aheader_inv k None _ _ _ _ BUX S H) as (v & ind & tl & EQ & V & I0 & BI & ALT).
          destruct ALT as [(I1 & -> & X & _)|(I1 & _ & p & q & n1 & s1 & -> & VP & VQ & _ & _ & -> & _)]; [discriminate|].
          cbn [has_ext]. rewrite S, EQ. intros [X|X].
          * unfold allow_extensions in X. cbn in X. assert (v = 83) as -> by lia. constructor.
          * eapply sv_nested; eauto.
      - unfold aheader in H. rewrite S in H. injection H as <- <- <-. cbn [app] in *.
        split; [exact BO|]. split; [exact BX|]. split; [eauto|]. split; [exact ON|]. split; [|split; [exact PN|auto]].
        intros ST. apply (aok_stopped n0 ON PN) in ST. lia.
      - unfold aheader in H. rewrite (co_sizes _ _ _ CO) in H. discriminate. }
    assert (bytes_ok (rest ++ y)) as BRY by (apply bytes_ok_app; auto).
    specialize (IH y r1' ON NN BR BY R1').
    pose proof (acr_ok _ _ _ A ON NN BR) as AO.
    pose proof (acr_ok _ _ _ R1' ON NN BRY) as AO'.
    destruct AF as [| |nd' L|nd' L B|nd' ns' ss' t b r L C S2 U R].
    + subst r1'. inversion AF2; reflexivity.
    + subst r1'. inversion AF2; reflexivity.
    + (* code table not finished yet *)
      destruct AO as (AO1 & AO2 & _). rewrite PN in AO2. destruct (aok_stopped nd' AO1 AO2) as [SI SL].
      assert (~ stopped (acore nd')) as NS' by (intros X; apply SI in X; lia).
      destruct IH as [[IH _]|[(_ & r3 & R3 & SM)|(X1 & X2 & ->)]]; [contradiction| |].
      2:{ right. right. split; [apply HX; auto|]. split; [split; [apply X2|reflexivity]|]. inversion AF2; reflexivity. }
      right. left. split. { intros [_ X]. cbn [acore] in X. rewrite (bo_more _ BO') in X. discriminate. }
      assert (aheader k' (Some nd') ([] ++ y) = Ok (k', Some nd', y)) as HD by (unfold aheader; rewrite S'; reflexivity).
      pose proof (acr_ok _ _ _ R3 AO1 NS' BY) as AO3.
      destruct r3 as [nd3| |]; destruct r1' as [nd1| |]; cbn in SM; try contradiction.
      * destruct AO3 as (AO3 & PL3 & NE3). rewrite AO2 in PL3. destruct AO' as (AO' & PL' & _). rewrite PN in PL'.
        destruct (arel_acore nd3 nd1 SM AO3) as (TE & CE & EQ & _).
        destruct (aok_stopped nd3 AO3 PL3) as [SI3 SL3].
        destruct (Z.ltb_spec (zlen (d_target (acore nd3))) 1536) as [L3|L3].
        -- exists (AOk (ADec k' [] (Some nd3))). split; [eapply acr_table; eauto; apply after_more; exact L3|].
           inversion AF2; subst; rewrite TE in *; try lia. cbn. constructor. exact SM.
        -- assert (zlen (d_target (acore nd3)) = 1536) as L3' by lia. assert (stopped (acore nd3)) as ST3 by tauto.
           rewrite (EQ ST3) in *. clear EQ TE CE. specialize (NE3 ST3). exists r2. split.
           ++ eapply acr_table; eauto. inversion AF2; subst; try lia.
              ** apply after_bad; auto.
              ** rewrite finish_except_drop in * by (split; [apply zlen_nonneg|exact NE3]). eapply after_done; eauto.
           ++ pose proof (after_ok k' ns ss (rest ++ y) (AOk nd3) r2 BO' S' SO BRY) as AOK.
              assert (forall nd, AOk nd3 = AOk nd -> aok nd /\ d_planned (acore nd) = 1536) as X by (intros nd0 E; injection E as <-; auto).
              specialize (AOK X AF2). destruct r2; cbn; auto. apply arel_refl_aok. tauto.
      * exists AErr. split; [eapply acr_table; eauto; constructor|]. inversion AF2; subst. exact I.
      * exists AUB. split; [eapply acr_table; eauto; constructor|]. inversion AF2; subst. exact I.
    + (* code table bad *)
      destruct AO as (AO1 & AO2 & _). rewrite PN in AO2. destruct (aok_stopped nd' AO1 AO2) as [SI SL].
      assert (zlen (d_target (acore nd')) = 1536) as L2 by lia. destruct B as [B|B]; [|lia]. exfalso.
      assert (stopped (acore nd')) as ST by tauto.
      destruct AO1 as [k2 u2 B2|k2 n2 ? ? B2|? ? k2 u2 C2 ? ? ? ?]; cbn [acore] in *;
        try (rewrite (bo_target _ B2), zlen_nil in L2; discriminate).
      destruct ST as [ST1 ST2]. cbn [acomplete] in B. rewrite (co_sizes _ _ _ C2), ST1, ST2 in B. discriminate.
    + (* code table finished *)
      destruct AO as (AO1 & AO2 & NE). rewrite PN in AO2. destruct (aok_stopped nd' AO1 AO2) as [SI SL].
      assert (stopped (acore nd')) as ST by tauto. specialize (NE ST).
      rewrite S' in S2. injection S2 as <- <-.
      destruct IH as [[_ ->]|[(IH & _)|(X1 & X2 & ->)]]; [|contradiction|].
      2:{ pose proof (after_core k' ns ss nd' t b BO' S' SO AO1 L U) as (CO & TI & LI & NS2 & Q & BO2).
          assert (bytes_ok (finish_except (zlen (arest nd')) rest)) as BF by (apply bytes_finish_except; [apply zlen_nonneg|exact BR]).
          pose proof (arun_aok ns ss _ _ _ R CO BF TI LI NS2 (base_ext _ BO2) (fun _ => Q)) as AA.
          assert (r2 = AErr) as -> by (inversion AF2; reflexivity).
          destruct X2 as [X2 X3]. rewrite X3 in R.
          assert (finish_except (zlen (@nil Z)) rest = []) as FE0.
          { unfold finish_except. rewrite zlen_nil. pose proof (zlen_nonneg _ rest). destruct (Z.ltb_spec (zlen rest) 0); [lia|].
            apply zdrop_all. lia. }
          rewrite FE0 in R. inversion R; subst; try congruence. cbn [collapse].
          right. right. split; [apply HX; right; exact X1|auto]. }
      pose proof (after_core k' ns ss nd' t b BO' S' SO AO1 L U) as (CO & TI & LI & NS2 & Q & BO2).
      assert (bytes_ok (finish_except (zlen (arest nd')) rest)) as BF by (apply bytes_finish_except; [apply zlen_nonneg|exact BR]).
      set (k2 := set_file k' (d_version k') (d_sizes k') [] t) in *.
      assert (exists r2', arun k2 (finish_except (zlen (arest nd')) rest ++ y) r2' /\ r2 = collapse r2') as (r2' & R2 & ->).
      { destruct nd' as [kk uu nn]. cbn [grow acore arest] in *.
        inversion AF2; subst; cbn [acore arest] in *; try lia.
        - exfalso. match goal with X : _ \/ _ |- _ => destruct X as [X|X]; [|congruence]; cbn [acomplete] in X, C end.
          destruct ST as [ST1 ST2].
          inversion AO1 as [kk2 u2 B2|kk2 n2 ? ? B2|ns3 ss3 kk2 u2 C2]; subst; cbn [acore] in *;
            try (rewrite (bo_target _ B2), zlen_nil in L; discriminate).
          rewrite (co_sizes _ _ _ C2), ST1, ST2 in *. discriminate.
        - match goal with X : d_sizes k' = Some (_, _) |- _ => rewrite S' in X; injection X as <- <- end.
          match goal with X : use_code_table _ _ _ = Some _ |- _ => rewrite U in X; injection X as <- <- end.
          match goal with X : arun _ (finish_except _ (rest ++ y)) ?z |- _ => exists z; split; [|reflexivity];
            rewrite zlen_app, finish_except_app in X by (split; [apply zlen_nonneg|exact NE]); exact X end. }
      pose proof (acr_two_win ns ss k2 _ r y r2' R CO BF BY NS2 TI LI (base_ext _ BO2) (fun _ => Q) R2) as T.
      destruct (collapse r) as [a'| |]; auto.
      destruct T as [T|[T|(T1 & T2 & T3)]]; auto. right. right. split; [apply HX; left; exact T1|auto].
Qed.

(** ** Any number of calls against one *)

Inductive acrs : adec -> list (list Z) -> ares -> Prop :=
| acrs_nil : forall a, acrs a [] (AOk a)
| acrs_fail : forall a x tl r, acr a x r -> (forall a', r <> AOk a') -> acrs a (x :: tl) r
| acrs_cons : forall a x tl a' r, acr a x (AOk a') -> acrs a' tl r -> acrs a (x :: tl) r.

Definition unplanned (a : adec) : Prop := has_planned (acore a) = false.

Lemma unplanned_stopped : forall a, unplanned a -> ~ stopped (acore a).
Proof. intros a U [_ X]. unfold reached_planned in X. rewrite U in X. discriminate. Qed.

Lemma acr_has_ext : forall a x r, acr a x r -> forall a' y, r = AOk a' -> aok a -> ~ stopped (acore a) -> bytes_ok x -> has_ext a' y -> has_ext a (x ++ y).
Proof.
  assert (forall ns ss k data r a', arun k data r -> core_ok ns ss k -> bytes_ok data -> ~ stopped k -> collapse r = AOk a' -> forall y, has_ext a' y ->
    allow_extensions k = true) as AR.
  { intros ns ss k data r a' R CO BD NS C y HE. pose proof (arun_ok _ _ _ R ns ss CO BD NS) as A.
    destruct r as [[k2 u2]|[k2 u2]| | |]; try discriminate; cbn in C; injection C as <-; cbn [has_ext] in HE;
    destruct A as (CO' & CS & _); rewrite (co_sizes _ _ _ CO') in HE; destruct CS as (b1 & b2 & b3 & b4 & ->); exact HE. }
  induction 1 as [k u n x H|k u n x H|k u n x H|k u n x k' rest r H R|k u n x k' nd rest r1 r H A IH AF];
    intros a' y E OK NS BX HE; try discriminate.
  - injection E as <-. inversion OK as [k0 u0 BO S BU HE' E|k0 n0 ns ss BO S SO ON PN TN E|ns ss k0 u0 CO BU Q TI LI EX E]; subst;
      try (unfold aheader in H; rewrite ?S, ?(co_sizes _ _ _ CO) in H; discriminate).
    cbn [has_ext] in *. rewrite S in *. rewrite app_assoc. exact HE.
  - inversion OK as [k0 u0 BO S BU HE' E0|k0 n0 ns ss BO S SO ON PN TN E0|ns ss k0 u0 CO BU Q TI LI EX E0]; subst.
    + assert (bytes_ok (u ++ x)) as BUX by (apply bytes_ok_app; auto).
      destruct (aheader_ok k None _ k' None rest BUX S BO H) as (BO' & BR & (ns & ss & S' & SO) & _ & PL & _).
      destruct (base_core _ ns ss BO' S' SO) as (CO & TI & LI & NS').
      pose proof (AR ns ss k' rest r a' R CO BR NS' E y HE) as AE.
      cbn [has_ext]. rewrite S. rewrite app_assoc. apply s_version_app.
      destruct (aheader_inv k None _ k' None rest BUX S H) as (v & ind & tl & -> & V & I0 & BI & ALT).
      destruct ALT as [(I1 & -> & X & ->)|(I1 & X & _)]; [|discriminate].
      unfold allow_extensions in AE. cbn in AE. assert (v = 83) as -> by lia. constructor.
    + unfold aheader in H. rewrite S in H. discriminate.
    + unfold aheader in H. rewrite (co_sizes _ _ _ CO) in H. injection H as <- <-.
      cbn [has_ext]. rewrite (co_sizes _ _ _ CO). eapply AR; eauto. apply bytes_ok_app; auto.
  - assert (base_ok k' /\ bytes_ok rest /\ (exists ns ss, d_sizes k' = Some (ns, ss) /\ sizes_ok ns ss) /\ aok nd /\
      ~ stopped (acore nd) /\ d_planned (acore nd) = 1536 /\
      ((allow_extensions k' = true \/ has_ext nd (rest ++ y)) -> has_ext (ADec k u n) (x ++ y))) as
      (BO' & BR & (ns & ss & S' & SO) & ON & NN & PN & HX).
    { inversion OK as [k0 u0 BO S BU HE' E0|k0 n0 ns ss BO S SO ON PN TN E0|ns ss k0 u0 CO BU Q TI LI EX E0]; subst.
      - assert (bytes_ok (u ++ x)) as BUX by (apply bytes_ok_app; auto).
        destruct (aheader_ok k None _ k' (Some nd) rest BUX S BO H) as (BO' & BR & SS & NN & PL & _).
        destruct NN as [NN|NN]; [discriminate|]. injection NN as ->. destruct a_table_ok as (TO & TP & TT).
        split; [exact BO'|]. split; [exact BR|]. split; [exact SS|]. split; [exact TO|]. split; [|split; [exact TP|]].
        + intros [_ X]. revert X. vm_compute. discriminate.
        + destruct (aheader_inv k None _ _ _ _ BUX S H) as (v & ind & tl & EQ & V & I0 & BI & ALT).
          destruct ALT as [(I1 & -> & X & _)|(I1 & _ & p & q & n1 & s1 & -> & VP & VQ & _ & _ & -> & _)]; [discriminate|].
          cbn [has_ext]. rewrite S. rewrite app_assoc, EQ. intros [X|X].
          * apply s_version_app. unfold allow_extensions in X. cbn in X. assert (v = 83) as -> by lia. constructor.
          * replace (hd5 v ind (p ++ q ++ rest) ++ y) with (hd5 v ind (p ++ q ++ (rest ++ y))) by (unfold hd5; cbn [app]; rewrite <- !app_assoc; reflexivity).
            eapply sv_nested; eauto.
      - unfold aheader in H. rewrite S in H. injection H as <- <- <-. cbn [app] in *.
        split; [exact BO|]. split; [exact BX|]. split; [eauto|]. split; [exact ON|]. split; [|split; [exact PN|auto]].
        intros ST. apply (aok_stopped n0 ON PN) in ST. lia.
      - unfold aheader in H. rewrite (co_sizes _ _ _ CO) in H. discriminate. }
    apply HX. subst r. pose proof (acr_ok _ _ _ A ON NN BR) as AO. inversion AF; subst.
    + cbn [has_ext] in HE. destruct HE as [HE|HE]; [auto|]. right. eapply IH; eauto.
    + destruct AO as (AO1 & AO2 & _).
      match goal with X : d_sizes k' = Some (?a, ?b) |- _ => rewrite S' in X; injection X as <- <- end.
      match goal with X : use_code_table _ _ _ = Some _ |- _ => pose proof (after_core k' ns ss _ _ _ BO' S' SO AO1 ltac:(eassumption) X) as (CO & TI & LI & NS2 & Q & BO2) end.
      left. match goal with X : arun ?kk ?dd ?z |- _ => change (allow_extensions kk = true); eapply (AR ns ss kk dd z a'); eauto end.
      apply bytes_finish_except; [apply zlen_nonneg|exact BR].
Qed.

Lemma has_ext_app : forall a x y, has_ext a x -> has_ext a (x ++ y).
Proof.
  fix IH 1. intros [k u [n|]] x y H; cbn [has_ext] in *.
  - destruct H as [H|H]; [left; exact H|right; apply IH; exact H].
  - destruct (d_sizes k); [exact H|]. rewrite app_assoc. apply s_version_app. exact H.
Qed.

Lemma acrs_concat : forall chunks a R r, Forall bytes_ok chunks -> aok a -> unplanned a -> acrs a chunks R -> acr a (concat chunks) r ->
  chunks <> [] -> asim R r \/ (has_ext a (concat chunks) /\ r = AErr).
Proof.
  intros chunks a R r F OK UP H. revert r F OK UP.
  induction H as [a|a x tl R H N|a x tl a' R H H' IH]; intros r F OK UP O NE; [congruence| |].
  - cbn [concat] in O. inversion F; subst.
    assert (bytes_ok (concat tl)) as BT by (apply Forall_concat; auto).
    pose proof (acr_two a x R H (concat tl) r OK (unplanned_stopped a UP) ltac:(auto) BT O) as T.
    left. destruct R as [a'| |]; [destruct (N a' eq_refl)|subst r; exact I|subst r; exact I].
  - cbn [concat] in O. inversion F; subst.
    assert (bytes_ok (concat tl)) as BT by (apply Forall_concat; auto).
    pose proof (acr_ok _ _ _ H OK (unplanned_stopped a UP) ltac:(auto)) as (OK' & PL & _).
    assert (unplanned a') as UP' by (unfold unplanned, has_planned in *; rewrite PL; exact UP).
    destruct tl as [|x2 tl2].
    { inversion H'; subst. cbn [concat] in O. rewrite app_nil_r in O. rewrite (acr_fun _ _ _ H _ O). left. apply arel_refl_aok. exact OK'. }
    pose proof (acr_two a x (AOk a') H (concat (x2 :: tl2)) r OK (unplanned_stopped a UP) ltac:(auto) BT O) as T. cbn beta iota in T.
    destruct T as [[T _]|[(_ & r3 & R3 & SM)|(T1 & T2 & ->)]]; [destruct (unplanned_stopped _ UP' T)| |].
    + destruct (IH r3 ltac:(auto) OK' UP' R3 ltac:(discriminate)) as [S1|(E1 & E2)].
      * left. eapply asim_trans; eauto.
      * right. subst r3. cbn [concat] in *. split; [eapply acr_has_ext; eauto using unplanned_stopped|]. destruct r; cbn in SM; try contradiction. auto.
    + right. split; [|reflexivity]. cbn [concat] in *. apply has_ext_app. exact T1.
Qed.
