(** Soundness of decoding a delta passed in one piece: what is accepted is a file
    in the sense of the specification. *)

From Verif Require Import Base Spec Varint VarintFacts AddrCache AddrCacheFacts CodeTable CodeTableFacts
  InstructionMap DecodeTable HeaderParser Adler AdlerFacts Decoder CopyFacts BodyFacts BodyExt WindowExt
  WindowHeader WindowStep WindowFacts Refine Totals Abstract FileHeader Chunk Sim Stream Session Reuse Usable.
From Coq Require Import ZifyBool ZifyNat.

(** ** Changing tolerance, code table, guard *)

Definition same_table (t1 t2 : code_table) : Prop := forall op, byte_ok op -> t1 op = t2 op.

Lemma items_mean_ext : forall drop t1 t2 ns ss L seg l s s', same_table t1 t2 ->
  items_mean drop t1 ns ss L seg l s s' -> items_mean drop t2 ns ss L seg l s s'.
Proof.
  intros drop t1 t2 ns ss L seg l s s' E H. induction H.
  - constructor.
  - rewrite (E _ H) in *. eapply im_cons; eauto.
  - rewrite (E _ H0) in *. eapply im_drop; eauto.
Qed.

Definition same_format (f1 f2 : format) : Prop :=
  f_ext f1 = f_ext f2 /\ same_table (f_table f1) (f_table f2) /\ f_near f1 = f_near f2 /\ f_same f1 = f_same f2 /\
  f_target f1 = f_target f2.

Lemma window_ext : forall t f1 f2 dict prev wb T, same_format f1 f2 ->
  Spec.window t f1 dict prev wb T -> Spec.window t f2 dict prev wb T.
Proof.
  intros t [e1 t1 n1 s1 g1] [e2 t2 n2 s2 g2] dict prev wb T (E1 & E2 & E3 & E4 & E5) W. cbn in *. subst e2 n2 s2 g2.
  inversion W as [ind sb seg bd dl bt di bnd nd bni ni bna na bcks items body hist T1 BI SG VD VT BDI DI VND VNI VNA CF LA DL IM EW ET].
  subst. cbn in *. eapply window_intro; eauto.
  - inversion SG; subst; [apply seg_none|eapply seg_dict|eapply seg_target]; eauto.
  - cbn. eapply items_mean_ext; eauto.
Qed.

(** [t'] grants everything that [t] grants. *)
Definition tle (t t' : tolerance) : Prop :=
  (t_drop t = true -> t_drop t' = true) /\ (t_slack t = true -> t_slack t' = true).

Lemma window_weaken : forall t t' f dict prev wb T, tle t t' ->
  Spec.window t f dict prev wb T -> Spec.window t' f dict prev wb T.
Proof.
  intros t t' f dict prev wb T [D S] W.
  inversion W as [ind sb seg bd dl bt di bnd nd bni ni bna na bcks items body hist T1 BI SG VD VT BDI DI VND VNI VNA CF LA DL IM EW ET].
  subst. assert (layout t' f items nd ni na body) as LA'.
  { destruct LA as [(A & B & [C|[C1 C2]])|LA]; [left; auto|left; split; [exact A|split; [exact B|right; auto]]|right; exact LA]. }
  eapply window_intro; eauto.
  destruct (t_drop t) eqn:TD; [rewrite D by reflexivity; exact IM|].
  destruct (t_drop t'); [apply items_mean_weaken; exact IM|exact IM].
Qed.

Lemma tle_refl : forall t, tle t t. Proof. split; auto. Qed.
Lemma tle_tol : forall a b, (a = true -> b = true) -> tle (tol a) (tol b).
Proof. intros a b H. split; cbn; auto. Qed.

Lemma windows_ext : forall t t' tl tl' f1 f2 dict (ok ok' : list Z -> list Z -> Prop), tle t t' -> tle tl tl' -> same_format f1 f2 ->
  (forall p T, ok p T -> ok' p T) ->
  forall prev wb T, windows t tl f1 dict ok prev wb T -> windows t' tl' f2 dict ok' prev wb T.
Proof.
  intros t t' tl tl' f1 f2 dict ok ok' L L' SF K prev wb T H. induction H; [constructor|].
  apply ws_cons with (T := T); auto. eapply window_ext; [exact SF|]. destruct rest; eapply window_weaken; eauto.
Qed.

(** ** Windows *)

Definition limits (k : core) (prev T : list Z) : Prop :=
  within (d_max_window k) (d_max_file k) prev T /\
  (has_planned k = true -> zlen prev < d_planned k /\ zlen prev + zlen T <= d_planned k).

Definition nilb {A} (l : list A) : bool := match l with [] => true | _ => false end.

Lemma decode_window_modes : forall ns ss k data p, core_ok ns ss k -> d_win k = None -> decode_window k data = XOk p -> ns + ss <= 254.
Proof.
  intros ns ss k data p CO W H. rewrite (decode_window_none k ns ss) in H by (auto; apply CO).
  destruct (header_fields k data) as [[fd l]| | |]; try discriminate.
  destruct (negb (fields_il k fd) && (zlen l <? fields_total fd)); [discriminate|].
  destruct (cache_init ns ss) as [ca|] eqn:CI; [|discriminate]. eapply cache_init_sum; eauto.
Qed.

Lemma arun_sound : forall k data r, arun k data r -> forall ns ss k' u, core_ok ns ss k -> d_win k = None -> bytes_ok data ->
  tot_inv k -> lim_inv k -> ~ stopped k -> r = XOk (k', u) ->
  exists ws, data = ws ++ u /\
    windows (tol false) (tol (nilb u)) (fmt k ns ss) (d_dict k) (limits k) (d_target k) ws (d_target k') /\
    (u = [] \/ stopped k') /\ modes_fit ns ss ws.
Proof.
  induction 1 as [k|k data k1 rest NE DW RP|k data k1 rest r NE DW RP H IH|k data p NE DW|k data NE DW|k data NE DW];
    intros ns ss k' u CO WN BD TI LI NS ER; try discriminate.
  - injection ER as <- <-. exists []. split; [reflexivity|]. split; [constructor|]. split; [auto|left; reflexivity].
  - injection ER as <- <-. pose proof (decode_window_modes _ _ _ _ _ CO WN DW) as MF.
    destruct (decode_window_sound k ns ss data _ _ CO WN BD DW) as (wb & T & slack & -> & W & SL & WE & BT & ZT & WNE & ->).
    exists wb. split; [reflexivity|]. split; [|split; [right; split; [reflexivity|exact RP]|right; lia]].
    cbn [set_win d_target]. rewrite <- (app_nil_r wb) at 1. apply ws_cons with (T := T); [| |constructor].
    + eapply window_weaken; [|exact W]. apply tle_tol. intros S. destruct (SL S) as [_ ->]. reflexivity.
    + destruct TI as [T0 TI]. rewrite WN in TI. destruct TI as [TI _]. destruct (would_exceed_false k (zlen T) WE LI T0 (zlen_nonneg _ T)) as (A & B & C).
      unfold limits, within. split; [lia|]. intros HP. specialize (C HP). split; [|lia].
      assert (reached_planned k = false) as NR by (destruct (reached_planned k) eqn:X; [destruct NS; split; auto|reflexivity]).
      unfold reached_planned in NR. rewrite HP in NR. cbn [andb] in NR. lia.
  - pose proof (decode_window_modes _ _ _ _ _ CO WN DW) as MF.
    pose proof (decode_window_step k ns ss data [] CO BD ltac:(constructor)) as ST. rewrite DW in ST.
    destruct ST as (CO' & CS & WN' & BR & _).
    pose proof (decode_window_len ns ss k data CO BD TI LI) as DL. rewrite DW in DL. destruct DL as (TI' & LI' & _).
    destruct (decode_window_sound k ns ss data _ _ CO WN BD DW) as (wb & T & slack & -> & W & SL & WE & BT & ZT & WNE & EK).
    assert (~ stopped k1) as NS' by (intros [_ X]; congruence).
    destruct (IH ns ss k' u CO' WN' BR TI' LI' NS' ER) as (ws & -> & WS & ALT & _).
    exists (wb ++ ws). split; [rewrite app_assoc; reflexivity|]. split; [|split; [exact ALT|right; lia]].
    subst k1. cbn [set_win d_target] in WS. apply ws_cons with (T := T); [| |exact WS].
    + destruct ws as [|b ws].
      * eapply window_weaken; [|exact W]. apply tle_tol. intros S. destruct (SL S) as [_ E]. cbn in E. subst u. reflexivity.
      * destruct slack; [destruct (SL eq_refl) as [_ E]; discriminate|exact W].
    + destruct TI as [T0 TI]. rewrite WN in TI. destruct TI as [TI _]. destruct (would_exceed_false k (zlen T) WE LI T0 (zlen_nonneg _ T)) as (A & B & C).
      unfold limits, within. split; [lia|]. intros HP. specialize (C HP). split; [|lia].
      assert (reached_planned k = false) as NR by (destruct (reached_planned k) eqn:X; [destruct NS; split; auto|reflexivity]).
      unfold reached_planned in NR. rewrite HP in NR. cbn [andb] in NR. lia.
Qed.

Lemma arun_complete : forall ns ss k data r k' u, core_ok ns ss k -> d_win k = None -> bytes_ok data -> ~ stopped k -> arun k data r ->
  collapse r = AOk (ADec k' u None) -> acomplete (ADec k' u None) = true -> r = XOk (k', u).
Proof.
  intros ns ss k data r k' u CO WN BD NS H C A. pose proof (arun_ok _ _ _ H ns ss CO BD NS) as AO.
  destruct r as [[k2 u2]|[k2 u2]| | |]; try discriminate; cbn in C; injection C as -> ->; [reflexivity|exfalso].
  destruct AO as (CO' & CS & _). cbn in A. rewrite (co_sizes _ _ _ CO') in A. destruct (d_win k') eqn:W; [discriminate|].
  assert (exists data2 k2, data2 <> [] /\ decode_window k2 data2 = XEod (k', u) /\ core_ok ns ss k2 /\ bytes_ok data2 /\ ~ stopped k2) as (data2 & k2 & NE & DW & CO2 & BD2 & NS2).
  { clear A. remember (XEod (k', u)) as r eqn:ER. revert CO WN BD NS ER. clear CS. induction H; intros; try discriminate.
    - pose proof (decode_window_step k ns ss data [] CO BD ltac:(constructor)) as ST. rewrite H0 in ST.
      apply IHarun; try tauto. intros [_ X]. congruence.
    - injection ER as ->. exists data, k. auto. }
  pose proof (decode_window_step k2 ns ss data2 [] CO2 BD2 ltac:(constructor)) as ST. rewrite DW in ST.
  destruct ST as (_ & _ & _ & _ & [[E1 E2]|[_ (w & X)]] & _); [|congruence]. subst k2 data2.
  destruct (reached_planned k') eqn:RP; [destruct NS2; split; auto|]. destruct u; [congruence|discriminate].
Qed.

(** ** Files *)

Lemma last_mode_mod : forall ns ss, last_mode ns ss = (ns + ss + 1) mod 256.
Proof.
  intros. unfold last_mode, first_same_mode, to_uchar.
  replace ((2 + ns) mod 256 + ss - 1) with ((2 + ns) mod 256 + (ss - 1)) by lia. rewrite Zplus_mod_idemp_l. f_equal. lia.
Qed.

Lemma fmt_file : forall k ns ss tbl, same_table (entry (d_table k)) tbl -> same_format (fmt k ns ss) (file_format (d_version k) tbl ns ss (d_allow k)).
Proof. intros k ns ss tbl E. unfold same_format, fmt, file_format, allow_extensions. cbn. auto. Qed.

Lemma default_same : same_table (entry default_table) rfc_table.
Proof. intros op O. apply default_table_rfc. exact O. Qed.

Lemma a_table_fields : exists k, a_table = ADec k [] None /\ d_sizes k = None /\ base_ok k /\ d_table k = default_table /\
  d_allow k = true /\ d_dict k = string_of_table rfc_table /\ d_max_window k = 67108864 /\ d_max_file k = 67108864 /\
  d_planned k = 1536.
Proof.
  destruct a_table_ok as (TO & _). unfold a_table, table_decoder in *. eexists. split; [reflexivity|]. split; [reflexivity|].
  split; [inversion TO as [? ? BO| |]; subst; [exact BO|]; exfalso; match goal with X : core_ok _ _ _ |- _ => pose proof (co_sizes _ _ _ X) as Z end; discriminate|].
  split; [reflexivity|]. split; [reflexivity|]. split; [symmetry; apply rfc_string|]. auto.
Qed.

Lemma finish_except_app : forall p (u : list Z), finish_except (zlen u) (p ++ u) = u.
Proof.
  intros p u. unfold finish_except. rewrite zlen_app. pose proof (zlen_nonneg _ p).
  destruct (Z.ltb_spec (zlen p + zlen u) (zlen u)); [lia|]. apply zdrop_app_eq. lia.
Qed.

Theorem acr_sound : forall a X r, acr a X r -> forall k a', a = ADec k [] None -> d_sizes k = None -> base_ok k ->
  d_table k = default_table -> bytes_ok X -> X <> [] -> r = AOk a' -> acomplete a' = true ->
  exists h v tbl ns ss ws, X = h ++ ws ++ arest a' /\
    head (tol false) (match ws with [] => tol (nilb (arest a')) | _ => tol false end) h v tbl ns ss /\
    modes_fit ns ss ws /\
    windows (tol false) (tol (nilb (arest a'))) (file_format v tbl ns ss (d_allow k)) (d_dict k) (limits k) [] ws (d_target (acore a')) /\
    (arest a' = [] \/ stopped (acore a')).
Proof.
  assert (forall k ns ss data r a' tbl, base_ok k -> d_sizes k = Some (ns, ss) -> sizes_ok ns ss -> bytes_ok data -> arun k data r ->
    same_table (entry (d_table k)) tbl -> collapse r = AOk a' -> acomplete a' = true ->
    exists ws, data = ws ++ arest a' /\ modes_fit ns ss ws /\
      windows (tol false) (tol (nilb (arest a'))) (file_format (d_version k) tbl ns ss (d_allow k)) (d_dict k) (limits k) [] ws (d_target (acore a')) /\
      (arest a' = [] \/ stopped (acore a'))) as RUN.
  { intros k ns ss data r a' tbl BO S SO BD H E C A. destruct (base_core k ns ss BO S SO) as (CO & TI & LI & NS).
    assert (exists k' u, a' = ADec k' u None) as (k' & u & ->).
    { destruct r as [[k2 u2]|[k2 u2]| | |]; try discriminate; cbn in C; injection C as <-; eauto. }
    pose proof (arun_complete ns ss k data r k' u CO (bo_win _ BO) BD NS H C A) as ->.
    destruct (arun_sound _ _ _ H ns ss k' u CO (bo_win _ BO) BD TI LI NS eq_refl) as (ws & -> & WS & ALT & MF).
    exists ws. split; [reflexivity|]. split; [exact MF|]. split; [|exact ALT]. cbn [arest acore].
    rewrite (bo_target _ BO) in WS. refine (windows_ext _ _ _ _ _ _ _ _ _ (tle_refl _) (tle_refl _) (fmt_file _ _ _ _ E) (fun _ _ X => X) _ _ _ WS). }
  induction 1 as [k u n data H|k u n data H|k u n data H|k u n data k1 rest r H R|k u n data k1 nd rest r1 r H A IH AF];
    intros k0 a' EA S BO DT BX XN ER AC; injection EA as -> -> ->; try discriminate; cbn [app] in *.
  - injection ER as <-. cbn in AC. rewrite S in AC. destruct data; [congruence|discriminate].
  - destruct (aheader_inv k0 None _ _ _ _ BX S H) as (v & ind & tl & -> & V & I0 & BI & ALT).
    destruct ALT as [(I1 & -> & _ & EK)|(I1 & X & _)]; [|discriminate].
    destruct (aheader_ok k0 None _ k1 None rest BX S BO H) as (BO' & BR & (ns & ss & S' & SO) & _ & PL & _).
    destruct (RUN k1 ns ss rest r a' rfc_table BO' S' SO BR R) as (ws & -> & MF & WS & ALT); auto.
    { subst k1. cbn. rewrite DT. apply default_same. }
    subst k1. cbn in S'. injection S' as <- <-. cbn [set_file d_version d_allow d_dict] in WS.
    exists (file_header v ind), v, rfc_table, 4, 3, ws. split; [reflexivity|]. split; [constructor; auto|]. split; [exact MF|]. split; [exact WS|exact ALT].
  - destruct (aheader_inv k0 None _ _ _ _ BX S H) as (v & ind & tl & -> & V & I0 & BI & ALT).
    destruct ALT as [(_ & _ & X & _)|(I1 & EN & p & q & ns0 & ss0 & -> & VP & VQ & NSR & SSR & EK & _)]; [discriminate|]. injection EN as ->.
    destruct (aheader_ok k0 None _ k1 _ rest BX S BO H) as (BO' & BR & (ns & ss & S' & SO) & _ & PL & _).
    assert (ns = ns0 /\ ss = ss0) as [-> ->] by (subst k1; cbn in S'; injection S'; auto).
    subst r. inversion AF as [| |nd L| |nd ns' ss' t b r L CP S2 U R E1 E2]; subst; [discriminate|].
    rewrite S' in S2. injection S2 as <- <-.
    destruct a_table_fields as (kt & EKT & KS & KB & KT & KAL & KD & KW & KF & KP).
    assert (rest <> []) as RN.
    { intros ->. rewrite EKT in A. inversion A; subst; cbn [app] in *;
        match goal with X : aheader kt None [] = _ |- _ => unfold aheader in X; rewrite KS in X; cbn in X; try discriminate X end.
      cbn [acore] in L. rewrite (bo_target _ KB), zlen_nil in L. lia. }
    destruct (IH kt nd EKT KS KB KT BR RN eq_refl CP) as (h' & v' & tbl' & ns' & ss' & ws' & ER & HD & MF' & WS' & ALT').
    assert (finish_except (zlen (arest nd)) rest = arest nd) as FE by (rewrite ER, app_assoc; apply finish_except_app). rewrite FE in R.
    assert (bytes_ok (d_target (acore nd))) as BS.
    { destruct a_table_ok as (TO & _). assert (~ stopped (acore a_table)) as NSA by (intros [_ X]; revert X; vm_compute; discriminate).
      pose proof (acr_ok _ _ _ A TO NSA BR) as (AO & _). apply aok_target_bytes. exact AO. }
    rewrite last_mode_mod in U.
    assert (0 <= (ns0 + ss0 + 1) mod 256 <= 255) as MR by lia.
    assert (d_table (set_file k0 v (Some (ns0, ss0)) [] (d_table k0)) = default_table) as DT1 by exact DT. rewrite DT1 in U.
    destruct (use_code_table_usable default_table (d_target (acore nd)) _ BS L MR) as (t' & b' & U' & CASES). rewrite U in U'. injection U' as <- <-.
    assert (exists tbl, same_table (entry t) tbl /\ table_ok t /\ ((usable_table ((ns0 + ss0 + 1) mod 256) (d_target (acore nd)) /\ tbl = table_of_string (d_target (acore nd))) \/
       (~ usable_table ((ns0 + ss0 + 1) mod 256) (d_target (acore nd)) /\ tbl = rfc_table))) as (tbl & ST & TOK & UC).
    { destruct CASES as [(_ & UT & ->)|(_ & UT & ->)].
      - exists (table_of_string (d_target (acore nd))). split; [intros op O; apply entry_of_bytes; exact O|]. split; [apply table_of_bytes_ok; auto|auto].
      - exists rfc_table. split; [apply default_same|]. split; [apply default_table_ok|auto]. }
    destruct (RUN (set_file (set_file k0 v (Some (ns0, ss0)) [] (d_table k0)) v (Some (ns0, ss0)) [] t) ns0 ss0 (arest nd) r a' tbl) as (ws & EW & MF & WS & ALT); auto.
    { apply base_file; auto. }
    { rewrite ER in BR. apply bytes_ok_app in BR as [_ BR]. apply bytes_ok_app in BR as [_ BR]. exact BR. }
    exists (file_header v ind ++ p ++ q ++ h' ++ ws'), v, tbl, ns0, ss0, ws.
    split. { rewrite ER, EW. change (hd5 v ind (p ++ q ++ h' ++ ws' ++ ws ++ arest a') = file_header v ind ++ (p ++ q ++ h' ++ ws')  ++ ws ++ arest a').
      rewrite <- !app_assoc. reflexivity. }
    split; [|split; [exact MF|split; [exact WS|exact ALT]]].
    eapply head_custom; [exact V|exact BI|exact I0|exact I1|exact VP|exact VQ|lia|lia| |exact MF'| |exact L|exact UC].
    + destruct ws'; [|exact HD]. exfalso. inversion WS'; subst.
      * match goal with X : [] = d_target _ |- _ => rewrite <- X, zlen_nil in L; discriminate end.
      * match goal with X : Spec.window _ _ _ _ _ _ |- _ => inversion X; subst end.
        destruct rest0; discriminate.
    + rewrite KAL, KD in WS'. eapply windows_ext; [apply tle_refl| | | |exact WS'].
      * rewrite EW. destruct ws; cbn [app nilb]; apply tle_refl.
      * unfold same_format. repeat split.
      * intros pp TT [W1 W2]. unfold table_limit. rewrite KW, KF in W1. rewrite KP in W2. split; [exact W1|]. apply W2. apply planned_1536. exact KP.
Qed.
