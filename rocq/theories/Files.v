(** Whole files: the decoder object accepts exactly the files of Spec.v. *)

From Verif Require Import Base Spec Varint VarintFacts AddrCache AddrCacheFacts CodeTable CodeTableFacts
  InstructionMap DecodeTable HeaderParser Adler AdlerFacts Decoder CopyFacts BodyFacts BodyExt WindowExt
  WindowHeader WindowStep WindowFacts Refine Totals Abstract FileHeader Chunk Sim Stream Session Reuse Usable Sound Complete Truncate.
From Coq Require Import ZifyBool ZifyNat.

(** The settings of a decoder object. *)
Definition max_window (d : dec) : Z := let '(Dec c _) := d in d_max_window c.
Definition max_file (d : dec) : Z := let '(Dec c _) := d in d_max_file c.
Definition target_allowed (d : dec) : bool := let '(Dec c _) := d in d_allow c.
Definition admits (d : dec) : list Z -> list Z -> Prop := within (max_window d) (max_file d).

(** Sizes for which the decoder's 32-bit arithmetic is exact. *)
Definition sizes_fit (dict X out : list Z) : Prop :=
  zlen X <= int32_max /\ zlen dict <= int32_max /\ zlen out <= int32_max /\ zlen dict + zlen out <= int32_max + 1.

(** One call, in terms of the abstract decoder. *)
Lemma one_call : forall d dict X r, idle d -> bytes_ok dict -> bytes_ok X -> acr (astart d dict) X r ->
  match r with
  | AOk a => exists d', decode_chunks (start_decoding d dict) [X] [] = Some (d', true, d_target (acore a)) /\
      snd (finish_decoding d') = acomplete a /\ aok a /\ unplanned a
  | AErr => exists d' out, decode_chunks (start_decoding d dict) [X] [] = Some (d', false, out)
  | AUB => decode_chunks (start_decoding d dict) [X] [] = None
  end.
Proof.
  intros d dict X r ID BD BX H. pose proof (idle_ready d ID) as RD.
  assert (Forall bytes_ok [X]) as F by (constructor; auto).
  destruct (stream_start d dict [X] RD BD F) as (R & A & M). apply acrs_one in A.
  pose proof (acr_fun _ _ _ H _ A) as E. subst R.
  destruct (decode_chunks (start_decoding d dict) [X] []) as [[[d' [|]] out]|].
  - destruct M as (a & -> & DR & OK & UP). exists d'. rewrite (drel_out _ _ _ DR). 
    destruct (drel_finish _ _ _ DR OK) as (c & n & -> & -> & _). auto.
  - destruct M as (-> & _). eauto.
  - destruct M as (-> & _). reflexivity.
Qed.

Lemma start_facts : forall d dict, idle_plain d -> bytes_ok dict -> exists k, astart d dict = ADec k [] None /\
  d_sizes k = None /\ base_ok k /\ d_table k = default_table /\ d_dict k = dict /\ d_allow k = target_allowed d /\
  has_planned k = false /\ (forall prev T, limits k prev T <-> admits d prev T).
Proof.
  intros d dict IP BD. apply idle_plain_idle in IP as [ID TB]. pose proof (idle_ready d ID) as RD.
  destruct (start_ok d dict RD BD) as (_ & OK & UP & _). destruct d as [c n]. eexists. split; [reflexivity|].
  split; [reflexivity|]. split; [|split; [exact TB|split; [reflexivity|split; [reflexivity|split; [reflexivity|]]]]].
  - inversion OK as [k0 u0 BO S BU HE E|k0 n0 ns ss BO S SO ON PN TN E|ns ss k0 u0 CO BU Q TI LI EX E]; subst; auto.
    exfalso. apply (co_sizes _ _ _) in CO. discriminate.
  - intros prev T. unfold limits, admits. split; [intros [A _]; exact A|]. intros A. split; [exact A|]. intros X. discriminate.
Qed.

Theorem file_sound : forall d dict X out, idle_plain d -> bytes_ok dict -> bytes_ok X ->
  decode_stream d dict [X] = Some (true, out) ->
  vcd_file (tol false) (tol true) (target_allowed d) (admits d) dict X out.
Proof.
  intros d dict X out IP BD BX H. pose proof (idle_plain_idle d IP) as [ID _].
  destruct (start_facts d dict IP BD) as (k & EA & S & BO & DT & DD & DA & UP & LM).
  assert (aok (astart d dict) /\ ~ stopped (acore (astart d dict))) as [OK NS].
  { pose proof (start_ok d dict (idle_ready d ID) BD) as (_ & OK & U & _). split; [exact OK|]. apply unplanned_stopped. exact U. }
  destruct (acr_total _ X OK NS BX) as [r A]. pose proof (one_call d dict X r ID BD BX A) as O.
  unfold decode_stream in H. rewrite EA in A. destruct r as [a| |]; [| |rewrite O in H; discriminate].
  - destruct O as (d' & E & F & OA & UA). rewrite E, F in H. injection H as AC <-.
    destruct (list_eq_dec Z.eq_dec X []) as [-> |XN].
    { inversion A as [? ? ? ? AH|? ? ? ? AH|? ? ? ? AH|? ? ? ? k' rest r AH R|? ? ? ? k' nd rest r1 r AH A1 AF]; subst; cbn [app] in AH;
      unfold aheader in AH; rewrite S in AH; cbn in AH; try discriminate.
      cbn. rewrite (bo_target _ BO). constructor. }
    destruct (acr_sound _ _ _ A k a eq_refl S BO DT BX XN eq_refl AC) as (h & v & tbl & ns & ss & ws & EX & HD & MF & WS & ALT).
    destruct ALT as [AR|ST]; [|destruct (unplanned_stopped a UA ST)]. rewrite AR, app_nil_r in *. cbn [nilb] in *. subst X.
    eapply file_intro; [exact HD|exact MF|]. rewrite DA, DD in WS.
    refine (windows_ext _ _ _ _ _ _ _ _ _ (tle_refl _) (tle_refl _) _ _ _ _ _ WS); [repeat split|intros p T; apply LM].
  - destruct O as (d' & o & E). rewrite E in H. discriminate.
Qed.

(** The tolerance [t_slack] is only about the interleaved layout. *)
Lemma window_no_ext : forall t f dict prev w T, f_ext f = false -> Spec.window t f dict prev w T ->
  Spec.window {| t_drop := t_drop t; t_slack := false |} f dict prev w T.
Proof.
  intros t f dict prev w T NE W.
  inversion W as [ind sb seg bd dl bt di bnd nd bni ni bna na bcks items body hist T1 BI SG VD VT BDI DI VND VNI VNA CF LA DL IM EW ET]; subst.
  eapply window_intro; eauto. destruct LA as [[[X _] _]|LA]; [congruence|right; exact LA].
Qed.

Theorem file_complete_one : forall t d dict X out, idle_plain d -> bytes_ok dict -> bytes_ok X -> ~ bad_cache X ->
  t_slack t = false -> vcd_file t t (target_allowed d) (admits d) dict X out -> sizes_fit dict X out ->
  decode_stream d dict [X] = Some (true, out).
Proof.
  intros t d dict X out IP BD BX NB SL V (Z1 & Z2 & Z3 & Z4). pose proof (idle_plain_idle d IP) as [ID _].
  destruct (start_facts d dict IP BD) as (k & EA & S & BO & DT & DD & DA & UP & LM).
  unfold decode_stream. inversion V as [E1 E2|h v tbl ns ss ws out' HD MF WS E1 E2]; [subst X out|subst X out'].
  - destruct (no_chunk d dict ID) as (e1 & e2 & E1 & E2 & F1 & F2). rewrite E2, F2. reflexivity.
  - assert (head t t h v tbl ns ss) as HD' by (destruct ws; exact HD).
    destruct (acr_complete t t h v tbl ns ss HD' SL SL t t k ws [] out SL SL BO S DT MF) as (a & A & TG & AC & AR); rewrite ?app_nil_r; auto.
    + rewrite DA, DD. refine (windows_ext _ _ _ _ _ _ _ _ _ (tle_refl _) (tle_refl _) _ _ _ _ _ WS); [repeat split|intros p T; apply LM].
    + rewrite DD. exact Z2.
    + rewrite DD. exact Z4.
    + rewrite UP. discriminate.
    + rewrite app_nil_r in A. rewrite <- EA in A.
      destruct (one_call _ _ _ _ ID BD BX A) as (d' & E & F & _). rewrite E, F, TG, AC. reflexivity.
Qed.

Theorem file_complete : forall t d dict chunks out, idle_plain d -> bytes_ok dict -> Forall bytes_ok chunks -> ~ bad_cache (concat chunks) ->
  t_slack t = false -> vcd_file t t (target_allowed d) (admits d) dict (concat chunks) out -> sizes_fit dict (concat chunks) out ->
  decode_stream d dict chunks = Some (true, out).
Proof.
  intros t d dict chunks out IP BD F NB SL V SF. pose proof (idle_plain_idle d IP) as [ID _].
  pose proof (file_complete_one t d dict _ out IP BD (bytes_concat _ F) NB SL V SF) as H. unfold decode_stream in H.
  destruct (decode_chunks (start_decoding d dict) [concat chunks] []) as [[[d1 [|]] o]|] eqn:E; try discriminate. injection H as H <-.
  destruct (split_success d dict chunks d1 o ID BD F E) as (d2 & E2 & FD). unfold decode_stream. rewrite E2, FD, H. reflexivity.
Qed.

(** ** Files cut short *)

Theorem file_cut : forall t d dict h v tbl ns ss ws out chunks q, idle_plain d -> bytes_ok dict ->
  t_slack t = false -> head t t h v tbl ns ss -> modes_fit ns ss ws ->
  let f := file_format v tbl ns ss (target_allowed d) in
  windows t t f dict (admits d) [] ws out ->
  bytes_ok (h ++ ws) -> ~ bad_cache (h ++ ws) -> sizes_fit dict (h ++ ws) out ->
  Forall bytes_ok chunks -> h ++ ws = concat chunks ++ q ->
  exists d' o, decode_chunks (start_decoding d dict) chunks [] = Some (d', true, o) /\
    (snd (finish_decoding d') = true <->
     concat chunks = [] \/ exists ws1, concat chunks = h ++ ws1 /\ windows t t f dict (admits d) [] ws1 o /\ windows t t f dict (admits d) o q out).
Proof.
  intros t d dict h v tbl ns ss ws out chunks q IP BD SL HD MF f WS BX NB (Z1 & Z2 & Z3 & Z4) FC EQ.
  pose proof (idle_plain_idle d IP) as [ID _].
  destruct (start_facts d dict IP BD) as (k & EA & S & BO & DT & DD & DA & UP & LM).
  set (p := concat chunks) in *.
  assert (bytes_ok p /\ bytes_ok q) as [BP BQ] by (apply bytes_ok_app; rewrite <- EQ; exact BX).
  assert (~ bad_cache p) as NBP by (intros B; apply NB; rewrite EQ; apply bad_cache_app; exact B).
  assert (exists a, acr (astart d dict) p (AOk a) /\ (acomplete a = true <-> p = [] \/
     exists ws1, p = h ++ ws1 /\ windows t t f dict (admits d) [] ws1 (d_target (acore a)) /\ windows t t f dict (admits d) (d_target (acore a)) q out)) as (a & A & C).
  { rewrite EA. destruct (list_eq_dec Z.eq_dec p []) as [-> |PN].
    { exists (ADec k [] None). split; [apply (acr_eod k [] None []); unfold aheader; rewrite S; reflexivity|]. cbn. rewrite S. cbn. tauto. }
    pose proof EQ as EQ0. apply app_eq_app in EQ as (l & [[EP EQ]|[EP EQ]]).
    - destruct (list_eq_dec Z.eq_dec l []) as [-> |LN].
      + (* exactly the header *) rewrite app_nil_r in EP. subst h. cbn [app] in EQ. subst q.
        destruct (acr_head t t p v tbl ns ss k [] HD SL SL BO S DT) as (k1 & BO1 & S1 & SO & _ & _ & _ & _ & _ & _ & UP1 & H1); rewrite ?app_nil_r; auto.
        { rewrite zlen_app in Z1. pose proof (zlen_nonneg _ ws). lia. }
        rewrite app_nil_r in H1. exists (ADec k1 [] None). split; [apply (H1 (XOk (k1, []))); constructor|].
        cbn. rewrite S1, (bo_win _ BO1). unfold reached_planned. rewrite UP1, UP. cbn. split; [|reflexivity]. intros _. right. exists [].
        rewrite (bo_target _ BO1), app_nil_r. split; [reflexivity|]. split; [constructor|exact WS].
      + (* inside the header *) subst h q. rewrite <- app_assoc in NB, BX, Z1.
        destruct (head_cut t t (p ++ l) v tbl ns ss k p l HD SL SL BO S) as (a & A & AC & TG); auto.
        { rewrite app_assoc in BX. apply bytes_ok_app in BX. tauto. }
        { intros B. apply NB. rewrite app_assoc. apply bad_cache_app. exact B. }
        { rewrite app_assoc, zlen_app in Z1. pose proof (zlen_nonneg _ ws). lia. }
        exists a. split; [exact A|]. rewrite AC. split; [discriminate|]. intros [X|(ws1 & X & _)]; [tauto|].
        exfalso. rewrite <- (app_nil_r p), <- !app_assoc in X at 1. apply app_inv_head in X. symmetry in X. apply app_eq_nil in X. tauto.
    - (* inside the windows *)
      rewrite EP in BP, NBP |- *. rewrite EQ, app_assoc in Z1, BX, NB.
      destruct (acr_head t t h v tbl ns ss k l HD SL SL BO S DT) as (k1 & BO1 & S1 & SO & N254 & V1 & ST & DA1 & DD1 & LM1 & UP1 & H1); auto.
      { rewrite zlen_app in Z1. pose proof (zlen_nonneg _ q). lia. }
      destruct (base_core k1 ns ss BO1 S1 SO) as (CO & TI & LI & _).
      assert (same_format (fmt k1 ns ss) f) as SF.
      { unfold f. rewrite <- V1, <- DA, <- DA1. apply fmt_file. intros op O. symmetry. apply ST. exact O. }
      assert (forall g1 g2, same_format g1 g2 -> same_format g2 g1) as SYM.
      { intros g1 g2 (X1 & X2 & X3 & X4 & X5). unfold same_format in *. repeat split; auto. intros op O. symmetry. auto. }
      assert (forall prev b o, windows t t f dict (admits d) prev b o -> windows t t (fmt k1 ns ss) (d_dict k1) (limits k1) prev b o) as TO.
      { intros prev b o W. rewrite DD1, DD. refine (windows_ext _ _ _ _ _ _ _ _ _ (tle_refl _) (tle_refl _) (SYM _ _ SF) _ _ _ _ W).
        intros p0 T. rewrite LM1. apply LM. }
      assert (forall prev b o, windows t t (fmt k1 ns ss) (d_dict k1) (limits k1) prev b o -> windows t t f dict (admits d) prev b o) as FROM.
      { intros prev b o W. rewrite DD1, DD in W. refine (windows_ext _ _ _ _ _ _ _ _ _ (tle_refl _) (tle_refl _) SF _ _ _ _ W).
        intros p0 T. rewrite LM1. apply LM. }
      assert (bytes_ok l /\ bytes_ok ws) as [BL BW].
      { apply bytes_ok_app in BX as [BX1 BX2]. apply bytes_ok_app in BX1 as [_ BX1]. split; [exact BX1|]. rewrite EQ. apply bytes_ok_app; auto. }
      assert (ws <> [] -> ns <= 253) as N253 by (intros WN; destruct MF as [MF|MF]; [congruence|destruct SO; lia]).
      destruct (windows_cut t _ _ _ _ _ _ (TO _ _ _ WS) ns ss k1 l q SL eq_refl eq_refl eq_refl (eq_sym (bo_target _ BO1)) CO MF N253 (bo_win _ BO1) TI LI BW) as (r & k' & u & R & CR & CW);
        rewrite ?DD1, ?DD; auto; try lia.
      { rewrite EQ, zlen_app. rewrite !zlen_app in Z1. pose proof (zlen_nonneg _ h). lia. }
      exists (ADec k' u None). split; [rewrite <- CR; apply H1; exact R|]. split.
      + intros AC. right. destruct (CW AC) as [C1 C2]. exists l. split; [reflexivity|]. split; apply FROM; [exact C1|exact C2].
      + intros [X|(ws1 & X & W1 & W2)]; [apply app_eq_nil in X as [-> ->]; cbn [app] in EP; congruence|].
        apply app_inv_head in X. subst ws1.
        destruct (acr_complete t t h v tbl ns ss HD SL SL t t k l [] (d_target k') SL SL BO S DT) as (a2 & A2 & TG & AC & AR); rewrite ?app_nil_r; auto.
        * destruct MF as [MF|MF]; [|right; exact MF]. rewrite MF in EQ. symmetry in EQ. apply app_eq_nil in EQ. left. tauto.
        * rewrite DA, DD. refine (windows_ext _ _ _ _ _ _ _ _ _ (tle_refl _) (tle_refl _) _ _ _ _ _ W1); [repeat split|intros p0 T; apply LM].
        * rewrite zlen_app in Z1. pose proof (zlen_nonneg _ q). lia.
        * rewrite DD. exact Z2.
        * destruct (windows_prefix _ _ _ _ _ _ _ _ W2) as [m EM]. rewrite EM, zlen_app in Z3. pose proof (zlen_nonneg _ m). cbn [acore] in *. lia.
        * destruct (windows_prefix _ _ _ _ _ _ _ _ W2) as [m EM]. rewrite EM, zlen_app in Z4. pose proof (zlen_nonneg _ m). rewrite DD. cbn [acore] in *. lia.
        * rewrite UP. discriminate.
        * rewrite app_nil_r in A2. pose proof (H1 r R) as A1. rewrite CR in A1. pose proof (acr_fun _ _ _ A1 _ A2) as E. injection E as E. rewrite E in AC. exact AC. }
  destruct (one_call d dict p (AOk a) ID BD BP A) as (d1 & E1 & F1 & _).
  destruct (split_success d dict chunks d1 _ ID BD FC E1) as (d2 & E2 & F2).
  exists d2, (d_target (acore a)). split; [exact E2|]. rewrite F2, F1. exact C.
Qed.
