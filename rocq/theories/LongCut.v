(** Files longer than 2^31 bytes that are cut short (C13): the lemmas of Truncate.v and
    Files.v with the conditions on the sizes per window. *)

From Verif Require Import Base Spec SpecLong Varint VarintFacts AddrCache AddrCacheFacts CodeTable CodeTableFacts
  InstructionMap DecodeTable HeaderParser Adler AdlerFacts Decoder CopyFacts BodyFacts BodyExt WindowExt
  WindowHeader WindowStep WindowFacts Refine Totals Abstract FileHeader Chunk Sim Stream Session Reuse Usable Sound Complete Truncate Files LongStream.
From Coq Require Import ZifyBool ZifyNat.

Lemma acr_head_long : forall t tl h v tbl ns ss k y, head t tl h v tbl ns ss -> t_slack t = false -> t_slack tl = false ->
  base_ok k -> d_sizes k = None -> d_table k = default_table ->
  bytes_ok (h ++ y) -> ~ bad_cache (h ++ y) -> zlen h <= int32_max ->
  exists k1, base_ok k1 /\ d_sizes k1 = Some (ns, ss) /\ sizes_ok ns ss /\ ~ (ns = 254 /\ ss = 0) /\ d_version k1 = v /\ same_table tbl (entry (d_table k1)) /\
    d_allow k1 = d_allow k /\ d_dict k1 = d_dict k /\ limits k1 = limits k /\ has_planned k1 = has_planned k /\
    forall r, arun k1 y r -> acr (ADec k [] None) (h ++ y) (collapse r).
Proof.
  intros t tl h v tbl ns ss k y HD SL SL' BO S DT BX NB ZX.
  inversion HD as [v0 ind V BI I0 I1|v0 ind bn ns0 bs ss0 h' v' tbl' ns' ss' ws' s tbl0 V BI I0 I1 VN VS NSL SSL HD' MF' WS' L UC]; subst.
  - change (file_header v ind ++ y) with (hd5 v ind y) in *.
    assert (aheader k None ([] ++ hd5 v ind y) = Ok (set_file k v (Some (4, 3)) [] (d_table k), None, y)) as AH.
    { cbn [app]. rewrite aheader_hd5 by auto. rewrite I0, I1. reflexivity. }
    destruct (aheader_ok k None _ _ _ _ BX S BO AH) as (BO' & BR & _).
    eexists. split; [exact BO'|]. split; [reflexivity|]. split; [apply default_sizes_ok|]. split; [lia|]. split; [reflexivity|].
    split; [cbn; rewrite DT; intros op O; symmetry; apply default_same; exact O|].
    split; [reflexivity|]. split; [reflexivity|]. split; [reflexivity|]. split; [reflexivity|]. intros r R. eapply acr_win; eauto.
  - pose proof (varint_nonneg _ _ VN). pose proof (varint_nonneg _ _ VS).
    replace ((file_header v ind ++ bn ++ bs ++ h' ++ ws') ++ y) with (hd5 v ind (bn ++ bs ++ (h' ++ ws' ++ y))) in *
      by (change (hd5 v ind (bn ++ bs ++ h' ++ ws' ++ y)) with (file_header v ind ++ bn ++ bs ++ h' ++ ws' ++ y); rewrite <- !app_assoc; reflexivity).
    assert (~ (ns = 254 /\ ss = 0)) as NB254. { intros [-> ->]. apply NB. apply bad_here; auto. }
    assert (aheader k None ([] ++ hd5 v ind (bn ++ bs ++ h' ++ ws' ++ y)) = Ok (set_file k v (Some (ns, ss)) [] (d_table k), Some a_table, h' ++ ws' ++ y)) as AH.
    { cbn [app]. rewrite aheader_hd5 by auto. rewrite I0, I1, (parse_cache_sizes_ok bn bs ns ss) by auto. reflexivity. }
    destruct (aheader_ok k None _ _ _ _ BX S BO AH) as (BO' & BR & _).
    rewrite !zlen_app in ZX. pose proof (zlen_nonneg _ h'). pose proof (zlen_nonneg _ ws'). pose proof (zlen_nonneg _ bn). pose proof (zlen_nonneg _ bs).
    pose proof (zlen_nonneg _ (file_header v ind)).
    destruct a_table_fields as (kt & EKT & KS & KB & KT & KAL & KD & KW & KF & KP).
    assert (zlen (d_dict kt) = 1536) as ZDT by (rewrite KD; vm_compute; reflexivity).
    assert (ws' <> []) as WSN. { intros ->. inversion WS' as [? E1 E2 E3|? w2 T2' rest2 out2 W2 K2' HH2 E1 E2 E3]; subst.
      - rewrite zlen_nil in L. discriminate. - pose proof (window_nonempty _ _ _ _ _ _ W2). apply app_eq_nil in E2. tauto. }
    destruct (acr_complete_rest _ _ _ _ _ _ _ HD' SL SL t tl kt ws' y s SL SL' KB KS KT MF') as (nd & AC & TG & CP & RS); auto; try (unfold int32_max in *; lia).
    { rewrite KAL, KD. refine (windows_ext _ _ _ _ _ _ _ _ _ (tle_refl _) (tle_refl _) _ _ _ _ _ WS').
      - unfold same_format. repeat split.
      - intros p T (A & B & C). unfold limits. rewrite KW, KF, KP. auto. }
    { intros B. apply NB. eapply bad_nested; eauto. }
    { intros _. rewrite KP. split; [exact L|]. intros. congruence. }
    { intros X. rewrite (planned_1536 kt KP) in X. discriminate. }
    rewrite <- EKT in AC.
    assert (aok a_table /\ ~ stopped (acore a_table)) as [TO TN].
    { split; [apply a_table_ok|]. intros [_ X]. revert X. vm_compute. discriminate. }
    pose proof (acr_ok _ _ _ AC TO TN BR) as (AO & _). apply aok_target_bytes in AO. rewrite TG in AO.
    assert (0 <= (ns + ss + 1) mod 256 <= 255) as MR by lia.
    destruct (use_code_table_usable default_table s _ AO L MR) as (t0 & b & U & CASES).
    assert (same_table tbl (entry t0) /\ table_ok t0) as [ST TOK].
    { destruct CASES as [(_ & UT & ->)|(_ & UT & ->)]; (destruct UC as [[UC ->]|[UC ->]]; [|]); try tauto.
      - split; [intros op O; symmetry; apply entry_of_bytes; exact O|]. apply table_of_bytes_ok; auto.
      - split; [intros op O; symmetry; apply default_same; exact O|]. apply default_table_ok. }
    assert (sizes_ok ns ss) as SO by (unfold sizes_ok; lia).
    exists (set_file (set_file k v (Some (ns, ss)) [] (d_table k)) v (Some (ns, ss)) [] t0).
    split; [apply base_file; auto|]. split; [reflexivity|]. split; [exact SO|]. split; [exact NB254|]. split; [reflexivity|]. split; [exact ST|].
    split; [reflexivity|]. split; [reflexivity|]. split; [reflexivity|]. split; [reflexivity|]. intros r R.
    eapply acr_table; [exact AH|exact AC|]. eapply (after_done _ _ nd ns ss t0 b r); auto.
    + rewrite TG. exact L.
    + rewrite TG, last_mode_mod. cbn [set_file d_table]. rewrite DT. exact U.
    + rewrite RS. rewrite (app_assoc h' ws'), finish_except_app. exact R.
Qed.

Lemma windows_cut_long : forall t f dict ok prev ws out, windows_each t t f dict ok prev ws out ->
  forall ns ss k p q, t_slack t = false -> f = fmt k ns ss -> dict = d_dict k -> ok = sized_low (d_dict k) (limits k) -> prev = d_target k ->
  core_ok ns ss k -> modes_fit ns ss ws -> (ws <> [] -> ns <= 253) -> d_win k = None -> tot_inv k -> lim_inv k ->
  bytes_ok ws -> zlen (d_dict k) <= int32_max ->
  has_planned k = false -> ws = p ++ q ->
  exists r k' u, arun k p r /\ collapse r = AOk (ADec k' u None) /\
    (acomplete (ADec k' u None) = true ->
     windows_each t t f dict ok prev p (d_target k') /\ windows_each t t f dict ok (d_target k') q out).
Proof.
  induction 1 as [prev|prev w T rest out W K H IH]; intros ns ss k p q SL -> -> -> -> CO MF N253 WN TI LI BW ZD UP EW.
  - symmetry in EW. apply app_eq_nil in EW as [-> ->]. exists (XOk (k, [])), k, []. split; [constructor|]. split; [reflexivity|]. intros _. split; constructor.
  - destruct (list_eq_dec Z.eq_dec p []) as [-> |PN].
    { exists (XOk (k, [])), k, []. split; [constructor|]. split; [reflexivity|]. intros _. split; [constructor|].
      cbn [app] in EW. subst q. apply we_cons with (T := T); auto. }
    pose proof K as OKW.
    assert (Spec.window t (fmt k ns ss) (d_dict k) (d_target k) w T) as W' by (destruct rest; exact W). clear W.
    pose proof (window_nonempty _ _ _ _ _ _ W') as WNE.
    assert (ns + ss <= 254) as NSS by (destruct MF as [MF|MF]; [apply app_eq_nil in MF; tauto|lia]).
    assert (ns <= 253) as NS1 by (apply N253; destruct w; [congruence|discriminate]).
    apply bytes_ok_app in BW as [BW BR]. destruct (windows_each_prefix _ _ _ _ _ _ _ _ H) as [m EM].
    pose proof (zlen_nonneg _ w). pose proof (zlen_nonneg _ rest). pose proof (zlen_nonneg _ T). pose proof (zlen_nonneg _ m).
    assert (zlen out = zlen (d_target k) + zlen T + zlen m) as ZE by (rewrite EM, !zlen_app; lia).
    pose proof (zlen_nonneg _ (d_target k)). pose proof (zlen_nonneg _ (d_dict k)).
    destruct TI as [T0 TI]. rewrite WN in TI. destruct TI as [T1 T2]. destruct K as ((([K1 K2] & K3) & ZW & ZT & ZS) & LOW).
    assert (would_exceed k (zlen T) = false) as WE by (apply would_exceed_true; auto; lia).
    assert (forall y, bytes_ok y -> decode_window k (w ++ y) =
      XOk (set_win k None (zlen (d_target k ++ T)) (d_target k ++ T) (to_size (d_total k + zlen T)), y)) as DW.
    { intros y BY. exact (decode_window_long k ns ss _ w T y CO NS1 NSS WN BW BY W' SL LOW ZW WE ZD ZT ZS). }
    rewrite to_size_id in DW by (destruct LI as (L1 & L2 & L3 & _); unfold size_max in *; lia).
    rewrite T1, <- zlen_app in DW.
    set (k1 := set_win k None (zlen (d_target k ++ T)) (d_target k ++ T) (zlen (d_target k ++ T))) in *.
    apply app_eq_app in EW as (l & [[EP EQ]|[EP EQ]]).
    + (* cut inside w *) subst w q. apply bytes_ok_app in BW as [BP BL].
      destruct (list_eq_dec Z.eq_dec l []) as [-> |LN].
      { cbn [app] in *. rewrite app_nil_r in *. specialize (DW [] ltac:(constructor)). rewrite app_nil_r in DW.
        exists (XOk (k1, [])), k1, []. split; [eapply run_step; [exact PN|exact DW| |constructor]|].
        { unfold reached_planned. change (has_planned k1) with (has_planned k). rewrite UP. reflexivity. }
        split; [reflexivity|]. intros _. split; [|exact H].
        rewrite <- (app_nil_r p). apply we_cons with (T := T); [exact W'|exact OKW|constructor]. }
      pose proof (decode_window_step k ns ss p l CO BP BL) as ST.
      specialize (DW [] ltac:(constructor)). rewrite app_nil_r in DW.
      destruct (decode_window k p) as [[k' u]|[k' u]| | |] eqn:DP; try contradiction.
      * exfalso. destruct ST as (_ & _ & _ & _ & _ & [E|(_ & _ & E)]); [|specialize (E LN); congruence].
        rewrite DW in E. injection E as _ E. symmetry in E. apply app_eq_nil in E. tauto.
      * exists (XEod (k', u)), k', u. split; [apply run_eod; auto|]. split; [reflexivity|]. intros AC. exfalso.
        destruct ST as (CO' & CS & _ & _ & ALT & _). cbn in AC. rewrite (co_sizes _ _ _ CO') in AC.
        destruct ALT as [[-> ->]|[_ (w2 & E)]]; [|rewrite E in AC; discriminate].
        rewrite WN in AC. unfold reached_planned in AC. rewrite UP in AC. cbn in AC. destruct p; [congruence|discriminate].
      * congruence.
      * destruct ST as [[? _] _]. lia.
    + (* later *) subst p rest. apply bytes_ok_app in BR as [BL BQ].
      pose proof (DW l BL) as DWL.
      assert (bytes_ok (w ++ l)) as BALL by (apply bytes_ok_app; auto).
      pose proof (decode_window_step k ns ss _ [] CO BALL ltac:(constructor)) as ST. rewrite DWL in ST.
      destruct ST as (CO' & CS & WN' & _).
      assert (tot_inv k) as TIK by (split; [exact T0|]; rewrite WN; auto).
      pose proof (decode_window_len ns ss k _ CO BALL TIK LI) as DL. rewrite DWL in DL. destruct DL as (TI' & LI' & _).
      destruct (IH ns ss k1 l q) as (r & k' & u & R & C & A); auto; try lia.
      { destruct MF as [MF|MF]; [apply app_eq_nil in MF; tauto|right; lia]. }
      { apply bytes_ok_app; auto. }
      exists r, k', u. split; [eapply run_step; [exact PN|exact DWL| |exact R]|].
      { unfold reached_planned. change (has_planned k1) with (has_planned k). rewrite UP. reflexivity. }
      split; [exact C|]. intros X. destruct (A X) as [A1 A2]. split; [|exact A2].
      apply we_cons with (T := T); [destruct l; exact W'|exact OKW|exact A1].
Qed.

Theorem file_cut_long : forall t d dict h v tbl ns ss ws out chunks q, idle_plain d -> bytes_ok dict ->
  t_slack t = false -> head t t h v tbl ns ss -> modes_fit ns ss ws ->
  let f := file_format v tbl ns ss (target_allowed d) in
  windows_each t t f dict (sized_low dict (admits d)) [] ws out ->
  bytes_ok (h ++ ws) -> ~ bad_cache (h ++ ws) -> zlen h <= int32_max -> zlen dict <= int32_max ->
  Forall bytes_ok chunks -> h ++ ws = concat chunks ++ q ->
  exists d' o, decode_chunks (start_decoding d dict) chunks [] = Some (d', true, o) /\
    (snd (finish_decoding d') = true <->
     concat chunks = [] \/ exists ws1, concat chunks = h ++ ws1 /\ windows_each t t f dict (sized_low dict (admits d)) [] ws1 o /\ windows_each t t f dict (sized_low dict (admits d)) o q out).
Proof.
  intros t d dict h v tbl ns ss ws out chunks q IP BD SL HD MF f WS BX NB Z1 Z2 FC EQ.
  pose proof (idle_plain_idle d IP) as [ID _].
  destruct (start_facts d dict IP BD) as (k & EA & S & BO & DT & DD & DA & UP & LM).
  set (p := concat chunks) in *.
  assert (bytes_ok p /\ bytes_ok q) as [BP BQ] by (apply bytes_ok_app; rewrite <- EQ; exact BX).
  assert (~ bad_cache p) as NBP by (intros B; apply NB; rewrite EQ; apply bad_cache_app; exact B).
  assert (exists a, acr (astart d dict) p (AOk a) /\ (acomplete a = true <-> p = [] \/
     exists ws1, p = h ++ ws1 /\ windows_each t t f dict (sized_low dict (admits d)) [] ws1 (d_target (acore a)) /\ windows_each t t f dict (sized_low dict (admits d)) (d_target (acore a)) q out)) as (a & A & C).
  { rewrite EA. destruct (list_eq_dec Z.eq_dec p []) as [-> |PN].
    { exists (ADec k [] None). split; [apply (acr_eod k [] None []); unfold aheader; rewrite S; reflexivity|]. cbn. rewrite S. cbn. tauto. }
    pose proof EQ as EQ0. apply app_eq_app in EQ as (l & [[EP EQ]|[EP EQ]]).
    - destruct (list_eq_dec Z.eq_dec l []) as [-> |LN].
      + (* exactly the header *) rewrite app_nil_r in EP. subst h. cbn [app] in EQ. subst q.
        destruct (acr_head_long t t p v tbl ns ss k [] HD SL SL BO S DT) as (k1 & BO1 & S1 & SO & _ & _ & _ & _ & _ & _ & UP1 & H1); rewrite ?app_nil_r; auto.
        rewrite app_nil_r in H1. exists (ADec k1 [] None). split; [apply (H1 (XOk (k1, []))); constructor|].
        cbn. rewrite S1, (bo_win _ BO1). unfold reached_planned. rewrite UP1, UP. cbn. split; [|reflexivity]. intros _. right. exists [].
        rewrite (bo_target _ BO1), app_nil_r. split; [reflexivity|]. split; [constructor|exact WS].
      + (* inside the header *) subst h q. rewrite <- app_assoc in NB, BX.
        destruct (head_cut t t (p ++ l) v tbl ns ss k p l HD SL SL BO S) as (a & A & AC & TG); auto.
        { rewrite app_assoc in BX. apply bytes_ok_app in BX. tauto. }
        { intros B. apply NB. rewrite app_assoc. apply bad_cache_app. exact B. }
        exists a. split; [exact A|]. rewrite AC. split; [discriminate|]. intros [X|(ws1 & X & _)]; [tauto|].
        exfalso. rewrite <- (app_nil_r p), <- !app_assoc in X at 1. apply app_inv_head in X. symmetry in X. apply app_eq_nil in X. tauto.
    - (* inside the windows *)
      rewrite EP in BP, NBP |- *. rewrite EQ, app_assoc in BX, NB.
      destruct (acr_head_long t t h v tbl ns ss k l HD SL SL BO S DT) as (k1 & BO1 & S1 & SO & N254 & V1 & ST & DA1 & DD1 & LM1 & UP1 & H1); auto.
      destruct (base_core k1 ns ss BO1 S1 SO) as (CO & TI & LI & _).
      assert (same_format (fmt k1 ns ss) f) as SF.
      { unfold f. rewrite <- V1, <- DA, <- DA1. apply fmt_file. intros op O. symmetry. apply ST. exact O. }
      assert (forall g1 g2, same_format g1 g2 -> same_format g2 g1) as SYM.
      { intros g1 g2 (X1 & X2 & X3 & X4 & X5). unfold same_format in *. repeat split; auto. intros op O. symmetry. auto. }
      assert (forall prev b o, windows_each t t f dict (sized_low dict (admits d)) prev b o -> windows_each t t (fmt k1 ns ss) (d_dict k1) (sized_low (d_dict k1) (limits k1)) prev b o) as TO.
      { intros prev b o W. rewrite DD1, DD. apply (windows_each_weaken _ _ _ _ (sized_low dict (admits d))).
        - intros p0 w0 T ((X & Y) & Z0). split; [split; [rewrite LM1; apply LM; exact X|exact Y]|exact Z0].
        - exact (windows_each_ext _ _ _ _ _ _ _ _ _ (SYM _ _ SF) W). }
      assert (forall prev b o, windows_each t t (fmt k1 ns ss) (d_dict k1) (sized_low (d_dict k1) (limits k1)) prev b o -> windows_each t t f dict (sized_low dict (admits d)) prev b o) as FROM.
      { intros prev b o W. rewrite DD1, DD in W. apply (windows_each_weaken _ _ _ _ (sized_low dict (limits k1))).
        - intros p0 w0 T ((X & Y) & Z0). split; [split; [apply LM; rewrite <- LM1; exact X|exact Y]|exact Z0].
        - exact (windows_each_ext _ _ _ _ _ _ _ _ _ SF W). }
      assert (bytes_ok l /\ bytes_ok ws) as [BL BW].
      { apply bytes_ok_app in BX as [BX1 BX2]. apply bytes_ok_app in BX1 as [_ BX1]. split; [exact BX1|]. rewrite EQ. apply bytes_ok_app; auto. }
      assert (ws <> [] -> ns <= 253) as N253 by (intros WN; destruct MF as [MF|MF]; [congruence|destruct SO; lia]).
      destruct (windows_cut_long t _ _ _ _ _ _ (TO _ _ _ WS) ns ss k1 l q SL eq_refl eq_refl eq_refl (eq_sym (bo_target _ BO1)) CO MF N253 (bo_win _ BO1) TI LI BW) as (r & k' & u & R & CR & CW);
        rewrite ?DD1, ?DD; auto; try lia.
      exists (ADec k' u None). split; [rewrite <- CR; apply H1; exact R|]. split.
      + intros AC. right. destruct (CW AC) as [C1 C2]. exists l. split; [reflexivity|]. split; apply FROM; [exact C1|exact C2].
      + intros [X|(ws1 & X & W1 & W2)]; [apply app_eq_nil in X as [-> ->]; cbn [app] in EP; congruence|].
        apply app_inv_head in X. subst ws1.
        destruct (acr_long t t h v tbl ns ss HD SL SL t t k l [] (d_target k') SL SL BO S DT) as (a2 & A2 & TG & AC & AR); rewrite ?app_nil_r; auto.
        * destruct MF as [MF|MF]; [|right; exact MF]. rewrite MF in EQ. symmetry in EQ. apply app_eq_nil in EQ. left. tauto.
        * rewrite DA, DD. refine (windows_each_weaken _ _ _ _ _ _ _ _ _ _ W1). intros p0 w0 T ((X & Y) & Z0). split; [split; [apply LM; exact X|exact Y]|exact Z0].
        * rewrite DD. exact Z2.
        * rewrite UP. discriminate.
        * rewrite app_nil_r in A2. pose proof (H1 r R) as A1. rewrite CR in A1. pose proof (acr_fun _ _ _ A1 _ A2) as E. injection E as E. rewrite E in AC. exact AC. }
  destruct (one_call d dict p (AOk a) ID BD BP A) as (d1 & E1 & F1 & _).
  destruct (split_success d dict chunks d1 _ ID BD FC E1) as (d2 & E2 & F2).
  exists d2, (d_target (acore a)). split; [exact E2|]. rewrite F2, F1. exact C.
Qed.
