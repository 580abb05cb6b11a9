(** Windows that are begun: what the decoder has output of them, and that they have only
    one meaning. *)

From Verif Require Import Base ListFacts Spec SpecBegun Varint VarintFacts AddrCache AddrCacheFacts CodeTable CodeTableFacts
  InstructionMap DecodeTable HeaderParser Adler AdlerFacts Decoder CopyFacts BodyFacts BodyExt WindowExt
  WindowHeader WindowStep WindowFacts SpecParts Sound Unique.
From Coq Require Import ZifyBool ZifyNat.

(** ** The meaning is unique *)

Lemma half_grow : forall ns ss L seg h p s s', half_means ns ss L seg h p s s' -> exists c, snd s' = snd s ++ c.
Proof.
  intros ns ss L seg h p s s' H. inversion H; subst; cbn [snd]; eauto.
  - exists []. rewrite app_nil_r. reflexivity.
  - match goal with A : copy_bytewise _ _ _ _ = _ |- _ => apply copy_bytewise_length in A as (bs & -> & LB) end. eauto.
Qed.

Lemma begins_grow : forall tbl ns ss L seg b s s', begins tbl ns ss L seg b s s' -> exists c, snd s' = snd s ++ c.
Proof.
  induction 1 as [s|op p s s' BO LT H|op p q rest s s1 s2 s3 BO LT H1 H2 R IH].
  - exists []. rewrite app_nil_r. reflexivity.
  - eapply half_grow; eauto.
  - destruct (half_grow _ _ _ _ _ _ _ _ H1) as (c1 & E1). destruct (half_grow _ _ _ _ _ _ _ _ H2) as (c2 & E2). destruct IH as (c3 & E3).
    exists (c1 ++ c2 ++ c3). rewrite E3, E2, E1, <- !app_assoc. reflexivity.
Qed.

Lemma half_bytes_inj : forall ns ss L seg h p q s s1 s2 r r', 0 <= ns ->
  half_means ns ss L seg h p s s1 -> half_means ns ss L seg h q s s2 -> piece_bytes p ++ r = piece_bytes q ++ r' ->
  p = q /\ s1 = s2 /\ r = r'.
Proof.
  intros ns ss L seg h p q s s1 s2 r r' NN H1 H2 E.
  destruct (half_inj ns ss L seg true h p q s s1 s2 (r, [], []) (r', [], []) NN H1 H2) as (-> & -> & Q); [cbn; congruence|].
  injection Q as ->. auto.
Qed.

Lemma begins_agree : forall tbl ns ss L seg b s s1, 0 <= ns -> begins tbl ns ss L seg b s s1 ->
  forall b' s2 y y', begins tbl ns ss L seg b' s s2 -> b ++ y = b' ++ y' -> agree (snd s1) (snd s2).
Proof.
  intros tbl ns ss L seg b s s1 NN H. induction H as [s|op p s s' BO LT H|op p q rest s s1 s2 s3 BO LT H1 H2 R IH]; intros b' t y y' H' E.
  - left. eapply begins_grow; eauto.
  - inversion H' as [s0|op' p' s0 t' BO' LT' J|op' p' q' rest' s0 t1 t2 t3 BO' LT' J1 J2 R']; subst.
    + right. eapply half_grow; eauto.
    + cbn [app] in E. injection E as <- E. destruct (half_bytes_inj _ _ _ _ _ _ _ _ _ _ _ _ NN H J E) as (_ & <- & _). left. exists []. rewrite app_nil_r. reflexivity.
    + cbn [app] in E. injection E as <- E. rewrite <- !app_assoc in E. destruct (half_bytes_inj _ _ _ _ _ _ _ _ _ _ _ _ NN H J1 E) as (_ & <- & _).
      left. destruct (half_grow _ _ _ _ _ _ _ _ J2) as (c2 & E2). destruct (begins_grow _ _ _ _ _ _ _ _ R') as (c3 & E3).
      exists (c2 ++ c3). rewrite E3, E2, <- !app_assoc. reflexivity.
  - inversion H' as [s0|op' p' s0 t' BO' LT' J|op' p' q' rest' s0 t1 t2 t3 BO' LT' J1 J2 R']; subst.
    + right. destruct (half_grow _ _ _ _ _ _ _ _ H1) as (c1 & E1). destruct (half_grow _ _ _ _ _ _ _ _ H2) as (c2 & E2). destruct (begins_grow _ _ _ _ _ _ _ _ R) as (c3 & E3).
      exists (c1 ++ c2 ++ c3). rewrite E3, E2, E1, <- !app_assoc. reflexivity.
    + cbn [app] in E. injection E as <- E. rewrite <- !app_assoc in E. destruct (half_bytes_inj _ _ _ _ _ _ _ _ _ _ _ _ NN H1 J E) as (_ & <- & _).
      right. destruct (half_grow _ _ _ _ _ _ _ _ H2) as (c2 & E2). destruct (begins_grow _ _ _ _ _ _ _ _ R) as (c3 & E3).
      exists (c2 ++ c3). rewrite E3, E2, <- !app_assoc. reflexivity.
    + cbn [app] in E. injection E as <- E. rewrite <- !app_assoc in E. destruct (half_bytes_inj _ _ _ _ _ _ _ _ _ _ _ _ NN H1 J1 E) as (_ & <- & E1).
      destruct (half_bytes_inj _ _ _ _ _ _ _ _ _ _ _ _ NN H2 J2 E1) as (_ & <- & E2). eapply IH; eauto.
Qed.

(** A complete body is a begun one. *)
Lemma items_begin : forall drop tbl ns ss L seg l s s', items_mean drop tbl ns ss L seg l s s' ->
  begins tbl ns ss L seg (concat (map item_bytes l)) s s'.
Proof.
  induction 1 as [s|i l s s1 s2 s3 BI LT H1 H2 H3 IH|i s s1 D BI LT H1 NP FULL]; cbn [map concat].
  - constructor.
  - unfold item_bytes. rewrite <- !app_assoc. eapply bg_cons; eauto.
  - unfold item_bytes. rewrite NP. cbn [piece_bytes no_piece p_size p_data p_addr]. rewrite !app_nil_r. constructor; auto.
Qed.

Lemma begins_table : forall tbl tbl' ns ss L seg b s s', (forall op, byte_ok op -> tbl op = tbl' op) ->
  begins tbl ns ss L seg b s s' -> begins tbl' ns ss L seg b s s'.
Proof.
  intros tbl tbl' ns ss L seg b s s' Q H. induction H as [s|op p s s' BO LT H|op p q rest s s1 s2 s3 BO LT H1 H2 R IH].
  - constructor.
  - rewrite (Q op BO) in H. constructor; auto.
  - rewrite (Q op BO) in H1, H2. eapply bg_cons; eauto.
Qed.

Lemma begun_ext : forall f1 f2 dict prev w L m, Sound.same_format f1 f2 -> begun_window f1 dict prev w L m -> begun_window f2 dict prev w L m.
Proof.
  intros [e1 t1 n1 s1 g1] [e2 t2 n2 s2 g2] dict prev w L m (E1 & E2 & E3 & E4 & E5) W. cbn in *. subst e2 n2 s2 g2.
  inversion W as [ind sb seg bd dl bt L0 di bnd bni ni bna bcks cks body hist m0 EX BI SG VD VT BDI DI VND VNI VNA CF DL ZB BG LT]. subst. cbn in *.
  eapply begun_window_intro; eauto.
  - inversion SG; subst; [apply seg_none|eapply seg_dict|eapply seg_target]; eauto.
  - cbn. eapply begins_table; eauto.
Qed.

Lemma checksum_bytes_inj : forall ext ind b b' c c' r r', checksum_bytes ext ind b c -> checksum_bytes ext ind b' c' -> b ++ r = b' ++ r' -> b = b' /\ r = r'.
Proof.
  intros ext ind b b' c c' r r' A B E. unfold checksum_bytes in *. destruct (ext && Z.testbit ind 2).
  - destruct A as (v & _ & V), B as (v' & _ & V'). destruct (varint_inj _ _ _ _ _ _ V V' E) as (-> & _ & ->). auto.
  - destruct A as [-> _], B as [-> _]. auto.
Qed.

Lemma begun_begun : forall f f' dict prev w w' L L' m m' y y', Unique.same_format f f' ->
  begun_window f dict prev w L m -> begun_window f' dict prev w' L' m' -> w ++ y = w' ++ y' -> agree m m'.
Proof.
  intros f f' dict prev w w' L L' m m' y y' (QE & NN & QN & QS & QT) W W' E.
  inversion W as [ind sb seg bd dl bt L0 di bnd bni ni bna bcks cks body hist m0 EX BI SG VD VT BDI DI VND VNI VNA CF DL ZB BG LT]; subst w L0 m0.
  inversion W' as [ind' sb' seg' bd' dl' bt' L0 di' bnd' bni' ni' bna' bcks' cks' body' hist' m0 EX' BI' SG' VD' VT' BDI' DI' VND' VNI' VNA' CF' DL' ZB' BG' LT']; subst w' L0 m0.
  clear W W'. rewrite <- !app_assoc in E. cbn [app] in E. injection E as <- E.
  destruct (segment_inj _ _ _ _ _ _ _ _ _ _ _ SG SG' E) as (<- & <- & E1). clear E.
  destruct (varint_inj _ _ _ _ _ _ VD VD' E1) as (<- & _ & E). clear E1.
  destruct (varint_inj _ _ _ _ _ _ VT VT' E) as (<- & <- & E1). clear E. injection E1 as <- E1.
  destruct (varint_inj _ _ _ _ _ _ VND VND' E1) as (<- & _ & E). clear E1.
  destruct (varint_inj _ _ _ _ _ _ VNI VNI' E) as (<- & _ & E1). clear E.
  destruct (varint_inj _ _ _ _ _ _ VNA VNA' E1) as (<- & _ & E). clear E1.
  destruct (checksum_bytes_inj _ _ _ _ _ _ _ _ CF CF' E) as (<- & E1). clear E.
  apply (begins_table _ (f_table f)) in BG'; [|intros; symmetry; auto]. rewrite <- QN, <- QS in BG'.
  exact (begins_agree _ _ _ _ _ _ _ _ NN BG _ _ _ _ BG' E1).
Qed.

Lemma begun_window_done : forall t f f' dict prev w w' L m T y y', Unique.same_format f f' ->
  begun_window f dict prev w L m -> Spec.window t f' dict prev w' T -> w ++ y = w' ++ y' -> exists c, T = m ++ c.
Proof.
  intros t f f' dict prev w w' L m T y y' (QE & NN & QN & QS & QT) W W' E.
  inversion W as [ind sb seg bd dl bt L0 di bnd bni ni bna bcks cks body hist m0 EX BI SG VD VT BDI DI VND VNI VNA CF DL ZB BG LT]; subst w L0 m0.
  inversion W' as [ind' sb' seg' bd' dl' bt' di' bnd' nd' bni' ni' bna' na' bcks' items' body' hist' T1 BI' SG' VD' VT' BDI' DI' VND' VNI' VNA' CF' LA' DL' IM' EW' ET']; subst w' T1.
  clear W W'. rewrite <- !app_assoc in E. cbn [app] in E. injection E as <- E.
  destruct (segment_inj _ _ _ _ _ _ _ _ _ _ _ SG SG' E) as (<- & <- & E1). clear E.
  destruct (varint_inj _ _ _ _ _ _ VD VD' E1) as (<- & _ & E). clear E1.
  destruct (varint_inj _ _ _ _ _ _ VT VT' E) as (<- & TL & E1). clear E. injection E1 as <- E1.
  destruct (varint_inj _ _ _ _ _ _ VND VND' E1) as (<- & <- & E). clear E1.
  destruct (varint_inj _ _ _ _ _ _ VNI VNI' E) as (<- & _ & E1). clear E.
  destruct (varint_inj _ _ _ _ _ _ VNA VNA' E1) as (<- & <- & E). clear E1.
  assert (bcks ++ body ++ y = bcks' ++ body' ++ y' -> bcks = bcks' /\ body ++ y = body' ++ y') as CI.
  { intros E1. unfold checksum_field in CF'. unfold checksum_bytes in CF. rewrite <- QE, EX in CF'. destruct (true && Z.testbit ind 2).
    - destruct CF as (v & _ & V). destruct (varint_inj _ _ _ _ _ _ V CF' E1) as (-> & _ & E2). auto.
    - destruct CF as [-> _]. subst bcks'. auto. }
  destruct (CI E) as [<- E1]. clear E CI.
  destruct LA' as [(_ & -> & _)|(NI & _)]; [|destruct NI; unfold interleaved; rewrite <- QE; auto].
  apply items_begin in IM'. apply (begins_table _ (f_table f)) in IM'; [|intros; symmetry; auto]. rewrite <- QN, <- QS, <- TL in IM'.
  destruct (begins_agree _ _ _ _ _ _ _ _ NN BG _ _ _ _ IM' E1) as [A|(c & A)]; [exact A|]. cbn [snd] in A.
  rewrite A, zlen_app in LT. pose proof (zlen_nonneg _ c). lia.
Qed.

(** ** The output of two readers *)

(** What is there of the next window. *)
Definition partly (f : format) (dict prev z m : list Z) : Prop :=
  m = [] \/ exists w rest L, z = w ++ rest /\ begun_window f dict prev w L m.

Lemma agree_sym : forall a b, agree a b -> agree b a.
Proof. intros a b [H|H]; [right|left]; exact H. Qed.

Lemma agree_app : forall p a b, agree a b -> agree (p ++ a) (p ++ b).
Proof. intros p a b [(c & ->)|(c & ->)]; [left|right]; exists c; apply app_assoc. Qed.

Lemma parts_agree : forall t tl f dict ok prev ws Ts, windows_parts t tl f dict ok prev ws Ts ->
  forall t' tl' f' ok' ws' Ts' z z' y y' m m', Unique.same_format f f' -> Unique.same_format f' f ->
  windows_parts t' tl' f' dict ok' prev ws' Ts' ->
  partly f dict (prev ++ concat Ts) z m -> partly f' dict (prev ++ concat Ts') z' m' ->
  ws ++ z ++ y = ws' ++ z' ++ y' -> agree (concat Ts ++ m) (concat Ts' ++ m').
Proof.
  induction 1 as [prev|prev w T rest Ts W K R IH]; intros t' tl' f' ok' ws' Ts' z z' y y' m m' SF SF' WP' P P' E.
  - cbn [concat app] in *. rewrite app_nil_r in P.
    destruct P as [->|(w & rest & L & -> & B)]; [left; exists (concat Ts' ++ m'); reflexivity|].
    inversion WP' as [prev0|prev0 w' T' rest' Ts0 W' K' R']; subst; cbn [concat app] in *.
    + rewrite app_nil_r in P'. destruct P' as [->|(w' & rest' & L' & -> & B')]; [right; eexists; reflexivity|].
      rewrite <- !app_assoc in E. exact (begun_begun _ _ _ _ _ _ _ _ _ _ _ _ SF B B' E).
    + rewrite <- !app_assoc in E. destruct (begun_window_done _ _ _ _ _ _ _ _ _ _ _ _ SF B W' E) as (c & ->).
      left. exists (c ++ concat Ts0 ++ m'). rewrite <- !app_assoc. reflexivity.
  - inversion WP' as [prev0|prev0 w' T' rest' Ts0 W' K' R']; subst; cbn [concat app] in *.
    + rewrite app_nil_r in P'. destruct P' as [->|(w' & rest' & L' & -> & B')]; [right; eexists; reflexivity|].
      rewrite <- !app_assoc in E. destruct (begun_window_done _ _ _ _ _ _ _ _ _ _ _ _ SF' B' W (eq_sym E)) as (c & ->).
      right. exists (c ++ concat Ts ++ m). rewrite <- !app_assoc. reflexivity.
    + rewrite <- !app_assoc in E. destruct (window_inj _ _ _ _ _ _ _ _ _ _ _ _ SF W W' E) as (-> & -> & E').
      rewrite <- !app_assoc. apply agree_app. rewrite app_assoc in P, P'. eapply IH; eauto.
Qed.

(** ** The decoder *)

Lemma begins_nops : forall t ns ss L seg nops b s s', Forall (is_nop t) nops -> zlen (snd s) < L ->
  begins (entry t) ns ss L seg b s s' -> begins (entry t) ns ss L seg (nops ++ b) s s'.
Proof.
  intros t ns ss L seg nops b s s' F LT H. induction F as [|op nops (OB & N1 & N2) F IH]; [exact H|].
  change ((op :: nops) ++ b) with ([op] ++ piece_bytes no_piece ++ piece_bytes no_piece ++ nops ++ b).
  eapply bg_cons with (s1 := s) (s2 := s); auto; unfold entry; cbn [fst snd]; rewrite ?N1, ?N2, half_of_noop; constructor.
Qed.

Lemma body_loop_begins : forall f dict t w prev seg st hist T st',
  table_ok t -> binv dict t w prev seg st hist T -> b_il st = true ->
  body_loop f dict t w (zlen prev) st = XEod st' ->
  exists hist' T' b, b_target st' = prev ++ T' /\ zlen T' < w_len w /\ b_inst st = b ++ b_inst st' /\
    match b_pending st with
    | None => begins (entry t) (near_size (b_cache st)) (same_size (b_cache st)) (w_len w) seg b (hist, T) (hist', T')
    | Some op => (b = [] /\ hist' = hist /\ T' = T) \/
        exists p b2 s1, b = piece_bytes p ++ b2 /\
          half_means (near_size (b_cache st)) (same_size (b_cache st)) (w_len w) seg (snd (entry t op)) p (hist, T) s1 /\
          begins (entry t) (near_size (b_cache st)) (same_size (b_cache st)) (w_len w) seg b2 s1 (hist', T')
    end.
Proof.
  induction f as [|f IH]; intros dict t w prev seg st hist T st' TO BI IL H.
  - cbn [body_loop] in H. destruct (_ <? _) in H; discriminate.
  - cbn [body_loop] in H.
    destruct (binv_lens _ _ _ _ _ _ _ _ BI) as (TL & SL & SN). rewrite TL in H.
    replace (zlen prev + zlen T - zlen prev) with (zlen T) in H by lia.
    destruct (Z.ltb_spec (zlen T) (w_len w)) as [L|L]; [|discriminate].
    pose proof (gni_sound t (b_pending st) (b_inst st) TO (bi_binst _ _ _ _ _ _ _ _ BI) (bi_pending _ _ _ _ _ _ _ _ BI)) as G.
    assert (exists hist' T' b, b_target st = prev ++ T' /\ zlen T' < w_len w /\ b_inst st = b ++ b_inst st /\
      match b_pending st with
      | None => begins (entry t) (near_size (b_cache st)) (same_size (b_cache st)) (w_len w) seg b (hist, T) (hist', T')
      | Some op => (b = [] /\ hist' = hist /\ T' = T) \/
          exists p b2 s1, b = piece_bytes p ++ b2 /\
            half_means (near_size (b_cache st)) (same_size (b_cache st)) (w_len w) seg (snd (entry t op)) p (hist, T) s1 /\
            begins (entry t) (near_size (b_cache st)) (same_size (b_cache st)) (w_len w) seg b2 s1 (hist', T')
      end) as STAY.
    { exists hist, T, []. split; [apply BI|]. split; [exact L|]. split; [reflexivity|]. destruct (b_pending st); [left; auto|constructor]. }
    destruct (get_next_instruction t (b_pending st) (b_inst st)) as [ty size mode p' rest|p' rest|] eqn:GE.
    + destruct G as (k & ps & F & NE & SC & PO & BR & SM).
      pose proof (size_code_nonneg k ps size SC) as SZ.
      destruct ((w_len w <? size) || (w_len w <? size + zlen T)) eqn:CK; [discriminate|].
      assert (binv dict t w prev seg (with_inst st p' rest) hist T) as BI1 by (apply binv_with_inst; auto).
      pose proof (exec_sound dict t w prev seg _ hist T ty size mode BI1 ltac:(lia) ltac:(lia) ltac:(intros; lia)) as E.
      destruct (decode_instruction dict w (zlen prev) (with_inst st p' rest) ty size mode) as [st2|sx| | |] eqn:DI;
        try discriminate.
      * destruct E as (pd & pa & h2 & T2 & (A1 & A2 & A3 & A4) & SE & BI2 & TL2 & HM).
        specialize (HM k ps SC L). cbn [with_inst b_il b_cache b_pending] in *. rewrite IL in *.
        destruct (IH dict t w prev seg st2 h2 T2 st' TO BI2 A1 H) as (h' & T' & b & I1 & I2 & I3 & I4). rewrite A2, A3, A4 in I4. clear A1 A2 A3 A4.
        unfold sec in SE. cbn [with_inst b_inst b_data b_addr app3] in SE. injection SE as S1 _ _. rewrite I3 in S1.
        set (p := {| p_size := ps; p_data := pd; p_addr := pa |}) in *.
        assert (ps ++ rest = (piece_bytes p ++ b) ++ b_inst st') as ER.
        { rewrite S1. unfold p, piece_bytes. cbn [p_size p_data p_addr]. rewrite <- !app_assoc. reflexivity. }
        destruct (found_inv _ _ _ _ _ _ _ _ F) as
          [(op & E1 & E2 & OB & N2 & Q1 & Q2 & Q3 & Q4)
          |[(nops & op & E1 & E2 & FN & OB & N1 & Q1 & Q2 & Q3 & Q4)
           |(nops & op & E1 & E2 & FN & OB & N1 & N2 & Q1 & Q2 & Q3 & Q4)]];
          rewrite E1; subst ty k mode p'.
        -- exists h', T', (piece_bytes p ++ b). split; [exact I1|]. split; [exact I2|]. split; [rewrite E2; exact ER|].
           right. exists p, b, (h2, T2). split; [reflexivity|]. split; [|exact I4]. exact HM.
        -- assert (forall x, [op] ++ x = op :: x) as OX by reflexivity.
           destruct (Z.eqb_spec (tget (inst2 t) op) VCD_NOOP) as [N2|N2].
           ++ exists h', T', (nops ++ [op] ++ piece_bytes p ++ piece_bytes no_piece ++ b). split; [exact I1|]. split; [exact I2|]. split.
              { rewrite E2, <- !app_assoc. cbn [piece_bytes no_piece p_size p_data p_addr app]. rewrite ER, <- !app_assoc. reflexivity. }
              apply begins_nops; auto. eapply bg_cons with (s1 := (h2, T2)) (s2 := (h2, T2)); auto.
              unfold entry. cbn [snd]. rewrite N2, half_of_noop. constructor.
           ++ destruct I4 as [(-> & -> & ->)|(p2 & b2 & s1 & -> & H2 & BG)].
              ** exists h2, T2, (nops ++ [op] ++ piece_bytes p). split; [exact I1|]. split; [exact I2|]. split.
                 { rewrite E2, <- !app_assoc. cbn [app]. rewrite ER, app_nil_r. reflexivity. }
                 apply begins_nops; auto. apply bg_half; auto.
              ** exists h', T', (nops ++ [op] ++ piece_bytes p ++ piece_bytes p2 ++ b2). split; [exact I1|]. split; [exact I2|]. split.
                 { rewrite E2, <- !app_assoc. cbn [app]. rewrite ER, <- !app_assoc. reflexivity. }
                 apply begins_nops; auto. eapply bg_cons with (s1 := (h2, T2)); eauto.
        -- exists h', T', (nops ++ [op] ++ piece_bytes no_piece ++ piece_bytes p ++ b). split; [exact I1|]. split; [exact I2|]. split.
           { rewrite E2, <- !app_assoc. cbn [piece_bytes no_piece p_size p_data p_addr app]. rewrite ER, <- !app_assoc. reflexivity. }
           apply begins_nops; auto. eapply bg_cons with (s1 := (hist, T)) (s2 := (h2, T2)); auto.
           unfold entry. cbn [fst]. rewrite N1, half_of_noop. constructor.
      * injection H as <-. exact STAY.
    + injection H as <-. destruct G as [(-> & ->)|(P1 & -> & -> & FN)].
      * rewrite with_inst_same. exact STAY.
      * exists hist, T, (b_inst st). cbn [with_inst b_target b_inst]. split; [apply BI|]. split; [exact L|]. split; [rewrite app_nil_r; reflexivity|].
        rewrite P1. rewrite <- (app_nil_r (b_inst st)). apply begins_nops; auto. constructor.
    + discriminate.
Qed.
