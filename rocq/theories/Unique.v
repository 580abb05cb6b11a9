(** The specification is unambiguous: whatever tolerances are granted, a byte
    string has at most one division into header and windows, and denotes at most
    one target. *)

From Coq Require Import ZifyBool ZifyNat.
From Verif Require Import Base Spec VarintFacts AddrCacheFacts BodyFacts.

Lemma varint_inj : forall p q v w r s, varint p v -> varint q w -> p ++ r = q ++ s ->
  p = q /\ v = w /\ r = s.
Proof.
  intros p q v w r s [P V] [Q W] E. destruct (is_varint_prefix_free _ _ _ _ P Q E) as [-> ->].
  rewrite <- V, <- W. auto.
Qed.

Lemma size_code_inj : forall k p q n m r s, size_code k p n -> size_code k q m -> p ++ r = q ++ s ->
  p = q /\ n = m /\ r = s.
Proof.
  intros k p q n m r s [(A & -> & ->)|(A & B)] [(D & -> & ->)|(D & C)] E; try lia; auto.
  eapply varint_inj; eauto.
Qed.

Lemma app_len_inj : forall (a b r s : list Z), zlen a = zlen b -> a ++ r = b ++ s -> a = b /\ r = s.
Proof.
  induction a as [|x a IH]; intros [|y b] r s L E; auto.
  - rewrite zlen_nil, zlen_cons in L. pose proof (zlen_nonneg _ b). lia.
  - rewrite zlen_nil, zlen_cons in L. pose proof (zlen_nonneg _ a). lia.
  - rewrite !zlen_cons in L. cbn in E. injection E as -> E.
    destruct (IH b r s) as [-> ->]; auto. lia.
Qed.

Lemma addr_inj : forall ns ss hist here m p q a b r s, 0 <= ns ->
  addr_code ns ss hist here m p a -> addr_code ns ss hist here m q b -> p ++ r = q ++ s ->
  p = q /\ a = b /\ r = s.
Proof.
  intros ns ss hist here m p q a b r s NN A B E. remember m as m1 eqn:M in A. remember m as m2 eqn:M' in B.
  destruct A as [p a V R|p e a V Q R|i p e a I V Q R|k x a K BX Q R],
           B as [p' b V' R'|p' e' b V' Q' R'|i' p' e' b I' V' Q' R'|k' x' b K' BX' Q' R']; try lia.
  - eapply varint_inj; eauto.
  - destruct (varint_inj _ _ _ _ _ _ V V' E) as (-> & -> & ->). subst. auto.
  - assert (i' = i) as -> by lia.
    destruct (varint_inj _ _ _ _ _ _ V V' E) as (-> & -> & ->). subst. auto.
  - assert (k' = k) as -> by lia. cbn in E. injection E as -> ->. subst. auto.
Qed.

(** Byte strings of one half instruction. *)
Lemma half_inj : forall ns ss L seg il h p q s s1 s2 r r', 0 <= ns ->
  half_means ns ss L seg h p s s1 -> half_means ns ss L seg h q s s2 ->
  app3 (piece_sec il p) r = app3 (piece_sec il q) r' ->
  p = q /\ s1 = s2 /\ r = r'.
Proof.
  intros ns ss L seg il h p q s s1 s2 [[r1 r2] r3] [[q1 q2] q3] NN A B E.
  assert (p = q /\ s1 = s2) as [-> ->].
  { inversion A as [s0|k ps n d hist T LT SC DL|k ps n x hist T LT SC|k m ps n pa a hist T T' LT SC AC CB]; subst;
    inversion B as [s0|k' ps' n' d' hist' T1 LT' SC' DL'|k' ps' n' x' hist' T1 LT' SC'|k' m' ps' n' pa' a' hist' T1 T1' LT' SC' AC' CB']; subst; auto.
    - destruct il; cbn in E; unfold piece_bytes in E; cbn in E; injection E as E1 E2 E3; rewrite <- ?app_assoc in *.
      + destruct (size_code_inj _ _ _ _ _ _ _ SC SC' E1) as (-> & Z & E4). cbn in E4.
        destruct (app_len_inj _ _ _ _ Z E4) as (-> & E5). auto.
      + destruct (size_code_inj _ _ _ _ _ _ _ SC SC' E1) as (-> & Z & E4).
        destruct (app_len_inj _ _ _ _ Z E2) as (-> & E5). auto.
    - destruct il; cbn in E; unfold piece_bytes in E; cbn in E; injection E as E1 E2 E3; rewrite <- ?app_assoc in *.
      + destruct (size_code_inj _ _ _ _ _ _ _ SC SC' E1) as (-> & -> & E4). cbn in E4. injection E4 as -> E4. auto.
      + subst x'. destruct (size_code_inj _ _ _ _ _ _ _ SC SC' E1) as (-> & -> & E4). auto.
    - destruct il; cbn in E; unfold piece_bytes in E; cbn in E; injection E as E1 E2 E3; rewrite <- ?app_assoc in *.
      + destruct (size_code_inj _ _ _ _ _ _ _ SC SC' E1) as (-> & -> & E4). cbn in E4.
        destruct (addr_inj _ _ _ _ _ _ _ _ _ _ _ NN AC AC' E4) as (-> & -> & E5).
        split; congruence.
      + destruct (size_code_inj _ _ _ _ _ _ _ SC SC' E1) as (-> & -> & E4).
        destruct (addr_inj _ _ _ _ _ _ _ _ _ _ _ NN AC AC' E3) as (-> & -> & E5).
        split; congruence. }
  split; [auto|]. split; [auto|].
  destruct il; cbn in E; injection E as E1 E2 E3.
  - apply app_inv_head in E1. subst. auto.
  - apply app_inv_head in E1. apply app_inv_head in E2. apply app_inv_head in E3. subst. auto.
Qed.

(** A second instruction that starts after the window is complete is impossible, so
    dropping it is the only reading. *)
Lemma second_done : forall ns ss L seg h p s s', half_means ns ss L seg h p s s' -> zlen (snd s) = L ->
  p = no_piece /\ s' = s.
Proof. intros ns ss L seg h p s s' H E. inversion H; subst; cbn [snd] in *; auto; lia. Qed.

Lemma items_done : forall drop tbl ns ss L seg l s s', items_mean drop tbl ns ss L seg l s s' ->
  zlen (snd s) = L -> l = [] /\ s' = s.
Proof. intros drop tbl ns ss L seg l s s' H E. inversion H; subst; auto; lia. Qed.

Lemma app3_inv_head : forall a b c, app3 a b = app3 a c -> b = c.
Proof.
  intros [[a1 a2] a3] [[b1 b2] b3] [[c1 c2] c3] E. cbn in E. injection E as E1 E2 E3.
  apply app_inv_head in E1. apply app_inv_head in E2. apply app_inv_head in E3. congruence.
Qed.

Lemma op_inj : forall il i j r r', app3 (item_sec il i) r = app3 (item_sec il j) r' -> i_op i = i_op j.
Proof. intros [|] i j [[r1 r2] r3] [[q1 q2] q3] E; cbn in E; injection E as E1 E2 E3; auto. Qed.

Lemma item_eq : forall i j, i_op i = i_op j -> i_first i = i_first j -> i_second i = i_second j -> i = j.
Proof. intros [a b c] [a' b' c']; cbn; congruence. Qed.

Lemma items_inj : forall drop drop' tbl ns ss L seg il l s s1, 0 <= ns -> items_mean drop tbl ns ss L seg l s s1 ->
  zlen (snd s1) = L ->
  forall l' s2 r r', items_mean drop' tbl ns ss L seg l' s s2 -> zlen (snd s2) = L ->
  app3 (items_sec il l) r = app3 (items_sec il l') r' ->
  l = l' /\ s1 = s2 /\ r = r'.
Proof.
  intros drop drop' tbl ns ss L seg il l s s1 NN H.
  induction H as [s|i l s s1 s2 s3 BI LT H1 H2 H3 IH|i s s1 D BI LT H1 NP FULL]; intros FU l' s2' r r' H' FU' E.
  - apply items_done in H' as [-> ->]; auto. split; [auto|]. split; [auto|]. eapply app3_inv_head. exact E.
  - inversion H' as [s0|j m s0 t1 t2 t3 BJ LJ J1 J2 J3|j s0 t1 D' BJ LJ J1 NPJ FJ]; subst.
    + lia.
    + rewrite !items_sec_cons, <- !app3_assoc in E. pose proof (op_inj _ _ _ _ _ E) as OP.
      rewrite !item_sec_split, OP, <- !app3_assoc in E. apply app3_inv_head in E.
      rewrite OP in H1, H2.
      destruct (half_inj _ _ _ _ _ _ _ _ _ _ _ _ _ NN H1 J1 E) as (P1 & -> & E1).
      destruct (half_inj _ _ _ _ _ _ _ _ _ _ _ _ _ NN H2 J2 E1) as (P2 & -> & E2).
      edestruct IH as (-> & -> & ->); [reflexivity|exact J3|exact FU'|exact E2|].
      rewrite (item_eq i j OP P1 P2). auto.
    + rewrite !items_sec_cons, <- !app3_assoc in E. pose proof (op_inj _ _ _ _ _ E) as OP.
      rewrite !item_sec_split, OP, <- !app3_assoc in E. apply app3_inv_head in E.
      rewrite OP in H1, H2.
      destruct (half_inj _ _ _ _ _ _ _ _ _ _ _ _ _ NN H1 J1 E) as (P1 & -> & E1).
      apply second_done in H2 as [P2 ->]; auto.
      apply items_done in H3 as [-> ->]; auto.
      assert (i = j) as -> by (apply item_eq; congruence).
      split; [auto|]. split; [auto|]. do 2 apply app3_inv_head in E1. auto.
  - inversion H' as [s0|j m s0 t1 t2 t3 BJ LJ J1 J2 J3|j s0 t1 D' BJ LJ J1 NPJ FJ]; subst.
    + lia.
    + rewrite !items_sec_cons, <- !app3_assoc in E. pose proof (op_inj _ _ _ _ _ E) as OP.
      rewrite !item_sec_split, OP, <- !app3_assoc in E. apply app3_inv_head in E.
      rewrite OP in H1.
      destruct (half_inj _ _ _ _ _ _ _ _ _ _ _ _ _ NN H1 J1 E) as (P1 & -> & E1).
      apply second_done in J2 as [P2 ->]; auto.
      apply items_done in J3 as [-> ->]; auto.
      assert (i = j) as -> by (apply item_eq; congruence).
      split; [auto|]. split; [auto|]. do 2 apply app3_inv_head in E1. auto.
    + rewrite !items_sec_cons, <- !app3_assoc in E. pose proof (op_inj _ _ _ _ _ E) as OP.
      rewrite !item_sec_split, OP, <- !app3_assoc in E. apply app3_inv_head in E.
      rewrite OP in H1.
      destruct (half_inj _ _ _ _ _ _ _ _ _ _ _ _ _ NN H1 J1 E) as (P1 & -> & E1).
      assert (i = j) as -> by (apply item_eq; congruence).
      split; [auto|]. split; [auto|]. do 2 apply app3_inv_head in E1. auto.
Qed.

Lemma segment_inj : forall f f' dict prev ind p q s s' r r',
  segment f dict prev ind p s -> segment f' dict prev ind q s' -> p ++ r = q ++ r' -> p = q /\ s = s' /\ r = r'.
Proof.
  intros f f' dict prev ind p q s s' r r' A B E.
  inversion A as [Z0 Z1|b1 b2 len pos s0 Z0 Z1 V1 V2 SL|b1 b2 len pos s0 Z0 Z1 FT V1 V2 SL]; subst;
  inversion B as [Y0 Y1|c1 c2 len' pos' s0 Y0 Y1 U1 U2 SL'|c1 c2 len' pos' s0 Y0 Y1 FT' U1 U2 SL']; subst;
    try congruence; auto.
  - rewrite <- !app_assoc in E.
    destruct (varint_inj _ _ _ _ _ _ V1 U1 E) as (-> & -> & E').
    destruct (varint_inj _ _ _ _ _ _ V2 U2 E') as (-> & -> & ->).
    split; [auto|]. split; congruence.
  - rewrite <- !app_assoc in E.
    destruct (varint_inj _ _ _ _ _ _ V1 U1 E) as (-> & -> & E').
    destruct (varint_inj _ _ _ _ _ _ V2 U2 E') as (-> & -> & ->).
    split; [auto|]. split; congruence.
Qed.

Lemma checksum_inj : forall f ind b b' T T' r r', checksum_field f ind b T -> checksum_field f ind b' T' ->
  b ++ r = b' ++ r' -> b = b' /\ r = r' /\ (f_ext f && Z.testbit ind 2 = true -> adler_sum 0 T = adler_sum 0 T').
Proof.
  intros f ind b b' T T' r r' A B E. unfold checksum_field in *.
  destruct (f_ext f && Z.testbit ind 2).
  - destruct (varint_inj _ _ _ _ _ _ A B E) as (-> & V & ->). auto.
  - subst. cbn in E. subst. split; [auto|]. split; [auto|]. discriminate.
Qed.

(** Two formats that differ at most in whether VCD_TARGET is allowed, and whose
    code tables agree on every opcode. *)
Definition same_format (f f' : format) : Prop :=
  f_ext f = f_ext f' /\ 0 <= f_near f /\ f_near f = f_near f' /\ f_same f = f_same f' /\ (forall op, byte_ok op -> f_table f op = f_table f' op).

Lemma items_mean_table : forall drop tbl tbl' ns ss L seg l s s', (forall op, byte_ok op -> tbl op = tbl' op) ->
  items_mean drop tbl ns ss L seg l s s' -> items_mean drop tbl' ns ss L seg l s s'.
Proof.
  intros drop tbl tbl' ns ss L seg l s s' Q H.
  induction H as [s|i l s s1 s2 s3 BI LT H1 H2 H3 IH|i s s1 D BI LT H1 NP FULL].
  - constructor.
  - rewrite (Q (i_op i) BI) in H1, H2. eapply im_cons; eauto.
  - rewrite (Q (i_op i) BI) in H1. eapply im_drop; eauto.
Qed.

Lemma window_inj : forall t t' f f' dict prev w w' T T' y y', same_format f f' ->
  Spec.window t f dict prev w T -> Spec.window t' f' dict prev w' T' -> w ++ y = w' ++ y' ->
  w = w' /\ T = T' /\ y = y'.
Proof.
  intros t t' f f' dict prev w w' T T' y y' (QE & NN & QN & QS & QT) W W' E.
  inversion W as [ind sb seg bd dl bt di bnd nd bni ni bna na bcks items body hist T1 BI SG VD VT BDI DI VND VNI VNA CF LA DL IM EW ET]; subst w T1.
  inversion W' as [ind' sb' seg' bd' dl' bt' di' bnd' nd' bni' ni' bna' na' bcks' items' body' hist' T1 BI' SG' VD' VT' BDI' DI' VND' VNI' VNA' CF' LA' DL' IM' EW' ET']; subst w' T1.
  clear W W'. rewrite <- !app_assoc in E. cbn [app] in E. injection E as <- E.
  destruct (segment_inj _ _ _ _ _ _ _ _ _ _ _ SG SG' E) as (<- & <- & E1). clear E.
  destruct (varint_inj _ _ _ _ _ _ VD VD' E1) as (<- & <- & E). clear E1.
  destruct (varint_inj _ _ _ _ _ _ VT VT' E) as (<- & TL & E1). clear E. injection E1 as <- E1.
  destruct (varint_inj _ _ _ _ _ _ VND VND' E1) as (<- & <- & E). clear E1.
  destruct (varint_inj _ _ _ _ _ _ VNI VNI' E) as (<- & <- & E1). clear E.
  destruct (varint_inj _ _ _ _ _ _ VNA VNA' E1) as (<- & <- & E). clear E1.
  assert (checksum_field f ind bcks' T') as CF2 by (unfold checksum_field in *; rewrite QE; exact CF').
  destruct (checksum_inj _ _ _ _ _ _ _ _ CF CF2 E) as (<- & E1 & _). clear E.
  apply (items_mean_table _ _ (f_table f)) in IM'; [|intros; symmetry; auto].
  rewrite <- QN, <- QS, <- TL in IM'.
  assert (interleaved f' nd na <-> interleaved f nd na) as QI by (unfold interleaved; rewrite QE; tauto).
  unfold layout in LA, LA'. rewrite QI in LA'.
  destruct LA as [(IL & BB & _)|(IL & N1 & N2 & N3 & BB)], LA' as [(IL' & BB' & _)|(IL' & N1' & N2' & N3' & BB')]; try tauto.
  - destruct (items_inj _ (t_drop t') _ _ _ _ _ true items ([], []) (hist, T) NN IM eq_refl items' (hist', T') (y, [], []) (y', [], [])) as (<- & Q & R); auto.
    { cbn. rewrite BB, BB' in E1. congruence. }
    injection Q as -> ->. injection R as ->. rewrite BB, BB'. auto.
  - rewrite BB, BB', <- !app_assoc in E1.
    destruct (app_len_inj _ _ _ _ (eq_trans (eq_sym N1) N1') E1) as [Q1 E2].
    destruct (app_len_inj _ _ _ _ (eq_trans (eq_sym N2) N2') E2) as [Q2 E3].
    destruct (app_len_inj _ _ _ _ (eq_trans (eq_sym N3) N3') E3) as [Q3 E4].
    destruct (items_inj _ (t_drop t') _ _ _ _ _ false items ([], []) (hist, T) NN IM eq_refl items' (hist', T') nil3 nil3) as (<- & Q & R); auto.
    { cbn. rewrite Q1, Q2, Q3. reflexivity. }
    injection Q as -> ->. rewrite BB, BB'. auto.
Qed.

Lemma window_ne : forall t f dict prev w T, Spec.window t f dict prev w T -> w <> [].
Proof. intros t f dict prev w T W. inversion W. discriminate. Qed.

Lemma windows_nil : forall t tl f dict ok prev out, windows t tl f dict ok prev [] out -> out = prev.
Proof.
  intros t tl f dict ok prev out H. remember [] as x. destruct H as [|prev w T rest out W K R]; auto.
  apply app_eq_nil in Heqx as [-> _]. apply window_ne in W. congruence.
Qed.

Lemma windows_unique : forall t tl f dict ok prev ws out, windows t tl f dict ok prev ws out ->
  forall t' tl' f' ok' out', same_format f f' -> windows t' tl' f' dict ok' prev ws out' -> out = out'.
Proof.
  induction 1 as [prev|prev w T rest out W K R IH]; intros t' tl' f' ok' out' SF H'.
  - symmetry. eapply windows_nil; eauto.
  - remember (w ++ rest) as x. destruct H' as [prev|prev w' T' rest' out' W' K' R'].
    + symmetry in Heqx. apply app_eq_nil in Heqx as [-> _]. apply window_ne in W. congruence.
    + destruct (window_inj _ _ _ _ _ _ _ _ _ _ _ _ SF W W' (eq_sym Heqx)) as (-> & -> & ->).
      eapply IH; eauto.
Qed.

(** Code tables: no window is read once 1536 bytes have been produced. *)
Lemma windows_grow : forall t tl f dict ok prev ws out, windows t tl f dict ok prev ws out -> zlen prev <= zlen out.
Proof.
  induction 1; [lia|]. rewrite zlen_app in *. pose proof (zlen_nonneg _ T). lia.
Qed.

Lemma table_windows_inj : forall t tl f dict prev ws out, windows t tl f dict table_limit prev ws out -> zlen out = 1536 ->
  forall t' tl' f' ws' out' y y', same_format f f' ->
  windows t' tl' f' dict table_limit prev ws' out' -> zlen out' = 1536 -> ws ++ y = ws' ++ y' ->
  ws = ws' /\ out = out' /\ y = y'.
Proof.
  induction 1 as [prev|prev w T rest out W K R IH]; intros L t' tl' f' ws' out' y y' SF H' L' E.
  - destruct H' as [prev|prev w' T' rest' out' W' K' R']; [auto|].
    unfold table_limit in K'. lia.
  - destruct H' as [prev|prev w' T' rest' out' W' K' R'].
    + unfold table_limit in K. lia.
    + rewrite <- !app_assoc in E.
      destruct (window_inj _ _ _ _ _ _ _ _ _ _ _ _ SF W W' E) as (-> & -> & E').
      destruct (IH L _ _ _ _ _ _ _ SF R' L' E') as (-> & -> & ->). auto.
Qed.

Lemma head_near : forall t tl h v tbl ns ss, head t tl h v tbl ns ss -> 0 <= ns.
Proof. intros t tl h v tbl ns ss H. inversion H; subst; [lia|]. eapply varint_nonneg; eauto. Qed.

Lemma head_inj : forall t tl h v tbl ns ss, head t tl h v tbl ns ss ->
  forall t' tl' h' v' tbl' ns' ss' y y', head t' tl' h' v' tbl' ns' ss' -> h ++ y = h' ++ y' ->
  h = h' /\ v = v' /\ tbl = tbl' /\ ns = ns' /\ ss = ss' /\ y = y'.
Proof.
  induction 1 as [tl0 v0 ind V BI I0 I1|tl0 v0 ind bn ns0 bs ss0 h vi tbli nsi ssi ws s tbl0 V BI I0 I1 VN VS NSL SSL HD IH MF WS L UC];
    intros t' tl' h' v' tbl' ns' ss' y y' H' E.
  - inversion H' as [v1 ind' V' BI' I0' I1'|v1 ind' bn' ns1 bs' ss1 h1 vi' tbli' nsi' ssi' ws' s' tbl1 V' BI' I0' I1' VN' VS' NSL' SSL' HD' MF' WS' L' UC']; subst;
      cbn in E; injection E as <- <- E; [auto 10|congruence].
  - inversion H' as [v1 ind' V' BI' I0' I1'|v1 ind' bn' ns1 bs' ss1 h1 vi' tbli' nsi' ssi' ws' s' tbl1 V' BI' I0' I1' VN' VS' NSL' SSL' HD' MF' WS' L' UC']; subst;
      cbn in E; injection E as <- <- E; [congruence|].
    rewrite <- !app_assoc in E.
    destruct (varint_inj _ _ _ _ _ _ VN VN' E) as (<- & <- & E1).
    destruct (varint_inj _ _ _ _ _ _ VS VS' E1) as (<- & <- & E2).
    destruct (IH _ _ _ _ _ _ _ _ _ HD' E2) as (<- & <- & <- & <- & <- & E3).
    assert (same_format (file_format vi tbli nsi ssi true) (file_format vi tbli nsi ssi true)) as SF by (unfold same_format; cbn; pose proof (head_near _ _ _ _ _ _ _ HD); auto).
    destruct (table_windows_inj _ _ _ _ _ _ _ WS L _ _ _ _ _ _ _ SF WS' L' E3) as (<- & <- & <-).
    assert (tbl0 = tbl') as <-.
    { destruct UC as [[U ->]|[U ->]], UC' as [[U' ->]|[U' ->]]; tauto. }
    auto 10.
Qed.

(** The target denoted by a file is unique, whatever tolerances and limits. *)
Theorem file_unique : forall t tl allow ok dict X out t' tl' allow' ok' out',
  vcd_file t tl allow ok dict X out -> vcd_file t' tl' allow' ok' dict X out' -> out = out'.
Proof.
  intros t tl allow ok dict X out t' tl' allow' ok' out' A B.
  destruct A as [|h v tbl ns ss ws out HD MF WS].
  - remember [] as x. destruct B as [|h' v' tbl' ns' ss' ws' out' HD' MF' WS']; auto.
    inversion HD'; subst; discriminate.
  - remember (h ++ ws) as x. destruct B as [|h' v' tbl' ns' ss' ws' out' HD' MF' WS'].
    + inversion HD; subst; discriminate.
    + destruct (head_inj _ _ _ _ _ _ _ HD _ _ _ _ _ _ _ _ _ HD' (eq_sym Heqx)) as (-> & -> & -> & -> & -> & ->).
      eapply windows_unique; [exact WS| |exact WS'].
      pose proof (head_near _ _ _ _ _ _ _ HD). unfold same_format; cbn; auto.
Qed.
