(** Facts for C77. *)

From Coq Require Import ZifyBool ZifyNat Znumtheory.
From Verif Require Import Base ListFacts Spec SpecEncode SpecInstr SpecDamage CopyFacts VarintFacts AddrCacheFacts BodyFacts Unique Detect.

(** ** Lists whose elements agree or differ by [d] *)

Definition off_by (d x y : Z) : Prop := y = x \/ y = x + d.
Definition shifted (d : Z) (l l' : list Z) : Prop := Forall2 (off_by d) l l'.

Lemma shifted_refl : forall d l, shifted d l l.
Proof. intros d l. induction l; constructor; [left; reflexivity|assumption]. Qed.
Lemma shifted_app : forall d a a' b b', shifted d a a' -> shifted d b b' -> shifted d (a ++ b) (a' ++ b').
Proof. intros. apply Forall2_app; assumption. Qed.
Lemma shifted_len : forall d l l', shifted d l l' -> zlen l = zlen l'.
Proof. intros d l l' H. induction H; [reflexivity|]. rewrite !zlen_cons. lia. Qed.
Lemma shifted_get : forall d l l', shifted d l l' -> forall k x, get l k = Some x -> exists y, get l' k = Some y /\ off_by d x y.
Proof.
  intros d l l' H. induction H as [|x y l l' XY H IH]; intros k z G.
  - assert (get (@nil Z) k = None) by (apply get_none; rewrite zlen_nil; lia). congruence.
  - destruct (Z.eq_dec k 0) as [->|K].
    + rewrite get_0 in *. injection G as <-. eauto.
    + destruct (Z_lt_le_dec k 0) as [N|N].
      * assert (get (x :: l) k = None) by (apply get_none; lia). congruence.
      * replace k with (k - 1 + 1) in * by lia. rewrite get_S in G |- * by lia. auto.
Qed.
Lemma shifted_repeat : forall d x y n, off_by d x y -> shifted d (zrepeat x n) (zrepeat y n).
Proof. intros d x y n H. unfold zrepeat. induction (Z.to_nat n); constructor; auto. Qed.

Lemma shifted_sum : forall d l l', shifted d l l' ->
  exists m, 0 <= m <= zlen l /\ byte_sum l' = byte_sum l + m * d /\ (m = 0 -> l' = l).
Proof.
  intros d l l' H. induction H as [|x y l l' XY H (m & M & S & E)].
  - exists 0. rewrite zlen_nil. repeat split; lia.
  - cbn [byte_sum]. rewrite zlen_cons. destruct XY as [->| ->].
    + exists m. split; [lia|]. split; [lia|]. intros Q. rewrite (E Q). reflexivity.
    + exists (m + 1). split; [lia|]. split; [lia|]. lia.
Qed.

(** So a short list is not mistaken for another by Adler-32. *)
Lemma shifted_adler : forall d l l', shifted d l l' -> -256 < d < 256 -> d <> 0 -> zlen l < 65521 -> adler_sum 0 l = adler_sum 0 l' -> l' = l.
Proof.
  intros d l l' H D ND L A. destruct (shifted_sum d l l' H) as (m & M & S & E). apply E.
  destruct (Z.eq_dec m 0) as [->|NM]; [reflexivity|]. exfalso. apply ND.
  apply (no_multiple m d); [lia|exact D|]. apply adler_sum_parts in A as [_ A]. rewrite S in A.
  replace (m * d) with (- (byte_sum l - (byte_sum l + m * d))) by lia. apply Z.divide_opp_r. exact A.
Qed.

(** ** The instructions carried out on shifted data *)

Lemma copy_shifted : forall d n seg T a T' U, copy_bytewise n seg T a = Some T' -> shifted d T U ->
  exists U', copy_bytewise n seg U a = Some U' /\ shifted d T' U'.
Proof.
  intros d. induction n as [|n IH]; intros seg T a T' U H S; cbn [copy_bytewise] in *.
  - injection H as <-. eauto.
  - destruct (get (seg ++ T) a) as [x|] eqn:G; [|discriminate H].
    destruct (shifted_get d (seg ++ T) (seg ++ U) (shifted_app d _ _ _ _ (shifted_refl d seg) S) a x G) as (y & -> & XY).
    apply (IH seg (T ++ [x]) (a + 1) T' (U ++ [y]) H). apply shifted_app; [exact S|]. constructor; [exact XY|constructor].
Qed.

Lemma half_shifted : forall d ns ss L seg h p hist T hist' T' U, half_means ns ss L seg h p (hist, T) (hist', T') -> shifted d T U ->
  exists U', half_means ns ss L seg h p (hist, U) (hist', U') /\ shifted d T' U'.
Proof.
  intros d ns ss L seg h p hist T hist' T' U H S. pose proof (shifted_len _ _ _ S) as LS.
  inversion H as [s|k ps n dd h0 T0 LT SC DL|k ps n x h0 T0 LT SC|k m ps n pa a h0 T0 T1 LT SC AC CB]; subst.
  - exists U. split; [constructor|exact S].
  - exists (U ++ dd). split; [eapply hm_add; [lia|exact SC|reflexivity]|]. apply shifted_app; [exact S|apply shifted_refl].
  - exists (U ++ zrepeat x n). split; [eapply hm_run; [lia|exact SC]|]. apply shifted_app; [exact S|apply shifted_refl].
  - destruct (copy_shifted d _ _ _ _ _ U CB S) as (U' & CU & SU). exists U'. split; [|exact SU].
    eapply hm_copy; [lia|exact SC|rewrite <- LS; exact AC|exact CU].
Qed.

Lemma half_damaged : forall b b' ns ss L seg h p p' hist T hist' T' U, damaged_piece b b' p p' ->
  half_means ns ss L seg h p (hist, T) (hist', T') -> shifted (b' - b) T U ->
  exists U', half_means ns ss L seg h p' (hist, U) (hist', U') /\ shifted (b' - b) T' U'.
Proof.
  intros b b' ns ss L seg h p p' hist T hist' T' U D H S. pose proof (shifted_len _ _ _ S) as LS. destruct D as [s u v a].
  inversion H as [s0|k ps n dd h0 T0 LT SC DL|k ps n x h0 T0 LT SC|k m ps n pa a0 h0 T0 T1 LT SC AC CB]; subst.
  - exfalso. destruct u; discriminate.
  - exists (U ++ u ++ b' :: v). split.
    + eapply hm_add; [lia|exact SC|]. rewrite !zlen_app, !zlen_cons. reflexivity.
    + apply shifted_app; [exact S|]. apply shifted_app; [apply shifted_refl|]. constructor; [right; lia|apply shifted_refl].
  - assert (u = [] /\ v = [] /\ x = b) as (-> & -> & ->).
    { destruct u as [|y u]; [|destruct u; discriminate]. cbn [app] in *. split; [reflexivity|]. split; congruence. }
    exists (U ++ zrepeat b' n). split; [eapply hm_run; [lia|exact SC]|]. apply shifted_app; [exact S|]. apply shifted_repeat. right. lia.
  - exfalso. destruct u; discriminate.
Qed.

Lemma items_shifted : forall d drop tbl ns ss L seg l s s', items_mean drop tbl ns ss L seg l s s' -> forall U, shifted d (snd s) U ->
  exists U', items_mean drop tbl ns ss L seg l (fst s, U) (fst s', U') /\ shifted d (snd s') U'.
Proof.
  intros d drop tbl ns ss L seg l s s' H.
  induction H as [s|i l [h T] [h1 T1] [h2 T2] [h3 T3] BI LT H1 H2 H3 IH|i [h T] [h1 T1] D BI LT H1 NP FULL]; intros U S; cbn [fst snd] in *;
    pose proof (shifted_len _ _ _ S) as LS.
  - exists U. split; [constructor|exact S].
  - destruct (half_shifted d _ _ _ _ _ _ _ _ _ _ U H1 S) as (U1 & K1 & S1). destruct (half_shifted d _ _ _ _ _ _ _ _ _ _ U1 H2 S1) as (U2 & K2 & S2).
    destruct (IH U2 S2) as (U3 & K3 & S3). exists U3. split; [|exact S3]. eapply im_cons; [exact BI|cbn [snd]; lia|exact K1|exact K2|exact K3].
  - destruct (half_shifted d _ _ _ _ _ _ _ _ _ _ U H1 S) as (U1 & K1 & S1). exists U1. split; [|exact S1].
    eapply im_drop; [exact D|exact BI|cbn [snd]; lia|exact K1|exact NP|]. cbn [snd]. pose proof (shifted_len _ _ _ S1). cbn [snd] in *. lia.
Qed.

Lemma items_damaged : forall b b' l l', damaged_items b b' l l' -> forall drop tbl ns ss L seg s s' U,
  items_mean drop tbl ns ss L seg l s s' -> shifted (b' - b) (snd s) U ->
  exists U', items_mean drop tbl ns ss L seg l' (fst s, U) (fst s', U') /\ shifted (b' - b) (snd s') U'.
Proof.
  intros b b' l l' DI. induction DI as [op p p' q l DP|op p q q' l DP|i l l' DI IH]; intros drop tbl ns ss L seg s s' U H S.
  - inversion H as [|i0 l0 [h T] [h1 T1] [h2 T2] [h3 T3] BI LT H1 H2 H3|i0 [h T] [h1 T1] D BI LT H1 NP FULL]; subst; cbn [i_op i_first i_second fst snd] in *;
      pose proof (shifted_len _ _ _ S) as LS.
    + destruct (half_damaged _ _ _ _ _ _ _ _ _ _ _ _ _ U DP H1 S) as (U1 & K1 & S1). destruct (half_shifted _ _ _ _ _ _ _ _ _ _ _ U1 H2 S1) as (U2 & K2 & S2).
      destruct (items_shifted _ _ _ _ _ _ _ _ _ _ H3 U2 S2) as (U3 & K3 & S3). exists U3. split; [|exact S3].
      eapply im_cons; [exact BI|cbn [snd]; lia|exact K1|exact K2|exact K3].
    + destruct (half_damaged _ _ _ _ _ _ _ _ _ _ _ _ _ U DP H1 S) as (U1 & K1 & S1). exists U1. split; [|exact S1].
      eapply im_drop; [reflexivity|exact BI|cbn [snd]; lia|exact K1|exact NP|]. cbn [snd]. pose proof (shifted_len _ _ _ S1). cbn [snd] in *. lia.
  - inversion H as [|i0 l0 [h T] [h1 T1] [h2 T2] [h3 T3] BI LT H1 H2 H3|i0 [h T] [h1 T1] D BI LT H1 NP FULL]; subst; cbn [i_op i_first i_second fst snd] in *;
      pose proof (shifted_len _ _ _ S) as LS.
    + destruct (half_shifted _ _ _ _ _ _ _ _ _ _ _ U H1 S) as (U1 & K1 & S1). destruct (half_damaged _ _ _ _ _ _ _ _ _ _ _ _ _ U1 DP H2 S1) as (U2 & K2 & S2).
      destruct (items_shifted _ _ _ _ _ _ _ _ _ _ H3 U2 S2) as (U3 & K3 & S3). exists U3. split; [|exact S3].
      eapply im_cons; [exact BI|cbn [snd]; lia|exact K1|exact K2|exact K3].
    + exfalso. unfold no_piece in NP. inversion DP as [sz u v ad E1 E2]. rewrite <- E1 in NP. injection NP as _ E _. destruct u; discriminate E.
  - inversion H as [|i0 l0 [h T] [h1 T1] [h2 T2] [h3 T3] BI LT H1 H2 H3|i0 [h T] [h1 T1] D BI LT H1 NP FULL]; subst; cbn [fst snd] in *;
      pose proof (shifted_len _ _ _ S) as LS.
    + destruct (half_shifted _ _ _ _ _ _ _ _ _ _ _ U H1 S) as (U1 & K1 & S1). destruct (half_shifted _ _ _ _ _ _ _ _ _ _ _ U1 H2 S1) as (U2 & K2 & S2).
      destruct (IH _ _ _ _ _ _ (h2, T2) (h3, T3) U2 H3 S2) as (U3 & K3 & S3). exists U3. split; [|exact S3].
      eapply im_cons; [exact BI|cbn [snd]; lia|exact K1|exact K2|exact K3].
    + inversion DI.
Qed.

(** ** Windows and files *)

Lemma damaged_window_good : forall t f dict prev b b' w w' T, damaged_window t f dict prev b b' w w' T -> Spec.window t f dict prev w T.
Proof. intros t f dict prev b b' w w' T H. destruct H. eapply window_intro; eauto. Qed.

(** A window read as if its checksum were that of [T] while its instructions yield [U]. *)
Inductive altered_window (t : tolerance) (f : format) (dict prev : list Z) : list Z -> list Z -> list Z -> Prop :=
| altered_window_intro : forall ind seg_bytes seg b_delta delta_len b_target di b_nd n_data b_ni n_inst
                        b_na n_addr b_cks items body hist T U,
    segment f dict prev ind seg_bytes seg ->
    varint b_delta delta_len ->
    varint b_target (zlen T) ->
    varint b_nd n_data -> varint b_ni n_inst -> varint b_na n_addr ->
    checksum_field f ind b_cks T ->
    layout t f items n_data n_inst n_addr body ->
    items_mean (t_drop t) (f_table f) (f_near f) (f_same f) (zlen T) seg items ([], []) (hist, U) ->
    f_ext f = true /\ Z.testbit ind 2 = true -> zlen U = zlen T ->
    altered_window t f dict prev
      ([ind] ++ seg_bytes ++ b_delta ++ b_target ++ [di] ++ b_nd ++ b_ni ++ b_na ++ b_cks ++ body) T U.

Lemma altered_window_read : forall t t' f f' dict prev w T U w2 T2 y y2, same_format f f' ->
  altered_window t f dict prev w T U -> Spec.window t' f' dict prev w2 T2 -> w ++ y = w2 ++ y2 ->
  w = w2 /\ T2 = U /\ y = y2 /\ adler_sum 0 T = adler_sum 0 U.
Proof.
  intros t t' f f' dict prev w T U w2 T2 y y2 (QE & NN & QN & QS & QT) W W' E.
  destruct W as [ind sb seg bd dl bt di bnd nd bni ni bna na bcks items0 body0 hist T U SG VD VT VND VNI VNA CF LA IM [CK1 CK2] LU].
  inversion W' as [ind' sb' seg' bd' dl' bt' di' bnd' nd' bni' ni' bna' na' bcks' items' body' hist' T1 BI' SG' VD' VT' BDI' DI' VND' VNI' VNA' CF' LA' DL' IM' EW' ET']; subst w2 T1.
  clear W'. rewrite <- !app_assoc in E. cbn [app] in E. injection E as <- E.
  destruct (segment_inj _ _ _ _ _ _ _ _ _ _ _ SG SG' E) as (<- & <- & E1). clear E.
  destruct (varint_inj _ _ _ _ _ _ VD VD' E1) as (<- & <- & E). clear E1.
  destruct (varint_inj _ _ _ _ _ _ VT VT' E) as (<- & TL & E1). clear E. injection E1 as <- E1.
  destruct (varint_inj _ _ _ _ _ _ VND VND' E1) as (<- & <- & E). clear E1.
  destruct (varint_inj _ _ _ _ _ _ VNI VNI' E) as (<- & <- & E1). clear E.
  destruct (varint_inj _ _ _ _ _ _ VNA VNA' E1) as (<- & <- & E). clear E1.
  assert (checksum_field f ind bcks' T2) as CF2 by (unfold checksum_field in *; rewrite QE; exact CF').
  destruct (checksum_inj _ _ _ _ _ _ _ _ CF CF2 E) as (<- & E1 & CK). clear E.
  rewrite CK1, CK2 in CK. specialize (CK eq_refl).
  apply (items_mean_table _ _ (f_table f)) in IM'; [|intros; symmetry; auto].
  rewrite <- QN, <- QS, <- TL in IM'.
  assert (interleaved f' nd na <-> interleaved f nd na) as QI by (unfold interleaved; rewrite QE; tauto).
  unfold layout in LA, LA'. rewrite QI in LA'.
  assert (items0 = items' /\ U = T2 /\ body0 = body' /\ y = y2) as (<- & <- & <- & <-).
  { destruct LA as [(IL & BB & _)|(IL & N1 & N2 & N3 & BB)], LA' as [(IL' & BB' & _)|(IL' & N1' & N2' & N3' & BB')]; try tauto.
    - destruct (items_inj _ (t_drop t') _ _ _ _ _ true items0 ([], []) (hist, U) NN IM LU items' (hist', T2) (y, [], []) (y2, [], [])) as (<- & Q & R); auto.
      { cbn. rewrite BB, BB' in E1. congruence. }
      injection Q as -> ->. injection R as ->. rewrite BB, BB'. auto.
    - rewrite BB, BB', <- !app_assoc in E1.
      destruct (app_len_inj _ _ _ _ (eq_trans (eq_sym N1) N1') E1) as [Q1 E2].
      destruct (app_len_inj _ _ _ _ (eq_trans (eq_sym N2) N2') E2) as [Q2 E3].
      destruct (app_len_inj _ _ _ _ (eq_trans (eq_sym N3) N3') E3) as [Q3 E4].
      destruct (items_inj _ (t_drop t') _ _ _ _ _ false items0 ([], []) (hist, U) NN IM LU items' (hist', T2) nil3 nil3) as (<- & Q & R); auto.
      { cbn. rewrite Q1, Q2, Q3. reflexivity. }
      injection Q as -> ->. rewrite BB, BB'. auto. }
  auto.
Qed.

Lemma damaged_altered : forall t f dict prev b b' w w' T, damaged_window t f dict prev b b' w w' T ->
  exists U, altered_window t f dict prev w' T U /\ shifted (b' - b) T U.
Proof.
  intros t f dict prev b b' w w' T W.
  destruct W as [ind sb seg bd dl bt di bnd nd bni ni bna na bcks items body hist T items0 body0 BI SG VD VT BDI DI VND VNI VNA CF LA0 DL IM0 CK DA LA].
  destruct (items_damaged b b' items items0 DA _ _ _ _ _ _ ([], []) (hist, T) [] IM0) as (U & IM & SU); [constructor|]. cbn [fst snd] in IM, SU.
  exists U. split; [|exact SU]. eapply altered_window_intro; eauto. symmetry. exact (shifted_len _ _ _ SU).
Qed.

Lemma shifted_0 : forall T U, shifted 0 T U -> U = T.
Proof. intros T U H. induction H as [|x z l l' XY H IH]; [reflexivity|]. rewrite IH. f_equal. destruct XY; lia. Qed.

Lemma damaged_window_read : forall t t' f f' dict prev b b' w w' T w2 T2 y y2, same_format f f' -> -256 < b' - b < 256 -> zlen T < 65521 ->
  damaged_window t f dict prev b b' w w' T -> Spec.window t' f' dict prev w2 T2 -> w' ++ y = w2 ++ y2 ->
  w' = w2 /\ T2 = T /\ y = y2.
Proof.
  intros t t' f f' dict prev b b' w w' T w2 T2 y y2 SF DB LT W W' E.
  destruct (damaged_altered _ _ _ _ _ _ _ _ _ W) as (U & AW & SU).
  destruct (altered_window_read _ _ _ _ _ _ _ _ _ _ _ _ _ SF AW W' E) as (-> & -> & -> & CK). split; [reflexivity|]. split; [|reflexivity].
  destruct (Z.eq_dec (b' - b) 0) as [Z0|NZ].
  - rewrite Z0 in SU. exact (shifted_0 _ _ SU).
  - exact (shifted_adler _ _ _ SU DB NZ LT CK).
Qed.

Lemma windows_front : forall t f dict ok prev ws1 prev1, windows t t f dict ok prev ws1 prev1 ->
  forall t' tl' f' ok' z out', same_format f f' -> windows t' tl' f' dict ok' prev (ws1 ++ z) out' -> windows t' tl' f' dict ok' prev1 z out'.
Proof.
  induction 1 as [prev|prev w T rest out W K R IH]; intros t' tl' f' ok' z out' SF H'; [exact H'|].
  rewrite <- app_assoc in H'. remember (w ++ rest ++ z) as x. destruct H' as [prev|prev w' T' rest' out' W' K' R'].
  - symmetry in Heqx. apply app_eq_nil in Heqx as [-> _]. apply window_ne in W. congruence.
  - destruct (window_inj _ _ _ _ _ _ _ _ _ _ _ _ SF W W' (eq_sym Heqx)) as (-> & -> & <-). eapply IH; eauto.
Qed.

Lemma windows_app : forall t tl f dict ok prev ws1 prev1, windows t t f dict ok prev ws1 prev1 -> forall z out, z <> [] ->
  windows t tl f dict ok prev1 z out -> windows t tl f dict ok prev (ws1 ++ z) out.
Proof.
  intros t tl f dict ok prev ws1 prev1 H. induction H as [prev|prev w T rest out W K R IH]; intros z out' NZ H'; [exact H'|].
  rewrite <- app_assoc. apply (ws_cons t tl f dict ok prev w T (rest ++ z) out'); [|exact K|apply IH; auto].
  destruct rest as [|x rest]; [|exact W]. destruct z; [congruence|exact W].
Qed.

Theorem damaged_file_good : forall t tl allow ok dict b b' X X' T out, damaged_file t tl allow ok dict b b' X X' T out -> vcd_file t tl allow ok dict X out.
Proof.
  intros t tl allow ok dict b b' X X' T out H. destruct H as [h v tbl ns ss ws1 prev w w' T ws2 out HD MF W1 DW K W2].
  apply damaged_window_good in DW. pose proof (window_ne _ _ _ _ _ _ DW) as NW.
  apply (file_intro t tl allow ok dict h v tbl ns ss (ws1 ++ w ++ ws2) out); [|exact MF|].
  - destruct (ws1 ++ w ++ ws2) eqn:E; [|exact HD]. apply app_eq_nil in E as [_ E]. apply app_eq_nil in E as [E _]. congruence.
  - eapply windows_app; [exact W1|intros E; apply app_eq_nil in E as [E _]; congruence|]. apply (ws_cons t tl _ dict ok prev w T ws2 out); auto.
Qed.

Theorem damaged_file_read : forall t tl allow ok dict b b' X X' T out t' tl' allow' ok' out',
  damaged_file t tl allow ok dict b b' X X' T out -> -256 < b' - b < 256 -> zlen T < 65521 ->
  vcd_file t' tl' allow' ok' dict X' out' -> out' = out.
Proof.
  intros t tl allow ok dict b b' X X' T out t' tl' allow' ok' out' H DB LT F.
  destruct H as [h v tbl ns ss ws1 prev w w' T ws2 out HD MF W1 DW K W2].
  remember (h ++ ws1 ++ w' ++ ws2) as x. destruct F as [|h' v' tbl' ns' ss' ws' out' HD' MF' WS'].
  - inversion HD; subst; discriminate.
  - destruct (head_inj _ _ _ _ _ _ _ HD _ _ _ _ _ _ _ _ _ HD' (eq_sym Heqx)) as (-> & -> & -> & -> & -> & <-).
    assert (same_format (file_format v' tbl' ns' ss' allow) (file_format v' tbl' ns' ss' allow')) as SF.
    { pose proof (head_near _ _ _ _ _ _ _ HD). unfold same_format; cbn; auto. }
    pose proof (windows_front _ _ _ _ _ _ _ W1 _ _ _ _ _ _ SF WS') as R. clear Heqx WS'.
    remember (w' ++ ws2) as z. destruct R as [prev|prev w2 T2 rest2 out' W2' K2 R2].
    + exfalso. symmetry in Heqz. apply app_eq_nil in Heqz as [E _]. destruct DW. discriminate E.
    + destruct (damaged_window_read _ _ _ _ _ _ _ _ _ _ _ _ _ _ _ SF DB LT DW W2' (eq_sym Heqz)) as (-> & -> & ->).
      symmetry. eapply windows_unique; [exact W2|exact SF|exact R2].
Qed.

(** ** In the standard layout every byte of the data section is data of an instruction *)

Lemma data_position : forall b b' l u v, concat (map item_data l) = u ++ b :: v ->
  exists l', damaged_items b b' l l' /\ concat (map item_data l') = u ++ b' :: v /\
    concat (map item_inst l') = concat (map item_inst l) /\ concat (map item_addr l') = concat (map item_addr l).
Proof.
  intros b b'. induction l as [|[op [s1 d1 a1] [s2 d2 a2]] l IH]; intros u v E.
  - destruct u; discriminate E.
  - cbn [map concat] in E. unfold item_data at 1 in E. cbn [i_first i_second p_data] in E. rewrite <- app_assoc in E.
    assert (forall p q x y : list Z, p ++ q = x ++ b :: y -> (exists z, p = x ++ b :: z /\ y = z ++ q) \/ (exists z, x = p ++ z /\ q = z ++ b :: y)) as SP.
    { clear. induction p as [|c p IH]; intros q x y E; [right; exists x; auto|].
      destruct x as [|c' x]; cbn [app] in E; injection E as -> E.
      - left. exists p. auto.
      - destruct (IH q x y E) as [(z & -> & ->)|(z & -> & ->)]; [left|right]; exists z; auto. }
    destruct (SP _ _ _ _ E) as [(z & -> & ->)|(z & -> & E2)].
    + exists ({| i_op := op; i_first := {| p_size := s1; p_data := u ++ b' :: z; p_addr := a1 |}; i_second := {| p_size := s2; p_data := d2; p_addr := a2 |} |} :: l).
      split; [apply dis_first; constructor|]. cbn [map concat]. unfold item_data at 1, item_inst at 1 3, item_addr at 1 3. cbn [i_op i_first i_second p_data p_size p_addr].
      rewrite <- !app_assoc. split; [reflexivity|]. auto.
    + destruct (SP _ _ _ _ E2) as [(y & -> & ->)|(y & -> & E3)].
      * exists ({| i_op := op; i_first := {| p_size := s1; p_data := d1; p_addr := a1 |}; i_second := {| p_size := s2; p_data := z ++ b' :: y; p_addr := a2 |} |} :: l).
        split; [apply dis_second; constructor|]. cbn [map concat]. unfold item_data at 1, item_inst at 1 3, item_addr at 1 3. cbn [i_op i_first i_second p_data p_size p_addr].
        rewrite <- !app_assoc. split; [reflexivity|]. auto.
      * destruct (IH _ _ E3) as (l' & DA & ED & EI & EA).
        exists ({| i_op := op; i_first := {| p_size := s1; p_data := d1; p_addr := a1 |}; i_second := {| p_size := s2; p_data := d2; p_addr := a2 |} |} :: l').
        split; [apply dis_later; exact DA|]. cbn [map concat]. rewrite ED, EI, EA. unfold item_data at 1. cbn [i_first i_second p_data].
        rewrite <- !app_assoc. auto.
Qed.

(** ** Windows whose COPYs read the dictionary only *)

Definition from_dict (seg : list Z) (i : instruction) : Prop :=
  match i with Add _ => True | Copy a n => 0 <= a /\ 0 <= n /\ a + n <= zlen seg | Run _ _ => False end.

Lemma plan_from_dict : forall dict T b l T', genuine_plan false dict T b l T' -> Forall (from_dict dict) l.
Proof.
  intros dict T b l T' H. induction H as [T b|T d l T' ND G IH|T b a n T1 l T' N C X G IH]; constructor; auto.
  - exact Logic.I.
  - cbn. destruct C as [C|[C _]]; [lia|discriminate C].
Qed.

Lemma copy_from_dict : forall n seg a, 0 <= a -> a + Z.of_nat n <= zlen seg ->
  exists bs, forall T, copy_bytewise n seg T a = Some (T ++ bs).
Proof.
  induction n as [|n IH]; intros seg a A L.
  - exists []. intros T. cbn [copy_bytewise]. rewrite app_nil_r. reflexivity.
  - destruct (IH seg (a + 1)) as (bs & E); [lia|lia|].
    destruct (get seg a) as [x|] eqn:G; [|apply get_none in G; lia].
    exists (x :: bs). intros T. cbn [copy_bytewise]. rewrite get_app_l by lia. rewrite G, E, <- app_assoc. reflexivity.
Qed.

Lemma half_once : forall ns ss L seg h p hist T hist' T' x, half_reads ns ss L seg h p (hist, T) (hist', T') x -> Forall (from_dict seg) x ->
  exists bs, T' = T ++ bs /\ forall U, zlen U = zlen T -> half_means ns ss L seg h p (hist, U) (hist', U ++ bs).
Proof.
  intros ns ss L seg h p hist T hist' T' x H F.
  inversion H as [s|k ps n dd h0 T0 LT SC DL|k ps n c h0 T0 LT SC|k m ps n pa a h0 T0 T1 LT SC AC CB]; subst.
  - exists []. rewrite app_nil_r. split; [reflexivity|]. intros U _. rewrite app_nil_r. constructor.
  - exists dd. split; [reflexivity|]. intros U LU. eapply hm_add; [lia|exact SC|reflexivity].
  - inversion F as [|? ? F1 _]; subst. cbn in F1. destruct F1.
  - inversion F as [|? ? F0 _]; subst. cbn in F0. destruct F0 as (F1 & F2 & F3).
    destruct (copy_from_dict (Z.to_nat n) seg a) as (bs & E); [lia|lia|]. exists bs. rewrite E in CB. injection CB as <-. split; [reflexivity|].
    intros U LU. eapply hm_copy; [lia|exact SC|rewrite LU; exact AC|apply E].
Qed.

Lemma half_once_damaged : forall b b' ns ss L seg h p p' hist T hist' T' x, damaged_piece b b' p p' ->
  half_reads ns ss L seg h p (hist, T) (hist', T') x -> Forall (from_dict seg) x ->
  exists u v, T' = T ++ u ++ b :: v /\ half_means ns ss L seg h p' (hist, T) (hist', T ++ u ++ b' :: v).
Proof.
  intros b b' ns ss L seg h p p' hist T hist' T' x D H F. destruct D as [s u v a].
  inversion H as [s0|k ps n dd h0 T0 LT SC DL|k ps n c h0 T0 LT SC|k m ps n pa a0 h0 T0 T1 LT SC AC CB]; subst.
  - exfalso. destruct u; discriminate.
  - exists u, v. split; [reflexivity|]. eapply hm_add; [lia|exact SC|]. rewrite !zlen_app, !zlen_cons. reflexivity.
  - inversion F as [|? ? F1 _]; subst. cbn in F1. destruct F1.
  - exfalso. destruct u; discriminate.
Qed.

Lemma items_once : forall tbl ns ss L seg l s s' x, items_read tbl ns ss L seg l s s' x -> Forall (from_dict seg) x ->
  exists bs, snd s' = snd s ++ bs /\ forall U, zlen U = zlen (snd s) -> items_mean false tbl ns ss L seg l (fst s, U) (fst s', U ++ bs).
Proof.
  intros tbl ns ss L seg l s s' x H.
  induction H as [s|i l [h T] [h1 T1] [h2 T2] [h3 T3] x1 x2 x3 BI LT H1 H2 H3 IH]; intros F; cbn [fst snd] in *.
  - exists []. rewrite app_nil_r. split; [reflexivity|]. intros U _. rewrite app_nil_r. constructor.
  - apply Forall_app in F as [F1 F]. apply Forall_app in F as [F2 F3].
    destruct (half_once _ _ _ _ _ _ _ _ _ _ _ H1 F1) as (b1 & -> & K1). destruct (half_once _ _ _ _ _ _ _ _ _ _ _ H2 F2) as (b2 & -> & K2).
    destruct (IH F3) as (b3 & -> & K3). exists (b1 ++ b2 ++ b3). rewrite <- !app_assoc. split; [reflexivity|]. intros U LU.
    rewrite zlen_app in K2. rewrite !zlen_app in K3.
    eapply im_cons; [exact BI|cbn [snd]; lia|apply K1; exact LU|apply K2; rewrite zlen_app; lia|].
    replace (U ++ b1 ++ b2 ++ b3) with (((U ++ b1) ++ b2) ++ b3) by (rewrite <- !app_assoc; reflexivity).
    apply K3. rewrite !zlen_app. lia.
Qed.

Lemma items_once_damaged : forall b b' l l', damaged_items b b' l l' -> forall tbl ns ss L seg s s' x,
  items_read tbl ns ss L seg l s s' x -> Forall (from_dict seg) x ->
  exists u v, snd s' = snd s ++ u ++ b :: v /\ items_mean false tbl ns ss L seg l' s (fst s', snd s ++ u ++ b' :: v).
Proof.
  intros b b' l l' DI. induction DI as [op p p' q l DP|op p q q' l DP|i l l' DI IH]; intros tbl ns ss L seg s s' x H F;
    inversion H as [|i0 l0 [h T] [h1 T1] [h2 T2] [h3 T3] x1 x2 x3 BI LT H1 H2 H3]; subst; cbn [i_op i_first i_second fst snd] in *;
    apply Forall_app in F as [F1 F]; apply Forall_app in F as [F2 F3].
  - destruct (half_once_damaged _ _ _ _ _ _ _ _ _ _ _ _ _ _ DP H1 F1) as (u & v & -> & K1).
    destruct (half_once _ _ _ _ _ _ _ _ _ _ _ H2 F2) as (b2 & -> & K2). destruct (items_once _ _ _ _ _ _ _ _ _ H3 F3) as (b3 & E3 & K3). cbn [fst snd] in *.
    exists u, (v ++ b2 ++ b3). split; [rewrite E3, <- !app_assoc; cbn [app]; rewrite <- ?app_assoc; reflexivity|].
    eapply im_cons; [exact BI|exact LT|exact K1|apply K2; rewrite !zlen_app, !zlen_cons; reflexivity|].
    replace (T ++ u ++ b' :: v ++ b2 ++ b3) with (((T ++ u ++ b' :: v) ++ b2) ++ b3) by (rewrite <- !app_assoc; cbn [app]; rewrite <- ?app_assoc; reflexivity).
    apply K3. rewrite !zlen_app, !zlen_cons. reflexivity.
  - destruct (half_once _ _ _ _ _ _ _ _ _ _ _ H1 F1) as (b1 & -> & K1).
    destruct (half_once_damaged _ _ _ _ _ _ _ _ _ _ _ _ _ _ DP H2 F2) as (u & v & -> & K2). destruct (items_once _ _ _ _ _ _ _ _ _ H3 F3) as (b3 & E3 & K3). cbn [fst snd] in *.
    exists (b1 ++ u), (v ++ b3). split; [rewrite E3, <- !app_assoc; cbn [app]; rewrite <- ?app_assoc; reflexivity|].
    eapply im_cons; [exact BI|exact LT|apply K1; reflexivity|exact K2|].
    replace (T ++ (b1 ++ u) ++ b' :: v ++ b3) with (((T ++ b1) ++ u ++ b' :: v) ++ b3) by (rewrite <- !app_assoc; cbn [app]; rewrite <- ?app_assoc; reflexivity).
    apply K3. rewrite !zlen_app, !zlen_cons. reflexivity.
  - destruct (half_once _ _ _ _ _ _ _ _ _ _ _ H1 F1) as (b1 & -> & K1). destruct (half_once _ _ _ _ _ _ _ _ _ _ _ H2 F2) as (b2 & -> & K2).
    destruct (IH _ _ _ _ _ _ _ _ H3 F3) as (u & v & E3 & K3). cbn [fst snd] in *.
    exists (b1 ++ b2 ++ u), v. split; [rewrite E3, <- !app_assoc; reflexivity|].
    eapply im_cons; [exact BI|exact LT|apply K1; reflexivity|apply K2; reflexivity|].
    replace (T ++ (b1 ++ b2 ++ u) ++ b' :: v) with (((T ++ b1) ++ b2) ++ u ++ b' :: v) by (rewrite <- !app_assoc; reflexivity). exact K3.
Qed.

(** The instructions that a window stands for are unique. *)
Lemma half_reads_inj : forall ns ss L seg h p s s1 s2 x y, half_reads ns ss L seg h p s s1 x -> half_reads ns ss L seg h p s s2 y -> s1 = s2 -> x = y.
Proof.
  intros ns ss L seg h p s s1 s2 x y A B E. subst s2.
  inversion A as [s0|k ps n dd h0 T0 LT SC DL|k ps n c h0 T0 LT SC|k m ps n pa a h0 T0 T1 LT SC AC CB]; subst;
  inversion B as [s0'|k' ps' n' dd' h0' T0' LT' SC' DL'|k' ps' n' c' h0' T0' LT' SC'|k' m' ps' n' pa' a' h0' T0' T1' LT' SC' AC' CB']; subst; try reflexivity.
  - destruct (size_code_inj _ _ _ _ _ [] [] SC SC' eq_refl) as (_ & -> & _). reflexivity.
  - destruct (size_code_inj _ _ _ _ _ [] [] SC SC' eq_refl) as (_ & -> & _). reflexivity.
Qed.
Lemma items_read_inj : forall tbl ns ss L seg l s s' x, 0 <= ns -> items_read tbl ns ss L seg l s s' x -> forall s2 y, items_read tbl ns ss L seg l s s2 y -> x = y.
Proof.
  intros tbl ns ss L seg l s s' x NN H. induction H as [s|i l s s1 s2 s3 x1 x2 x3 BI LT H1 H2 H3 IH]; intros s2' y H'; inversion H' as [|i' l' t t1 t2 t3 y1 y2 y3 BI' LT' H1' H2' H3']; subst; [reflexivity|].
  destruct (half_inj _ _ _ _ true _ _ _ _ _ _ nil3 nil3 NN (half_reads_means _ _ _ _ _ _ _ _ _ H1) (half_reads_means _ _ _ _ _ _ _ _ _ H1') eq_refl) as (_ & <- & _).
  destruct (half_inj _ _ _ _ true _ _ _ _ _ _ nil3 nil3 NN (half_reads_means _ _ _ _ _ _ _ _ _ H2) (half_reads_means _ _ _ _ _ _ _ _ _ H2') eq_refl) as (_ & <- & _).
  rewrite (half_reads_inj _ _ _ _ _ _ _ _ _ _ _ H1 H1' eq_refl), (half_reads_inj _ _ _ _ _ _ _ _ _ _ _ H2 H2' eq_refl), (IH _ _ H3'). reflexivity.
Qed.
