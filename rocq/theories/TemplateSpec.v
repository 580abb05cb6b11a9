(** The meaning of a window depends on the dictionary only through the bytes that are
    copied, and through the checksum. *)

From Verif Require Import Base ListFacts Spec SpecTemplate VarintFacts CopyFacts Template.
From Coq Require Import ZifyBool ZifyNat.

Definition keeps_bytes (f : Z -> Z) : Prop := forall b, byte_ok b -> f b = b.

Lemma keeps_fixed : forall f l, keeps_bytes f -> bytes_ok l -> map f l = l.
Proof. intros f l K. induction 1 as [|b l B _ IH]; [reflexivity|]. cbn [map]. rewrite IH, K by exact B. reflexivity. Qed.

Local Transparent get.
Lemma get_map : forall (f : Z -> Z) l i, get (map f l) i = option_map f (get l i).
Proof. intros f l i. unfold get. destruct (i <? 0); [reflexivity|]. apply nth_error_map. Qed.
Local Opaque get.

Lemma copy_bytewise_map : forall f n seg T a, copy_bytewise n (map f seg) (map f T) a = option_map (map f) (copy_bytewise n seg T a).
Proof.
  intros f. induction n as [|n IH]; intros seg T a; cbn [copy_bytewise]; [reflexivity|].
  rewrite <- map_app, get_map. destruct (get (seg ++ T) a) as [b|]; cbn [option_map]; [|reflexivity].
  rewrite <- IH, map_app. reflexivity.
Qed.

Lemma copy_bytewise_all : forall (P : Z -> Prop) n seg T a T', Forall P seg -> Forall P T -> copy_bytewise n seg T a = Some T' -> Forall P T'.
Proof.
  intros P. induction n as [|n IH]; intros seg T a T' A B H; cbn [copy_bytewise] in H; [congruence|].
  destruct (get (seg ++ T) a) as [b|] eqn:G; [|discriminate H]. eapply IH; [exact A| |exact H]. apply Forall_app. split; [exact B|].
  constructor; [|constructor]. assert (Forall P (seg ++ T)) as F by (apply Forall_app; auto). rewrite Forall_forall in F. apply F.
  Local Transparent get. unfold get in G. destruct (a <? 0); [discriminate G|]. eapply nth_error_In. exact G. Local Opaque get.
Qed.

Section Lift.
Variable phi : Z -> Z.
Hypothesis K : keeps_bytes phi.
Variable P : Z -> Prop.
Hypothesis PB : forall b, byte_ok b -> P b.

Lemma all_bytes_P : forall l, bytes_ok l -> Forall P l.
Proof. intros l. apply Forall_impl. exact PB. Qed.

Lemma half_lift : forall ns ss L seg h p hist T hist' U, half_means ns ss L (map phi seg) h p (hist, map phi T) (hist', U) ->
  bytes_ok (p_data p) -> Forall P seg -> Forall P T ->
  exists T', U = map phi T' /\ Forall P T' /\
    forall psi, keeps_bytes psi -> half_means ns ss L (map psi seg) h p (hist, map psi T) (hist', map psi T').
Proof.
  intros ns ss L seg h p hist T hist' U H B PS PT.
  inversion H as [s E1 E2 E3 E4|k ps n d h0 T0 LT SC LD E1 E2 E3 E4|k ps n b h0 T0 LT SC E1 E2 E3 E4|k m ps n pa a h0 T0 T' LT SC AC CB E1 E2 E3 E4]; subst.
  - exists T. split; [congruence|]. split; [exact PT|]. intros psi KP. constructor.
  - cbn [p_data] in B. exists (T ++ d). rewrite map_app, (keeps_fixed phi d K B). split; [reflexivity|].
    split; [apply Forall_app; split; [exact PT|apply all_bytes_P; exact B]|]. intros psi KP. rewrite map_app, (keeps_fixed psi d KP B).
    constructor 2 with (n := zlen d); [|exact SC|reflexivity]. rewrite zlen_map in *. exact LT.
  - cbn [p_data] in B. inversion B as [|? ? BB _]; subst.
    assert (forall f, keeps_bytes f -> map f (zrepeat b n) = zrepeat b n) as R.
    { intros f KF. apply keeps_fixed; [exact KF|]. unfold zrepeat. clear -BB. induction (Z.to_nat n); constructor; auto. }
    exists (T ++ zrepeat b n). rewrite map_app, (R phi K). split; [reflexivity|].
    split; [apply Forall_app; split; [exact PT|]; unfold zrepeat; clear -BB PB; induction (Z.to_nat n); constructor; auto|].
    intros psi KP. rewrite map_app, (R psi KP). constructor 3; [|exact SC]. rewrite zlen_map in *. exact LT.
  - rewrite copy_bytewise_map in CB. destruct (copy_bytewise (Z.to_nat n) seg T a) as [T1|] eqn:C; [|discriminate CB].
    cbn [option_map] in CB. exists T1. split; [congruence|]. split; [exact (copy_bytewise_all P _ seg T a T1 PS PT C)|]. intros psi KP.
    constructor 4 with (n := n).
    + rewrite zlen_map in *. exact LT.
    + exact SC.
    + rewrite !zlen_map in *. exact AC.
    + rewrite copy_bytewise_map, C. reflexivity.
Qed.

Definition data_ok (i : item) : Prop := bytes_ok (p_data (i_first i)) /\ bytes_ok (p_data (i_second i)).

Lemma items_lift : forall drop tbl ns ss L seg items hist T s', Forall P seg -> Forall P T -> Forall data_ok items ->
  items_mean drop tbl ns ss L (map phi seg) items (hist, map phi T) s' ->
  exists T', snd s' = map phi T' /\ Forall P T' /\
    forall psi, keeps_bytes psi -> items_mean drop tbl ns ss L (map psi seg) items (hist, map psi T) (fst s', map psi T').
Proof.
  intros drop tbl ns ss L seg items hist T s' PS PT DO H. remember (map phi seg) as seg0. remember (hist, map phi T) as s0. revert hist T PT DO Heqs0.
  induction H as [s|i l s s1 s2 s3 BO LT H1 H2 H IH|i s s1 D BO LT H1 NP LE]; intros hist T PT DO ->.
  - exists T. split; [reflexivity|]. split; [exact PT|]. intros psi KP. constructor.
  - inversion DO as [|? ? [D1 D2] D3]; subst. destruct s1 as [h1 U1]. destruct s2 as [h2 U2].
    destruct (half_lift _ _ _ _ _ _ _ _ _ _ H1 D1 PS PT) as (T1 & -> & P1 & M1).
    destruct (half_lift _ _ _ _ _ _ _ _ _ _ H2 D2 PS P1) as (T2 & -> & P2 & M2).
    destruct (IH h2 T2 P2 D3 eq_refl) as (T3 & E3 & P3 & M3). exists T3. split; [exact E3|]. split; [exact P3|]. intros psi KP.
    apply im_cons with (s1 := (h1, map psi T1)) (s2 := (h2, map psi T2)); auto. cbn [snd] in *. rewrite zlen_map in *. exact LT.
  - inversion DO as [|? ? [D1 D2] D3]; subst. destruct s1 as [h1 U1].
    destruct (half_lift _ _ _ _ _ _ _ _ _ _ H1 D1 PS PT) as (T1 & -> & P1 & M1). exists T1. split; [reflexivity|]. split; [exact P1|]. intros psi KP.
    cbn [fst]. apply im_drop; auto; cbn [snd] in *; rewrite ?zlen_map in *; first [assumption|reflexivity].
Qed.

Lemma layout_data : forall t f items nd ni na body, layout t f items nd ni na body -> bytes_ok body -> Forall data_ok items.
Proof.
  intros t f items nd ni na body [(_ & -> & _)|(_ & _ & _ & _ & ->)] B.
  - induction items as [|i l IH]; [constructor|]. cbn [map concat] in B. apply bytes_ok_app in B as [B1 B2]. constructor; [|auto].
    unfold item_bytes, piece_bytes in B1. rewrite !bytes_ok_app in B1. unfold data_ok. tauto.
  - apply bytes_ok_app in B as [B _]. induction items as [|i l IH]; [constructor|]. cbn [map concat] in B. apply bytes_ok_app in B as [B1 B2]. constructor; [|auto].
    unfold item_data in B1. rewrite bytes_ok_app in B1. exact B1.
Qed.

Lemma slice_lift : forall l pos n s, slice (map phi l) pos n = Some s -> Forall P l -> exists s0, slice l pos n = Some s0 /\ s = map phi s0 /\ Forall P s0.
Proof.
  intros l pos n s H F. rewrite slice_map in H. destruct (slice l pos n) as [s0|] eqn:E; [|discriminate H]. cbn [option_map] in H. exists s0.
  split; [reflexivity|]. split; [congruence|]. apply slice_inv in E as (_ & _ & _ & E & _). rewrite <- (ztake_zdrop _ pos l) in F.
  apply Forall_app in F as [_ F]. rewrite <- (ztake_zdrop _ n (zdrop pos l)) in F. apply Forall_app in F as [F _]. rewrite E. exact F.
Qed.

Lemma segment_lift : forall f D prev ind sb seg, segment f (map phi D) (map phi prev) ind sb seg -> Forall P D -> Forall P prev ->
  exists seg0, seg = map phi seg0 /\ Forall P seg0 /\ forall psi, segment f (map psi D) (map psi prev) ind sb (map psi seg0).
Proof.
  intros f D prev ind sb seg H PD PP. inversion H as [B0 B1|b1 b2 len pos s B0 B1 V1 V2 SL|b1 b2 len pos s B0 B1 AL V1 V2 SL]; subst.
  - exists []. split; [reflexivity|]. split; [constructor|]. intros psi. constructor; assumption.
  - destruct (slice_lift _ _ _ _ SL PD) as (s0 & S0 & -> & PS). exists s0. split; [reflexivity|]. split; [exact PS|]. intros psi.
    econstructor 2; eauto. rewrite slice_map, S0. reflexivity.
  - destruct (slice_lift _ _ _ _ SL PP) as (s0 & S0 & -> & PS). exists s0. split; [reflexivity|]. split; [exact PS|]. intros psi.
    econstructor 3; eauto. rewrite slice_map, S0. reflexivity.
Qed.

Lemma window_lift : forall t f D prev w U, window t f (map phi D) (map phi prev) w U -> bytes_ok w -> Forall P D -> Forall P prev ->
  exists T, U = map phi T /\ Forall P T /\
    forall psi, keeps_bytes psi -> (f_ext f && Z.testbit (hd 0 w) 2 = true -> adler_sum 0 (map psi T) = adler_sum 0 U) ->
      window t f (map psi D) (map psi prev) w (map psi T).
Proof.
  intros t f D prev w U W BW PD PP.
  inversion W as [ind sb seg bd dl bt di bnd nd bni ni bna na bcks items body hist T1 BI SG VD VT BDI DI VND VNI VNA CF LA DL IM EW ET]. subst w T1.
  destruct (segment_lift _ _ _ _ _ _ SG PD PP) as (seg0 & -> & PS & SG').
  assert (bytes_ok body) as BB by (rewrite !bytes_ok_app in BW; tauto).
  destruct (items_lift _ _ _ _ _ seg0 items [] [] (hist, U) PS (Forall_nil _) (layout_data _ _ _ _ _ _ _ LA BB) IM) as (T & E & PT & IM').
  cbn [fst snd] in *. exists T. split; [exact E|]. split; [exact PT|]. intros psi KP CK. cbn [app hd] in CK.
  assert (zlen (map psi T) = zlen U) as LE by (rewrite E, !zlen_map; reflexivity).
  eapply window_intro with (seg := map psi seg0) (items := items) (hist := hist); try eassumption.
  - apply SG'.
  - rewrite LE. exact VT.
  - unfold checksum_field in *. destruct (f_ext f && Z.testbit ind 2); [|exact CF]. rewrite CK by reflexivity. exact CF.
  - rewrite LE. apply (IM' psi KP).
Qed.

Definition by_length (ok : list Z -> list Z -> Prop) : Prop :=
  forall p T p' T', zlen p = zlen p' -> zlen T = zlen T' -> ok p T -> ok p' T'.

Lemma windows_lift : forall t tl f D ok, by_length ok -> Forall P D -> forall prev0 ws parts, windows_marked t tl f (map phi D) ok prev0 ws parts ->
  forall prev, prev0 = map phi prev -> bytes_ok ws -> Forall P prev ->
  exists tts, parts = map (fun p => (fst p, map phi (snd p))) tts /\ Forall (fun p => Forall P (snd p)) tts /\
    forall psi, keeps_bytes psi -> Forall (fun p => fst p = true -> adler_sum 0 (map psi (snd p)) = adler_sum 0 (map phi (snd p))) tts ->
      windows_marked t tl f (map psi D) ok (map psi prev) ws (map (fun p => (fst p, map psi (snd p))) tts).
Proof.
  intros t tl f D ok BL PD prev0 ws parts H. induction H as [prev0|prev0 w T0 rest parts W OK H IH]; intros prev -> BW PP.
  - exists []. split; [reflexivity|]. split; [constructor|]. intros psi KP _. constructor.
  - apply bytes_ok_app in BW as [B1 B2]. destruct (window_lift _ _ _ _ _ _ W B1 PD PP) as (T & -> & PT & W').
    destruct (IH (prev ++ T)) as (tts & -> & PTS & IH'); [rewrite map_app; reflexivity|exact B2|apply Forall_app; auto|].
    exists ((f_ext f && Z.testbit (hd 0 w) 2, T) :: tts). split; [reflexivity|]. split; [constructor; [exact PT|exact PTS]|].
    intros psi KP F. inversion F as [|? ? F1 F2]; subst. cbn [map fst snd] in *. apply wm_cons.
    + apply W'; auto.
    + eapply BL; [| |exact OK]; rewrite !zlen_map; reflexivity.
    + rewrite <- map_app. apply IH'; auto.
Qed.
End Lift.

Lemma windows_marked_plain : forall t tl f D ok prev ws parts, windows_marked t tl f D ok prev ws parts ->
  windows t tl f D ok prev ws (prev ++ concat (map snd parts)).
Proof.
  intros t tl f D ok prev ws parts H. induction H as [prev|prev w T rest parts W OK H IH]; cbn [map concat snd].
  - rewrite app_nil_r. constructor.
  - econstructor; eauto. rewrite <- app_assoc in IH. exact IH.
Qed.
Lemma file_marked_plain : forall t tl al ok D delta parts, vcd_file_marked t tl al ok D delta parts -> vcd_file t tl al ok D delta (concat (map snd parts)).
Proof.
  intros t tl al ok D delta parts H. destruct H as [|h v tbl ns ss ws parts HD MF WS]; [constructor|].
  eapply file_intro; eauto. apply windows_marked_plain in WS. exact WS.
Qed.

(** Codes for origins: bytes for themselves, 256 + p for position p. *)
Definition codes (n : Z) : list Z := map (fun k => 256 + Z.of_nat k) (seq 0 (Z.to_nat n)).
Definition value (dict : list Z) (c : Z) : Z := if c <? 256 then c else nth (Z.to_nat (c - 256)) dict 0.
Definition origin_of (c : Z) : origin := if c <? 256 then Given c else At (c - 256).
Definition valid (n c : Z) : Prop := 0 <= c < 256 + n.

Lemma value_origin : forall dict c, byte_at dict (origin_of c) = value dict c.
Proof. intros dict c. unfold origin_of, value. destruct (c <? 256); reflexivity. Qed.
Lemma filled_value : forall dict l, filled dict (map origin_of l) = map (value dict) l.
Proof. intros dict l. unfold filled. rewrite map_map. apply map_ext. intros c. apply value_origin. Qed.
Lemma value_keeps : forall dict, keeps_bytes (value dict).
Proof. intros dict b B. unfold value, byte_ok in *. destruct (Z.ltb_spec b 256); lia. Qed.

Local Transparent zlen.
Lemma value_codes : forall dict n, zlen dict = n -> map (value dict) (codes n) = dict.
Proof.
  intros dict n <-. unfold codes, zlen. rewrite map_map, Nat2Z.id.
  transitivity (map (fun k => nth k dict 0) (seq 0 (length dict))).
  - apply map_ext. intros k. unfold value. destruct (Z.ltb_spec (256 + Z.of_nat k) 256); [lia|].
    replace (256 + Z.of_nat k - 256) with (Z.of_nat k) by lia. rewrite Nat2Z.id. reflexivity.
  - clear. induction dict as [|b l IH]; [reflexivity|]. cbn [length seq map nth]. f_equal. rewrite <- seq_shift, map_map. exact IH.
Qed.
Local Opaque zlen.

Lemma codes_valid : forall n, 0 <= n -> Forall (valid n) (codes n).
Proof.
  intros n N. apply Forall_forall. intros c H. unfold codes in H. apply in_map_iff in H as (k & <- & H). apply in_seq in H. unfold valid. lia.
Qed.
Lemma bytes_valid : forall n b, 0 <= n -> byte_ok b -> valid n b.
Proof. intros n b N B. unfold valid, byte_ok in *. lia. Qed.
Lemma valid_origin : forall n l, Forall (valid n) l -> Forall (origin_ok n) (map origin_of l).
Proof.
  intros n l F. apply Forall_map. eapply Forall_impl; [|exact F]. intros c V. unfold valid in V. unfold origin_of, origin_ok, byte_ok.
  destruct (Z.ltb_spec c 256); lia.
Qed.
