(** The writer against any other encoding of the same instructions. *)

From Verif Require Import Base ListFacts Spec SpecEncode SpecInstr SpecShort VarintFacts Varint AddrCache AddrCacheFacts Shortest CodeTable InstructionMap CodeTableFacts Adler AdlerFacts
  BodyFacts CopyFacts InstructionMapFacts EncodeTable WriterFacts Engine EngineFacts Encoder EncoderFacts Sound Properties_Encode Properties_Short Properties_Layout.
From Coq Require Import ZifyBool ZifyNat.

(** ** The addresses of the COPYs *)

Fixpoint addresses (l : list instruction) : list Z :=
  match l with [] => [] | Copy a _ :: tl => a :: addresses tl | _ :: tl => addresses tl end.

Lemma addresses_app : forall a b, addresses (a ++ b) = addresses a ++ addresses b.
Proof. induction a as [|[d|x n|n x] a IH]; intros b; cbn [addresses app]; rewrite ?IH; reflexivity. Qed.

Lemma half_hist : forall ns ss L seg h p s s' x, half_reads ns ss L seg h p s s' x -> fst s' = rev (addresses x) ++ fst s.
Proof. intros ns ss L seg h p s s' x H. destruct H; reflexivity. Qed.
Lemma items_hist : forall tbl ns ss L seg items s s' x, items_read tbl ns ss L seg items s s' x -> fst s' = rev (addresses x) ++ fst s.
Proof.
  intros tbl ns ss L seg items s s' x H. induction H as [s|i l s s1 s2 s3 x1 x2 x3 OB LT H1 H2 IM IH]; [reflexivity|].
  rewrite IH, (half_hist _ _ _ _ _ _ _ _ _ H2), (half_hist _ _ _ _ _ _ _ _ _ H1), !addresses_app, !rev_app_distr, <- !app_assoc. reflexivity.
Qed.

(** ** Opcodes *)

(** What the engine asks for: no RUN, no COPY of less than 19 bytes. *)
Definition long (i : instruction) : Prop :=
  match i with Add _ => True | Copy _ n => 19 <= n | Run _ _ => False end.

Definition pair_short : bool :=
  forallb (fun op => match rfc_table op with
    | (HAdd _, HNoop) | (HRun _, HNoop) => true
    | (HCopy k _, HNoop) => (0 <=? k) && (k <=? 18)
    | (HAdd _, HCopy k _) | (HCopy k _, HAdd _) => (0 <? k) && (k <=? 18)
    | _ => false
    end) opcodes.
Lemma pair_short_true : pair_short = true.
Proof. vm_compute. reflexivity. Qed.

Lemma size_code_small : forall k ps n, size_code k ps n -> 0 < k <= 18 -> n <= 18.
Proof. intros k ps n [(_ & _ & ->)|(-> & _)] K; lia. Qed.

Lemma long_single : forall op L seg p q s s1 s2 x1 x2, byte_ok op ->
  half_reads 4 3 L seg (fst (rfc_table op)) p s s1 x1 -> half_reads 4 3 L seg (snd (rfc_table op)) q s1 s2 x2 -> Forall long (x1 ++ x2) ->
  exists h i, rfc_table op = (h, HNoop) /\ x1 = [i] /\ x2 = [] /\ s2 = s1 /\ q = no_piece /\
    (match i with Copy _ n => exists m, h = HCopy 0 m /\ varint (p_size p) n | _ => True end).
Proof.
  intros op L seg p q s s1 s2 x1 x2 OB H1 H2 F. pose proof pair_short_true as P. unfold pair_short in P. rewrite forallb_forall in P.
  specialize (P op (in_opcodes op OB)). destruct (rfc_table op) as [h g]. cbn [fst snd] in *.
  apply Forall_app in F as [F1 F2].
  destruct h as [|k|k|k m|]; try discriminate; destruct g as [|k'|k'|k' m'|]; try discriminate; inversion H1; subst; inversion H2; subst;
    try (inversion F1; subst; inversion F2; subst); cbn [long] in *.
  - do 2 eexists. repeat split; reflexivity.
  - exfalso. match goal with X : size_code k' _ _ |- _ => apply size_code_small in X end; lia.
  - contradiction.
  - do 2 eexists. split; [reflexivity|]. split; [reflexivity|]. split; [reflexivity|]. split; [reflexivity|]. split; [reflexivity|].
    match goal with X : size_code k _ _ |- _ => destruct X as [(K1 & -> & ->)|(-> & V)] end; [lia|]. exists m. auto.
  - exfalso. match goal with X : size_code k _ _ |- _ => apply size_code_small in X end; lia.
Qed.

Lemma copy_opcode : forall m, 0 <= m <= 8 -> 0 <= 19 + 16 * m < 256 /\ rfc_table (19 + 16 * m) = (half_for 3 0 m, HNoop).
Proof.
  intros m M. split; [lia|]. unfold rfc_table, half_for.
  destruct (Z.eqb_spec (19 + 16 * m) 0); [lia|]. destruct (Z.leb_spec (19 + 16 * m) 18); [lia|]. destruct (Z.leb_spec (19 + 16 * m) 162); [|lia].
  assert (19 + 16 * m - 19 = m * 16) as -> by lia. rewrite Z.mod_mul, Z.div_mul by lia. reflexivity.
Qed.

(** ** One instruction *)

(** The sections of [w'] are those of [w] with at most [di], [dd] and [da] bytes more. *)
Definition within_growth (w w' : writer) (di dd da : Z) : Prop :=
  total w' <= total w + di + dd + da /\
  (wr_il w = false -> zlen (wr_inst w') <= zlen (wr_inst w) + di /\ zlen (wr_data w') <= zlen (wr_data w) + dd /\ zlen (wr_addr w') <= zlen (wr_addr w) + da).

Lemma call_short : forall w im seg ins items hist T L op h p s1 i w',
  make_map default_table default_last_mode = Some im -> wr_near w = 4 -> wr_same w = 3 ->
  winv w im seg ins items hist T -> good_instruction i -> long i ->
  byte_ok op -> rfc_table op = (h, HNoop) -> half_reads 4 3 L seg h p (hist, T) s1 [i] ->
  (match i with Copy _ n => exists m, h = HCopy 0 m /\ varint (p_size p) n | _ => True end) ->
  zlen seg + zlen (snd s1) <= int32_max -> writer_call w i = Some w' ->
  within_growth w w' (1 + zlen (p_size p)) (zlen (p_data p)) (zlen (p_addr p)).
Proof.
  intros w im seg ins items hist T L op h p s1 i w' MK WN WS W G LO OB EO HR CM LI E.
  pose proof (wi_cache _ _ _ _ _ _ _ W) as (WCA & WCN & WCS). pose proof (wi_len _ _ _ _ _ _ _ W) as WL. pose proof (wi_dict _ _ _ _ _ _ _ W) as WD.
  pose proof (wc_map _ _ (wi_cfg _ _ _ _ _ _ _ W)) as WM. pose proof (wi_bytes _ _ _ _ _ _ _ W) as (WB & _ & _).
  pose proof (zlen_nonneg _ seg). pose proof (zlen_nonneg _ T).
  destruct i as [d|a n|n b]; [| |contradiction]; inversion HR; subst; cbn [snd p_size p_data p_addr] in *; cbn [writer_call good_instruction long] in *.
  - rewrite zlen_app in LI. destruct G as [G1 G2]. unfold writer_add in E. destruct (encode_instruction w VCD_ADD (zlen d) 0) as [w1|] eqn:EI; [|discriminate].
    injection E as <-.
    destruct (C44_short_instruction im w VCD_ADD (zlen d) 0 w1 MK WM WB ltac:(unfold VCD_ADD; lia) ltac:(lia) ltac:(reflexivity) ltac:(unfold int32_max in *; lia) EI) as [SH _].
    specialize (SH op k ps OB EO ltac:(eassumption)).
    destruct (encode_instruction_ok w im seg ins items hist T VCD_ADD (zlen d) 0 W) as (w1' & EI' & CH); [unfold VCD_ADD; lia|lia|destruct (wi_cfg _ _ _ _ _ _ _ W); lia|].
    rewrite EI in EI'. injection EI' as <-. destruct (choice_keeps _ _ _ _ _ _ _ _ _ _ CH) as (K1 & K2 & K3 & _).
    destruct (cks_of_fields _ _ K1) as (_ & KI & _). rewrite zlen_nil.
    unfold within_growth, append_data, total. rewrite <- KI.
    destruct (wr_il w1); cbn [set_sections wr_inst wr_data wr_addr]; rewrite ?zlen_app, ?K2, ?K3; (split; [lia|intros NIL; first [discriminate NIL | lia]]).
  - destruct CM as (m0 & EH & VN). injection EH as -> <-.
    destruct (copy_bytewise_length _ _ _ _ _ ltac:(eassumption)) as (bs & -> & LB). rewrite zlen_app in LI.
    assert (zlen bs = n) as LB' by lia.
    match goal with X : addr_code _ _ _ _ _ _ _ |- _ => rename X into AC end.
    assert (0 <= a < zlen seg + zlen T) as AR by (inversion AC; subst; lia).
    unfold writer_copy in E. rewrite WM, WD, WL, to_int32_id in E by (unfold int32_max in *; lia).
    destruct (encode_address_ok (wr_cache w) hist a (zlen seg + zlen T) WCA) as (mode & e & c' & EA & MB & EB & _ & _ & CN & CS); [lia|lia|].
    pose proof (shortest_address (wr_cache w) hist a (zlen seg + zlen T) mode e c' WCA AR ltac:(lia) EA m pa) as SA.
    rewrite WCN, WCS, WN, WS in SA. specialize (SA AC).
    rewrite EA in E. cbv zeta in E. 
    assert (set_state w c' (zlen seg) (zlen T) (Some im) (wr_last w) = set_cache w c') as Q
      by (unfold set_cache; rewrite WD, WL, WM; reflexivity).
    rewrite Q in E. rewrite encode_instruction_cache in E. 
    destruct (encode_instruction w VCD_COPY n mode) as [w1|] eqn:EI; [|discriminate]. cbn [option_map] in E. injection E as <-.
    assert (0 <= mode <= 8) as M8.
    { destruct (encode_address_mode (wr_cache w) a (zlen seg + zlen T) mode e c' ltac:(lia) ltac:(lia) EA) as [X _]. exact X. }
    destruct (copy_opcode mode M8) as [OB2 EO2].
    destruct (C44_short_instruction im w VCD_COPY n mode w1 MK WM WB ltac:(unfold VCD_COPY; lia) M8 ltac:(unfold VCD_COPY; lia) ltac:(unfold int32_max in *; lia) EI) as [SH _].
    specialize (SH (19 + 16 * mode) 0 ps OB2 EO2 (or_intror (conj eq_refl VN))).
    destruct (encode_instruction_ok w im seg ins items hist T VCD_COPY n mode W) as (w1' & EI' & CH); [unfold VCD_COPY; lia|lia|destruct (wi_cfg _ _ _ _ _ _ _ W); lia|].
    rewrite EI in EI'. injection EI' as <-. destruct (choice_keeps _ _ _ _ _ _ _ _ _ _ CH) as (K1 & K2 & K3 & _).
    destruct (cks_of_fields _ _ K1) as (_ & KI & _). rewrite zlen_nil.
    rewrite (addr_bytes_eq (wr_cache w) c') by assumption.
    unfold within_growth, append_addr, total. rewrite <- KI. change (wr_il (set_cache w1 c')) with (wr_il w1).
    change (wr_inst (set_cache w1 c')) with (wr_inst w1). change (wr_data (set_cache w1 c')) with (wr_data w1). change (wr_addr (set_cache w1 c')) with (wr_addr w1).
    destruct (wr_il w1); cbn [set_sections wr_inst wr_data wr_addr]; rewrite ?zlen_app, ?K2, ?K3; (split; [lia|intros NIL; first [discriminate NIL | lia]]).
Qed.

(** ** All instructions *)

Lemma growth_trans : forall w w1 w2 a b c a' b' c', wr_il w1 = wr_il w -> within_growth w w1 a b c -> within_growth w1 w2 a' b' c' ->
  within_growth w w2 (a + a') (b + b') (c + c').
Proof.
  intros w w1 w2 a b c a' b' c' IL [A1 A2] [B1 B2]. split; [lia|]. intros NIL. specialize (A2 NIL). rewrite IL in B2. specialize (B2 NIL). lia.
Qed.

Lemma half_executes : forall ns ss L seg h p s s1 i, half_reads ns ss L seg h p s s1 [i] -> execute seg (snd s) i = Some (snd s1).
Proof.
  intros ns ss L seg h p s s1 i H. inversion H; subst; cbn [execute snd]; try reflexivity.
  match goal with X : addr_code _ _ _ _ _ _ _ |- _ => assert (0 <= a < zlen seg + zlen T) as AR by (inversion X; subst; lia) end.
  destruct (Z.leb_spec 0 a); [|lia]. destruct (Z.ltb_spec a (zlen seg + zlen T)); [|lia]. cbn [andb]. assumption.
Qed.

Lemma calls_short : forall L seg items' s s' l, items_read rfc_table 4 3 L seg items' s s' l ->
  forall w im ins items w', make_map default_table default_last_mode = Some im -> wr_near w = 4 -> wr_same w = 3 ->
  winv w im seg ins items (fst s) (snd s) -> Forall good_instruction l -> Forall long l -> zlen seg + zlen (snd s') <= int32_max ->
  writer_calls w l = Some w' ->
  within_growth w w' (zlen (concat (map item_inst items'))) (zlen (concat (map item_data items'))) (zlen (concat (map item_addr items'))).
Proof.
  intros L seg items' s s' l H. induction H as [s|i l s s1 s2 s3 x1 x2 x3 OB LT H1 H2 IM IH]; intros w im ins items w' MK WN WS W G F LI E.
  - cbn [writer_calls] in E. injection E as <-. cbn [map concat]. rewrite zlen_nil. split; [lia|]. intros _. lia.
  - rewrite app_assoc in G, F. apply Forall_app in G as [G1 G3]. apply Forall_app in F as [F1 F3].
    destruct (long_single _ _ _ _ _ _ _ _ _ _ OB H1 H2 F1) as (h & j & EO & -> & -> & -> & EQ & CM).
    cbn [app writer_calls] in E. destruct (writer_call w j) as [w1|] eqn:EC; [|discriminate].
    rewrite EO in H1. cbn [fst] in H1.
    cbn [app] in G1, F1. inversion G1; subst. inversion F1; subst.
    pose proof (items_mean_grow _ _ _ _ _ _ _ _ _ (items_read_means _ _ _ _ _ _ _ _ _ IM)) as GR.
    destruct s as [hist T]. cbn [fst snd] in W.
    destruct (writer_call_ok w im seg ins items hist T j (snd s1) W ltac:(assumption) (half_executes _ _ _ _ _ _ _ _ _ H1) ltac:(lia))
      as (w1' & items1 & hist1 & EC' & W1 & _ & KK & _).
    rewrite EC in EC'. injection EC' as <-.
    assert (hist1 = fst s1) as ->.
    { pose proof (items_hist _ _ _ _ _ _ _ _ _ (wi_mean _ _ _ _ _ _ _ W1 _ (Z.le_refl _))) as A.
      pose proof (items_hist _ _ _ _ _ _ _ _ _ (wi_mean _ _ _ _ _ _ _ W _ (Z.le_refl _))) as B.
      pose proof (half_hist _ _ _ _ _ _ _ _ _ H1) as C. cbn [fst] in A, B, C. rewrite app_nil_r in A, B.
      rewrite A, C, B, addresses_app, rev_app_distr. reflexivity. }
    destruct (cks_of_fields _ _ KK) as (KC & KI & KD). unfold cfg_of in KC. injection KC as _ _ _ KN KS _.
    specialize (IH w1 im (ins ++ [j]) items1 w' MK ltac:(congruence) ltac:(congruence) W1 G3 F3 LI E).
    pose proof (call_short w im seg ins items hist T L (i_op i) h (i_first i) s1 j w1 MK WN WS W ltac:(assumption) ltac:(assumption) OB EO H1 CM ltac:(lia) EC) as CS.
    pose proof (growth_trans _ _ _ _ _ _ _ _ _ KI CS IH) as GT. cbn [map concat]. rewrite !zlen_app.
    assert (zlen (item_inst i) = 1 + zlen (p_size (i_first i)) /\ zlen (item_data i) = zlen (p_data (i_first i)) /\ zlen (item_addr i) = zlen (p_addr (i_first i))) as (-> & -> & ->).
    { unfold item_inst, item_data, item_addr. rewrite EQ. cbn [no_piece p_size p_data p_addr]. rewrite !app_nil_r, zlen_app, zlen_cons, zlen_nil. lia. }
    exact GT.
Qed.

(** The three parts of all items. *)
Lemma items_len : forall l, zlen (concat (map item_bytes l)) =
  zlen (concat (map item_inst l)) + zlen (concat (map item_data l)) + zlen (concat (map item_addr l)).
Proof.
  induction l as [|i l IH]; [reflexivity|]. cbn [map concat]. rewrite !zlen_app, IH.
  unfold item_bytes, item_inst, item_data, item_addr, piece_bytes. rewrite !zlen_app. lia.
Qed.

Lemma items_read_same : forall t t' ns ss L seg items s s' l, same_table t t' ->
  items_read t ns ss L seg items s s' l -> items_read t' ns ss L seg items s s' l.
Proof.
  intros t t' ns ss L seg items s s' l S H. induction H as [s|i l s s1 s2 s3 x1 x2 x3 OB LT H1 H2 IM IH]; [constructor|].
  rewrite (S _ OB) in H1, H2. econstructor; eauto.
Qed.

(** ** The window *)

Lemma window_plain : forall w im dict ins items hist T,
  winv w im dict ins items hist T -> same_table (entry (wr_table w)) rfc_table -> wr_near w = 4 -> wr_same w = 3 ->
  (wr_has_cks w = true -> wr_cks w = adler_sum 0 T) ->
  zlen dict + zlen T <= int32_max -> total w <= 2147483600 ->
  plain_window (wr_il w) (wr_has_cks w) dict (window_bytes w) T ins.
Proof.
  intros w im dict ins items hist T W ST WNE WSA CK L TO.
  pose proof W as [WC WM WCA WS WD WL WLA (B1 & B2 & B3) WN].
  pose proof (zlen_nonneg _ T). pose proof (zlen_nonneg _ dict).
  pose proof (zlen_nonneg _ (wr_inst w)). pose proof (zlen_nonneg _ (wr_data w)). pose proof (zlen_nonneg _ (wr_addr w)).
  unfold total in TO.
  destruct (size_bytes_ok (wr_len w)) as (V1 & _ & VL1 & VE1); [lia|].
  destruct (size_bytes_ok (zlen (wr_data w))) as (V2 & _ & VL2 & VE2); [unfold int32_max; lia|].
  destruct (size_bytes_ok (zlen (wr_inst w))) as (V3 & _ & VL3 & VE3); [unfold int32_max; lia|].
  destruct (size_bytes_ok (zlen (wr_addr w))) as (V4 & _ & VL4 & VE4); [unfold int32_max; lia|].
  destruct (size_bytes_ok (zlen dict)) as (V5 & _); [lia|].
  destruct (size_bytes_ok 0) as (V6 & _); [unfold int32_max; lia|].
  set (bck := if wr_has_cks w then encode_bytes I64 (wr_cks w) else []).
  assert (zlen bck <= 10 /\ zlen bck = (if wr_has_cks w then varint_length (wr_cks w) else 0) /\
          (if wr_has_cks w then varint bck (adler_sum 0 T) else bck = [])) as (KL & KE & KF).
  { unfold bck. destruct (wr_has_cks w).
    - rewrite CK by reflexivity. destruct (cks_bytes_ok (adler_sum 0 T) (adler_sum_range 0 T)) as (U1 & _ & U3 & U4).
      split; [lia|]. split; [auto|exact U1].
    - rewrite zlen_nil. split; [lia|]. auto. }
  set (body := if wr_il w then concat (map item_bytes items) else concat (map item_data items) ++ concat (map item_inst items) ++ concat (map item_addr items)).
  assert (wr_data w ++ wr_inst w ++ wr_addr w = body /\
    zlen (wr_data w) = (if wr_il w then 0 else zlen (concat (map item_data items))) /\
    zlen (wr_inst w) = (if wr_il w then zlen body else zlen (concat (map item_inst items))) /\
    zlen (wr_addr w) = (if wr_il w then 0 else zlen (concat (map item_addr items)))) as (EB & E1 & E2 & E3).
  { unfold body. unfold wsec, items_sec in WS. destruct (wr_il w); injection WS as -> -> ->; cbn [app]; rewrite ?app_nil_r; auto. }
  assert (window_bytes w = [if wr_has_cks w then 5 else 1] ++ size_bytes (zlen dict) ++ size_bytes 0 ++ size_bytes (delta_length w) ++
    size_bytes (wr_len w) ++ [0] ++ size_bytes (zlen (wr_data w)) ++ size_bytes (zlen (wr_inst w)) ++ size_bytes (zlen (wr_addr w)) ++ bck ++ body) as ->
    by (unfold window_bytes; rewrite WD, <- EB; reflexivity).
  assert (zlen body = zlen (wr_data w) + zlen (wr_inst w) + zlen (wr_addr w)) as LB by (rewrite <- EB, !zlen_app; lia).
  apply (plain_window_intro (wr_il w) (wr_has_cks w) dict _ _ _ _ _ _ _ _ items hist T ins); fold body.
  - exact V5.
  - exact V6.
  - assert (delta_length w = zlen (size_bytes (wr_len w) ++ [0] ++ size_bytes (zlen (wr_data w)) ++ size_bytes (zlen (wr_inst w)) ++ size_bytes (zlen (wr_addr w)) ++ bck ++ body)) as <-.
    { unfold delta_length. zl. rewrite VE1, VE2, VE3, VE4, KE, LB. lia. }
    apply size_bytes_ok. unfold delta_length. rewrite VE1, VE2, VE3, VE4, <- KE. pose proof (zlen_nonneg _ bck). unfold int32_max. lia.
  - rewrite <- WL. exact V1.
  - rewrite <- E1. exact V2.
  - rewrite <- E2. exact V3.
  - rewrite <- E3. exact V4.
  - exact KF.
  - rewrite <- WNE, <- WSA at 1. eapply items_read_same; [exact ST|]. apply WM. lia.
Qed.

Lemma window_shortest : forall w im dict ins items hist T out',
  winv w im dict ins items hist T -> (wr_has_cks w = true -> wr_cks w = adler_sum 0 T) ->
  zlen dict + zlen T <= int32_max -> total w <= 2147483600 ->
  (forall items' hist', items_read rfc_table 4 3 (zlen T) dict items' ([], []) (hist', T) ins ->
     total w <= zlen (concat (map item_inst items')) + zlen (concat (map item_data items')) + zlen (concat (map item_addr items')) /\
     (wr_il w = false -> zlen (wr_inst w) <= zlen (concat (map item_inst items')) /\ zlen (wr_data w) <= zlen (concat (map item_data items')) /\
        zlen (wr_addr w) <= zlen (concat (map item_addr items')))) ->
  plain_window (wr_il w) (wr_has_cks w) dict out' T ins -> zlen (window_bytes w) <= zlen out'.
Proof.
  intros w im dict ins items hist T out' W CK L TO MIN PW.
  pose proof (wi_sec _ _ _ _ _ _ _ W) as WS. unfold wsec, items_sec in WS.
  pose proof (wi_dict _ _ _ _ _ _ _ W) as WD. pose proof (wi_len _ _ _ _ _ _ _ W) as WL.
  pose proof (zlen_nonneg _ T). pose proof (zlen_nonneg _ dict).
  pose proof (zlen_nonneg _ (wr_inst w)). pose proof (zlen_nonneg _ (wr_data w)). pose proof (zlen_nonneg _ (wr_addr w)).
  unfold total in TO.
  assert (forall n p v, 0 <= n <= int32_max -> varint p v -> n <= v -> zlen (size_bytes n) <= zlen p) as SB.
  { intros n p v N V LE. destruct (Properties_Layout.size_bytes_shortest n N) as [S1 S2]. exact (canonical_mono _ _ _ _ S1 V S2 LE). }
  destruct (size_bytes_ok (wr_len w)) as (_ & _ & VL1 & VE1); [lia|].
  destruct (size_bytes_ok (zlen (wr_data w))) as (_ & _ & VL2 & VE2); [unfold int32_max; lia|].
  destruct (size_bytes_ok (zlen (wr_inst w))) as (_ & _ & VL3 & VE3); [unfold int32_max; lia|].
  destruct (size_bytes_ok (zlen (wr_addr w))) as (_ & _ & VL4 & VE4); [unfold int32_max; lia|].
  inversion PW as [bs bp bd bt bnd bni bna bck items' hist' T' l' data inst addr body rest V1 V2 V3 V4 V5 V6 V7 V8 IR E1 E2 E3]. subst T' l'. clear E1.
  destruct (MIN items' hist' IR) as [M1 M2]. unfold total in M1.
  set (bc := if wr_has_cks w then encode_bytes I64 (wr_cks w) else []).
  assert (zlen bc <= 10 /\ zlen bc = (if wr_has_cks w then varint_length (wr_cks w) else 0) /\ zlen bc <= zlen bck) as (KL & KE & KF).
  { unfold bc. destruct (wr_has_cks w).
    - rewrite CK by reflexivity. destruct (cks_bytes_ok (adler_sum 0 T) (adler_sum_range 0 T)) as (_ & _ & U3 & U4).
      split; [lia|]. split; [auto|]. destruct (sum_bytes_shortest (adler_sum 0 T) (adler_sum_range 0 T)) as [S1 S2].
      exact (canonical_mono _ _ _ _ S1 V8 S2 (Z.le_refl _)).
    - rewrite zlen_nil. pose proof (zlen_nonneg _ bck). split; [lia|]. auto. }
  assert (zlen (size_bytes (zlen dict)) <= zlen bs) as A1 by (eapply SB; [|exact V1|]; lia).
  assert (zlen (size_bytes 0) <= zlen bp) as A2 by (eapply SB; [|exact V2|]; unfold int32_max; lia).
  assert (zlen (size_bytes (wr_len w)) <= zlen bt) as A3 by (eapply SB; [|exact V4|]; lia).
  assert (zlen (wr_data w) + zlen (wr_inst w) + zlen (wr_addr w) <= zlen body /\
    zlen (size_bytes (zlen (wr_data w))) <= zlen bnd /\ zlen (size_bytes (zlen (wr_inst w))) <= zlen bni /\ zlen (size_bytes (zlen (wr_addr w))) <= zlen bna) as (A4 & A5 & A6 & A7).
  { unfold body. clear V3 rest. destruct (wr_il w).
    - injection WS as W1 W2 W3. unfold body in V6. rewrite items_len in *. rewrite W2, W3, zlen_nil in *.
      split; [lia|]. split; [eapply SB; [|exact V5|]; unfold int32_max; lia|]. split; [eapply SB; [|exact V6|]; unfold int32_max; lia|].
      eapply SB; [|exact V7|]; unfold int32_max; lia.
    - destruct (M2 eq_refl) as (M3 & M4 & M5). unfold data, inst, addr in *. rewrite !zlen_app.
      split; [lia|]. split; [eapply SB; [|exact V5|]; unfold int32_max; lia|]. split; [eapply SB; [|exact V6|]; unfold int32_max; lia|].
      eapply SB; [|exact V7|]; unfold int32_max; lia. }
  assert (delta_length w <= zlen rest) as A8.
  { unfold delta_length, rest. rewrite !zlen_app, zlen_cons, zlen_nil. rewrite VE1, VE2, VE3, VE4, <- KE. lia. }
  assert (0 <= delta_length w) as A9.
  { unfold delta_length. rewrite VE1, VE2, VE3, VE4, <- KE. pose proof (zlen_nonneg _ bc). lia. }
  assert (zlen (size_bytes (delta_length w)) <= zlen bd) as A10.
  { eapply SB; [|exact V3|exact A8]. split; [exact A9|]. unfold delta_length, int32_max. rewrite VE1, VE2, VE3, VE4, <- KE. lia. }
  assert (zlen (size_bytes (wr_len w) ++ [0] ++ size_bytes (zlen (wr_data w)) ++ size_bytes (zlen (wr_inst w)) ++ size_bytes (zlen (wr_addr w)) ++ bc ++ wr_data w ++ wr_inst w ++ wr_addr w) <= zlen rest) as A11.
  { unfold rest. rewrite !zlen_app. lia. }
  unfold window_bytes. fold bc. rewrite WD. clearbody rest. rewrite !zlen_app in *. rewrite !zlen_cons, zlen_nil in *. lia.
Qed.
