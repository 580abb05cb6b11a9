(** A call that succeeds has output all that its input determines. *)

From Verif Require Import Base ListFacts Spec SpecBegun Varint VarintFacts AddrCache AddrCacheFacts CodeTable CodeTableFacts
  InstructionMap DecodeTable HeaderParser Adler AdlerFacts Decoder CopyFacts BodyFacts BodyExt WindowExt
  WindowHeader WindowStep WindowFacts Refine Totals Abstract FileHeader Chunk Sim Stream Session Reuse Usable Sound Complete Truncate Unique Files SpecParts
  Output OutputFacts Chunked OutputCalls Count Kept BegunFacts FailedFacts.
From Coq Require Import ZifyBool ZifyNat.

(** ** Numbers *)

Lemma parse_loop_ends : forall t p r acc b, In b p -> b < 128 -> parse_loop t acc (p ++ r) <> Eod.
Proof.
  intros t p r. induction p as [|x p IH]; intros acc b I L; [destruct I|]. cbn [parse_loop app].
  destruct (Z.ltb_spec x 128); [discriminate|]. destruct (_ <? _); [discriminate|].
  destruct I as [->|I]; [lia|]. eapply IH; eauto.
Qed.

Lemma parse_not_eod : forall t p v r, varint p v -> parse t (p ++ r) <> Eod.
Proof.
  intros t p v r ((i & b & -> & _ & L) & _). unfold parse. apply parse_loop_ends with (b := b); [|lia].
  apply in_or_app. right. left. reflexivity.
Qed.

Lemma parse_cases : forall t p v r, type_ok t -> bytes_ok (p ++ r) -> varint p v -> parse t (p ++ r) = Ok (v, r) \/ parse t (p ++ r) = Err.
Proof.
  intros t p v r TO B V. pose proof (parse_not_eod t p v r V) as N. destruct (parse t (p ++ r)) as [[v' r']| | |] eqn:E; auto.
  - left. destruct (parse_inv t _ _ _ TO B E) as (p' & E' & V' & _). destruct (varint_inj _ _ _ _ _ _ V V' E') as (_ & -> & ->). reflexivity.
  - congruence.
  - destruct (parse_not_ub _ _ E).
Qed.

(** ** Instructions *)

Lemma decode_address_not_eod : forall c hist here here' mode pa a r, near_size c + same_size c <= 254 -> 0 <= near_size c -> 0 <= same_size c ->
  addr_code (near_size c) (same_size c) hist here' mode pa a -> decode_address c here mode (pa ++ r) <> Eod.
Proof.
  intros c hist here here' mode pa a r S N0 S0 A. unfold decode_address. destruct (here <? 0); [discriminate|].
  assert (forall (x : Z) (rest : list Z), (if decoded_address_valid x here then match update_cache c x with Some c' => Ok (x, rest, c') | None => UB end else Err) <> Eod) as FIN.
  { intros x rest. destruct (decoded_address_valid x here); [|discriminate]. destruct (update_cache c x); discriminate. }
  cbv zeta.
  assert ((exists e, varint pa e) \/ (exists b, pa = [b]) /\ is_same_mode c mode = true) as AL.
  { inversion A; subst; eauto. right. split; [eauto|]. unfold is_same_mode, last_mode, first_same_mode, to_uchar.
    destruct (Z.eq_dec (near_size c) 254); [lia|].
    rewrite !(Z.mod_small (2 + near_size c)) by lia. rewrite Z.mod_small by lia. lia. }
  destruct (pa ++ r) as [|b tl] eqn:EL.
  { destruct AL as [(e & (i & x & -> & _) & _)|((b & ->) & _)]; [|discriminate EL].
    apply app_eq_nil in EL as [EL _]. destruct i; discriminate EL. }
  destruct (is_same_mode c mode) eqn:SM.
  { destruct (get _ _); [apply FIN|discriminate]. }
  destruct AL as [(e & V)|(_ & X)]; [|discriminate X].
  pose proof (parse_not_eod I32 pa e r V) as NE. rewrite EL in NE.
  destruct (parse I32 (b :: tl)) as [[x rest]| | |]; try congruence; try discriminate.
  destruct (mode =? 0); [apply FIN|]. destruct (mode =? 1); [apply FIN|]. destruct (is_near_mode c mode); [|discriminate].
  destruct (get _ _); [apply FIN|discriminate].
Qed.

Definition fits (ca : cache) : Prop := near_size ca + same_size ca <= 254 /\ 0 <= near_size ca /\ 0 <= same_size ca.

Lemma exec_not_eod : forall dict w start st sx hist T seg ty k mode ps pd pa n s1 r, b_il st = true -> fits (b_cache st) -> ty <> VCD_NOOP ->
  size_code k ps n -> half_means (near_size (b_cache st)) (same_size (b_cache st)) (w_len w) seg (half_of ty k mode) {| p_size := ps; p_data := pd; p_addr := pa |} (hist, T) s1 ->
  b_inst st = pd ++ pa ++ r -> decode_instruction dict w start st ty n mode <> XEod sx.
Proof.
  intros dict w start st sx hist T seg ty k mode ps pd pa n s1 r IL (F1 & F2 & F3) NN SC HM EI. unfold half_of in HM. unfold decode_instruction, VCD_ADD, VCD_RUN, VCD_COPY.
  destruct (Z.eqb_spec ty 0) as [|NZ]; [contradiction|].
  destruct (Z.eqb_spec ty 1) as [->|NA]; [|destruct (Z.eqb_spec ty 2) as [->|NR]; [|destruct (Z.eqb_spec ty 3) as [->|NC]]].
  - inversion HM; subst. assert (n = zlen pd) as -> by (eapply size_code_fun; eauto).
    unfold decode_add, data_of. rewrite IL, EI.
    destruct (Z.ltb_spec (zlen (pd ++ [] ++ r)) (zlen pd)) as [L|L]; [cbn [app] in L; rewrite zlen_app in L; pose proof (zlen_nonneg _ r); lia|].
    destruct (append_target _ _ _); discriminate.
  - inversion HM; subst. unfold decode_run, data_of. rewrite IL, EI. cbn [app]. destruct (append_target _ _ _); discriminate.
  - inversion HM; subst. unfold decode_copy, addr_of. rewrite IL, EI. cbn [app].
    match goal with A : addr_code _ _ _ _ _ _ _ |- _ => pose proof (decode_address_not_eod _ _ (to_int32 (w_seglen w + (zlen (b_target st) - start))) _ _ _ _ r F1 F2 F3 A) as DA end.
    destruct (decode_address _ _ _ _) as [[[x rest] c']| | |]; try discriminate; [|congruence]. destruct (copy_bytes _ _ _ _ _ _); discriminate.
  - discriminate.
Qed.

(** One instruction whose bytes are all there. *)
Lemma step_prompt : forall f dict t w prev seg st hist T st' ty k mode p' p r s1,
  table_ok t -> binv dict t w prev seg st hist T -> b_il st = true -> fits (b_cache st) -> ty <> VCD_NOOP ->
  found t (b_pending st) (b_inst st) ty k mode p' (piece_bytes p ++ r) -> pending_ok t p' -> bytes_ok (piece_bytes p ++ r) ->
  half_means (near_size (b_cache st)) (same_size (b_cache st)) (w_len w) seg (half_of ty k mode) p (hist, T) s1 -> zlen (snd s1) <= w_len w ->
  (mode < 256 /\ 0 <= mode) ->
  body_loop (S f) dict t w (zlen prev) st = XEod st' ->
  exists st2, body_loop f dict t w (zlen prev) st2 = XEod st' /\ binv dict t w prev seg st2 (fst s1) (snd s1) /\ b_inst st2 = r /\
    b_il st2 = true /\ b_pending st2 = p' /\ near_size (b_cache st2) = near_size (b_cache st) /\ same_size (b_cache st2) = same_size (b_cache st).
Proof.
  intros f dict t w prev seg st hist T st' ty k mode p' p r s1 TO BI IL FT NN F PO BB HM ZL MM H.
  destruct (half_means_size _ _ _ _ _ _ _ _ _ _ _ HM NN) as (n & SC & Z1 & LT).
  destruct (binv_lens _ _ _ _ _ _ _ _ BI) as (TL & SL & SN).
  pose proof (size_code_nonneg _ _ _ SC) as N0. pose proof (zlen_nonneg _ T) as T0. pose proof (bi_wlen _ _ _ _ _ _ _ _ BI) as WL.
  destruct p as [ps pd pa]. cbn [p_size] in SC. unfold piece_bytes in F, BB. cbn [p_size p_data p_addr] in F, BB. rewrite <- !app_assoc in F, BB.
  cbn [body_loop] in H. rewrite TL in H. replace (zlen prev + zlen T - zlen prev) with (zlen T) in H by lia.
  destruct (Z.ltb_spec (zlen T) (w_len w)) as [_|]; [|lia].
  rewrite (gni_complete _ _ _ _ _ _ _ _ _ _ F SC ltac:(lia)) in H.
  destruct ((w_len w <? n) || (w_len w <? n + zlen T)) eqn:CK; [discriminate|].
  apply bytes_ok_app in BB as [_ BR].
  assert (binv dict t w prev seg (with_inst st p' (pd ++ pa ++ r)) hist T) as BI1 by (apply binv_with_inst; auto).
  pose proof (exec_sound dict t w prev seg _ hist T ty n mode BI1 ltac:(lia) ltac:(lia) ltac:(intros; lia)) as E.
  pose proof (fun sx => exec_not_eod dict w (zlen prev) (with_inst st p' (pd ++ pa ++ r)) sx hist T seg ty k mode ps pd pa n s1 r IL FT NN SC HM eq_refl) as NE.
  destruct (decode_instruction dict w (zlen prev) (with_inst st p' (pd ++ pa ++ r)) ty n mode) as [st2|sx| | |] eqn:DI; try discriminate; [|destruct (NE sx eq_refl)].
  destruct E as (pd' & pa' & h2 & T2 & (A1 & A2 & A3 & A4) & SE & BI2 & TL2 & HM').
  specialize (HM' k ps SC LT). cbn [with_inst b_il b_cache b_pending] in *. rewrite IL in *.
  unfold sec in SE. cbn [with_inst b_inst b_data b_addr app3] in SE. injection SE as S1 _ _.
  destruct (half_bytes_inj _ _ _ _ _ _ _ _ _ _ r (b_inst st2) (proj1 (proj2 FT)) HM HM') as (EP & -> & ER).
  { unfold piece_bytes. cbn [p_size p_data p_addr]. rewrite <- !app_assoc. f_equal. rewrite S1, <- !app_assoc. reflexivity. }
  exists st2. cbn [fst snd]. auto 10.
Qed.

(** ** The body of a window *)

Definition behind (prev : list Z) (st' : body) (T : list Z) : Prop := exists c, b_target st' = prev ++ T ++ c.

Lemma body_loop_grow : forall f dict t w prev seg st hist T st', table_ok t -> binv dict t w prev seg st hist T ->
  body_loop f dict t w (zlen prev) st = XEod st' -> behind prev st' T.
Proof.
  intros f dict t w prev seg st hist T st' TO BI H. destruct (body_loop_eod _ _ _ _ _ _ _ _ _ _ TO BI H) as (h & bs & BI' & _).
  exists bs. apply BI'.
Qed.

Lemma half_noop_inv : forall ns ss L seg p s s1, half_means ns ss L seg HNoop p s s1 -> p = no_piece /\ s1 = s.
Proof. intros ns ss L seg p s s1 H. inversion H; subst. auto. Qed.

(** The opcodes without an instruction at the beginning. *)
Lemma begins_split : forall t ns ss L seg b s s', begins (entry t) ns ss L seg b s s' ->
  exists nops b1, b = nops ++ b1 /\ Forall (is_nop t) nops /\
    (snd s' = snd s \/
     (exists op p, b1 = op :: piece_bytes p /\ byte_ok op /\ tget (inst1 t) op <> VCD_NOOP /\
        half_means ns ss L seg (fst (entry t op)) p s s') \/
     (exists op p q rest s1 s2, b1 = op :: piece_bytes p ++ piece_bytes q ++ rest /\ byte_ok op /\
        ~ (tget (inst1 t) op = VCD_NOOP /\ tget (inst2 t) op = VCD_NOOP) /\
        half_means ns ss L seg (fst (entry t op)) p s s1 /\ half_means ns ss L seg (snd (entry t op)) q s1 s2 /\
        begins (entry t) ns ss L seg rest s2 s')).
Proof.
  intros t ns ss L seg b s s' H. induction H as [s|op p s s' BO LT H|op p q rest s s1 s2 s3 BO LT H1 H2 R IH].
  - exists [], []. split; [reflexivity|]. split; [constructor|]. left. reflexivity.
  - exists [], (op :: piece_bytes p). split; [reflexivity|]. split; [constructor|].
    destruct (Z.eq_dec (tget (inst1 t) op) VCD_NOOP) as [N|N].
    + left. unfold entry in H. cbn [fst] in H. rewrite N, half_of_noop in H. apply half_noop_inv in H as [_ ->]. reflexivity.
    + right. left. exists op, p. auto.
  - destruct (Z.eq_dec (tget (inst1 t) op) VCD_NOOP) as [N1|N1]; [destruct (Z.eq_dec (tget (inst2 t) op) VCD_NOOP) as [N2|N2]|].
    + unfold entry in H1, H2. cbn [fst snd] in H1, H2. rewrite N1, half_of_noop in H1. rewrite N2, half_of_noop in H2.
      apply half_noop_inv in H1 as [-> ->]. apply half_noop_inv in H2 as [-> ->].
      destruct IH as (nops & b1 & -> & FN & ALT). exists (op :: nops), b1. split; [reflexivity|]. split; [|exact ALT].
      constructor; [|exact FN]. split; [exact BO|]. split; auto.
    + exists [], ([op] ++ piece_bytes p ++ piece_bytes q ++ rest). split; [reflexivity|]. split; [constructor|]. right. right.
      exists op, p, q, rest, s1, s2. split; [reflexivity|]. split; [exact BO|]. split; [tauto|]. auto.
    + exists [], ([op] ++ piece_bytes p ++ piece_bytes q ++ rest). split; [reflexivity|]. split; [constructor|]. right. right.
      exists op, p, q, rest, s1, s2. split; [reflexivity|]. split; [exact BO|]. split; [tauto|]. auto.
Qed.

Lemma body_loop_prompt : forall f dict t w prev seg st hist T st',
  table_ok t -> binv dict t w prev seg st hist T -> b_il st = true -> fits (b_cache st) ->
  body_loop f dict t w (zlen prev) st = XEod st' ->
  forall s' b y, zlen (snd s') <= w_len w ->
    match b_pending st with
    | None => begins (entry t) (near_size (b_cache st)) (same_size (b_cache st)) (w_len w) seg b (hist, T) s' ->
        b_inst st = b ++ y -> behind prev st' (snd s')
    | Some op => forall p s1,
        half_means (near_size (b_cache st)) (same_size (b_cache st)) (w_len w) seg (snd (entry t op)) p (hist, T) s1 ->
        begins (entry t) (near_size (b_cache st)) (same_size (b_cache st)) (w_len w) seg b s1 s' ->
        b_inst st = piece_bytes p ++ b ++ y -> behind prev st' (snd s')
    end.
Proof.
  induction f as [|f IH]; intros dict t w prev seg st hist T st' TO BI IL FT H s' b y ZL.
  { cbn [body_loop] in H. destruct (_ <? _) in H; discriminate. }
  pose proof (bi_pending _ _ _ _ _ _ _ _ BI) as PP. pose proof (bi_binst _ _ _ _ _ _ _ _ BI) as BIN.
  assert (forall op, byte_ok op -> 0 <= tget (mode1 t) op < 256 /\ 0 <= tget (mode2 t) op < 256) as MR.
  { intros op OB. destruct TO as (_ & _ & _ & _ & T1 & T2). split; apply tget_range; auto. }
  assert (forall st2 s1, near_size (b_cache st2) = near_size (b_cache st) -> same_size (b_cache st2) = same_size (b_cache st) -> b_il st2 = true ->
    binv dict t w prev seg st2 (fst s1) (snd s1) -> body_loop f dict t w (zlen prev) st2 = XEod st' ->
    forall bb yy, match b_pending st2 with
    | None => begins (entry t) (near_size (b_cache st)) (same_size (b_cache st)) (w_len w) seg bb s1 s' -> b_inst st2 = bb ++ yy -> behind prev st' (snd s')
    | Some op => forall p s2, half_means (near_size (b_cache st)) (same_size (b_cache st)) (w_len w) seg (snd (entry t op)) p s1 s2 ->
        begins (entry t) (near_size (b_cache st)) (same_size (b_cache st)) (w_len w) seg bb s2 s' ->
        b_inst st2 = piece_bytes p ++ bb ++ yy -> behind prev st' (snd s')
    end) as NEXT.
  { intros st2 s1 N1 N2 IL2 BI2 B2 bb yy. assert (fits (b_cache st2)) as FT2 by (unfold fits in *; rewrite N1, N2; exact FT).
    pose proof (IH dict t w prev seg st2 (fst s1) (snd s1) st' TO BI2 IL2 FT2 B2 s' bb yy ZL) as X. rewrite N1, N2, <- surjective_pairing in X. exact X. }
  destruct (b_pending st) as [op|] eqn:PE.
  - intros p s1 HM BG EI. destruct PP as [OB N2].
    assert (zlen (snd s1) <= w_len w) as ZL1 by (destruct (begins_grow _ _ _ _ _ _ _ _ BG) as (c & E); rewrite E, zlen_app in ZL; pose proof (zlen_nonneg _ c); lia).
    destruct (step_prompt f dict t w prev seg st hist T st' (tget (inst2 t) op) (tget (size2 t) op) (tget (mode2 t) op) None p (b ++ y) s1)
      as (st2 & B2 & BI2 & EI2 & IL2 & PE2 & A3 & A4); auto.
    { rewrite PE, EI. apply found_pending; auto. }
    { exact Logic.I. }
    { rewrite <- EI. exact BIN. }
    { destruct (MR op OB). lia. }
    pose proof (NEXT st2 s1 A3 A4 IL2 BI2 B2 b y) as X. rewrite PE2 in X. auto.
  - intros BG EI. destruct (begins_split _ _ _ _ _ _ _ _ BG) as (nops & b1 & -> & FN & ALT).
    destruct ALT as [->|[(op & p & -> & OB & N1 & HM)|(op & p & q & rest & s1 & s2 & -> & OB & NN & H1 & H2 & BR)]].
    + eapply body_loop_grow; eauto.
    + destruct (step_prompt f dict t w prev seg st hist T st' (tget (inst1 t) op) (tget (size1 t) op) (tget (mode1 t) op)
        (if tget (inst2 t) op =? VCD_NOOP then None else Some op) p y s') as (st2 & B2 & BI2 & EI2 & IL2 & PE2 & A3 & A4); auto.
      { rewrite PE, EI, <- app_assoc. cbn [app]. apply found_first; auto. }
      { destruct (Z.eqb_spec (tget (inst2 t) op) VCD_NOOP); cbn; auto. }
      { rewrite EI, <- app_assoc in BIN. apply bytes_ok_app in BIN as [_ BIN]. cbn [app] in BIN. apply bytes_ok_cons in BIN. tauto. }
      { destruct (MR op OB). lia. }
      eapply body_loop_grow; eauto.
    + assert (zlen (snd s2) <= w_len w) as ZL2 by (destruct (begins_grow _ _ _ _ _ _ _ _ BR) as (c & E); rewrite E, zlen_app in ZL; pose proof (zlen_nonneg _ c); lia).
      assert (zlen (snd s1) <= w_len w) as ZL1 by (destruct (half_grow _ _ _ _ _ _ _ _ H2) as (c & E); rewrite E, zlen_app in ZL2; pose proof (zlen_nonneg _ c); lia).
      assert (bytes_ok (piece_bytes p ++ piece_bytes q ++ rest ++ y)) as BB.
      { rewrite EI, <- app_assoc in BIN. apply bytes_ok_app in BIN as [_ BIN]. cbn [app] in BIN. apply bytes_ok_cons in BIN. rewrite <- !app_assoc in BIN. tauto. }
      destruct (Z.eq_dec (tget (inst1 t) op) VCD_NOOP) as [N1|N1].
      * unfold entry in H1. cbn [fst] in H1. rewrite N1, half_of_noop in H1. apply half_noop_inv in H1 as [-> ->].
        assert (tget (inst2 t) op <> VCD_NOOP) as N2 by tauto. change (piece_bytes no_piece) with (@nil Z) in *; cbn [app] in *.
        destruct (step_prompt f dict t w prev seg st hist T st' (tget (inst2 t) op) (tget (size2 t) op) (tget (mode2 t) op) None q (rest ++ y) s2)
          as (st2 & B2 & BI2 & EI2 & IL2 & PE2 & A3 & A4); auto.
        { rewrite PE, EI, <- app_assoc. cbn [app]. rewrite <- app_assoc. apply found_second; auto. }
        { destruct (MR op OB). lia. }
        pose proof (NEXT st2 s2 A3 A4 IL2 BI2 B2 rest y) as X. rewrite PE2 in X. auto.
      * destruct (step_prompt f dict t w prev seg st hist T st' (tget (inst1 t) op) (tget (size1 t) op) (tget (mode1 t) op)
          (if tget (inst2 t) op =? VCD_NOOP then None else Some op) p (piece_bytes q ++ rest ++ y) s1) as (st2 & B2 & BI2 & EI2 & IL2 & PE2 & A3 & A4); auto.
        { rewrite PE, EI, <- app_assoc. cbn [app]. rewrite <- !app_assoc. apply found_first; auto. }
        { destruct (Z.eqb_spec (tget (inst2 t) op) VCD_NOOP); cbn; auto. }
        { destruct (MR op OB). lia. }
        destruct (Z.eqb_spec (tget (inst2 t) op) VCD_NOOP) as [N2|N2].
        -- unfold entry in H2. cbn [snd] in H2. rewrite N2, half_of_noop in H2. apply half_noop_inv in H2 as [-> ->]. change (piece_bytes no_piece) with (@nil Z) in *; cbn [app] in *.
           pose proof (NEXT st2 s1 A3 A4 IL2 BI2 B2 rest y) as X. rewrite PE2 in X. auto.
        -- pose proof (NEXT st2 s1 A3 A4 IL2 BI2 B2 rest y) as X. rewrite PE2 in X. eauto.
Qed.

(** ** The header of a window *)

Lemma checksum_field_bytes : forall f ind b T, checksum_field f ind b T -> exists o, checksum_bytes (f_ext f) ind b o.
Proof.
  intros f ind b T H. unfold checksum_field, checksum_bytes in *. destruct (f_ext f && Z.testbit ind 2); eauto.
Qed.

(** The fields of a window up to its body. *)
Definition opened (f : format) (dict prev w : list Z) (seg : list Z) (L nd ni na : Z) (body : list Z) : Prop :=
  exists ind sb bd dl bt di bnd bni bna bcks o, w = [ind] ++ sb ++ bd ++ bt ++ [di] ++ bnd ++ bni ++ bna ++ bcks ++ body /\
    segment f dict prev ind sb seg /\ varint bd dl /\ varint bt L /\ varint bnd nd /\ varint bni ni /\ varint bna na /\
    checksum_bytes (f_ext f) ind bcks o.

Lemma opened_app : forall f dict prev w seg L nd ni na body y, opened f dict prev w seg L nd ni na body -> opened f dict prev (w ++ y) seg L nd ni na (body ++ y).
Proof.
  intros f dict prev w seg L nd ni na body y (ind & sb & bd & dl & bt & di & bnd & bni & bna & bcks & o & -> & R).
  exists ind, sb, bd, dl, bt, di, bnd, bni, bna, bcks, o. split; [|exact R]. rewrite <- !app_assoc. reflexivity.
Qed.

Lemma segment_indicator : forall c f ind sb seg r, bytes_ok (sb ++ r) -> segment f (d_dict c) (d_target c) ind sb seg ->
  parse_win_indicator (zlen (d_dict c)) (zlen (d_target c)) (d_allow c) ([ind] ++ sb ++ r) = Err \/
  exists kind len pos, parse_win_indicator (zlen (d_dict c)) (zlen (d_target c)) (d_allow c) ([ind] ++ sb ++ r) = Ok (ind, kind, len, pos, r).
Proof.
  intros c f ind sb seg r B SG. unfold parse_win_indicator. cbn [app parse_byte bind].
  assert (forall n b1 b2 len pos, bytes_ok ((b1 ++ b2) ++ r) -> varint b1 len -> varint b2 pos ->
    parse_source_segment n ((b1 ++ b2) ++ r) = Err \/ parse_source_segment n ((b1 ++ b2) ++ r) = Ok (len, pos, r)) as PS.
  { intros n b1 b2 len pos B' V1 V2. unfold parse_source_segment. rewrite <- app_assoc in *. unfold parse_size.
    destruct (parse_cases I32 b1 len (b2 ++ r) type_ok_I32 B' V1) as [-> | ->]; cbn [bind]; [|auto].
    destruct (_ <? _); [auto|]. apply bytes_ok_app in B' as [_ B'].
    destruct (parse_cases I32 b2 pos r type_ok_I32 B' V2) as [-> | ->]; cbn [bind]; [|auto].
    destruct (_ && _); [auto|]. destruct (_ <? _); auto. }
  inversion SG as [T0 T1|b1 b2 len pos s T0 T1 V1 V2 S|b1 b2 len pos s T0 T1 FT V1 V2 S]; subst; rewrite T0, T1.
  - right. cbn [app]. eauto.
  - destruct (PS (zlen (d_dict c)) _ _ _ _ B V1 V2) as [-> | ->]; cbn [bind]; eauto.
  - destruct (d_allow c); cbn [negb]; [|auto]. destruct (PS (zlen (d_target c)) _ _ _ _ B V1 V2) as [-> | ->]; cbn [bind]; eauto.
Qed.

Lemma opened_not_eod : forall c f w seg L nd ni na body, bytes_ok w -> f_ext f = allow_extensions c ->
  opened f (d_dict c) (d_target c) w seg L nd ni na body -> header_fields c w <> Eod.
Proof.
  intros c f w seg L nd ni na body B EX (ind & sb & bd & dl & bt & di & bnd & bni & bna & bcks & o & -> & SG & VD & VT & VND & VNI & VNA & CB).
  unfold header_fields. apply bytes_ok_app in B as [_ B].
  destruct (segment_indicator c f ind sb seg _ B SG) as [-> | (kind & len & pos & ->)]; cbn [bind]; [discriminate|].
  apply bytes_ok_app in B as [_ B]. unfold parse_size at 1.
  destruct (parse_cases I32 bd dl _ type_ok_I32 B VD) as [-> | ->]; cbn [bind]; [|discriminate]. apply bytes_ok_app in B as [_ B].
  unfold parse_size at 1.
  destruct (parse_cases I32 bt L _ type_ok_I32 B VT) as [-> | ->]; cbn [bind]; [|discriminate]. apply bytes_ok_app in B as [_ B].
  destruct (would_exceed c L); [discriminate|]. unfold parse_delta_indicator. cbn [app parse_byte bind].
  destruct (_ =? 0); cbn [bind]; [|discriminate]. apply bytes_ok_cons in B as [_ B].
  unfold parse_section_lengths, parse_size.
  destruct (parse_cases I32 bnd nd _ type_ok_I32 B VND) as [-> | ->]; cbn [bind]; [|discriminate]. apply bytes_ok_app in B as [_ B].
  destruct (parse_cases I32 bni ni _ type_ok_I32 B VNI) as [-> | ->]; cbn [bind]; [|discriminate]. apply bytes_ok_app in B as [_ B].
  destruct (parse_cases I32 bna na _ type_ok_I32 B VNA) as [-> | ->]; cbn [bind]; [|discriminate]. apply bytes_ok_app in B as [_ B].
  unfold checksum_bytes in CB. rewrite EX in CB. destruct (allow_extensions c && Z.testbit ind 2).
  - destruct CB as (v & _ & V). unfold parse_checksum.
    destruct (parse_cases I64 bcks v _ type_ok_I64 B V) as [-> | ->]; cbn [bind]; [|discriminate].
    destruct (_ <? v); cbn [bind]; [discriminate|]. destruct (_ =? _); discriminate.
  - cbn [bind]. destruct (_ =? _); discriminate.
Qed.

Lemma opened_fields : forall c ns ss kind seglen pos tl nd ni na cks has hdr l seg0 f w seg L nd' ni' na' body,
  header_rel c ns ss (kind, seglen, pos, tl, nd, ni, na, cks, has) hdr seg0 -> f_ext f = allow_extensions c ->
  opened f (d_dict c) (d_target c) w seg L nd' ni' na' body -> hdr ++ l = w ->
  seg = seg0 /\ L = tl /\ nd' = nd /\ ni' = ni /\ na' = na /\ body = l.
Proof.
  intros c ns ss kind seglen pos tl nd ni na cks has hdr l seg0 f w seg L nd' ni' na' body HR EX
    (ind & sb & bd & dl & bt & di & bnd & bni & bna & bcks & o & -> & SG & VD & VT & VND & VNI & VNA & CB) E.
  destruct HR as (ind' & sb' & bd' & dl' & bt' & di' & bnd' & bni' & bna' & bcks' & -> & _ & SG' & _ & _ & VD' & _ & VT' & _ & _ & _ & _ & VND' & _ & VNI' & _ & VNA' & _ & HC & CK & _).
  rewrite <- !app_assoc in E. cbn [app] in E. injection E as -> E.
  destruct (segment_inj _ _ _ _ _ _ _ _ _ _ _ SG' SG E) as (_ & <- & E1). clear E.
  destruct (varint_inj _ _ _ _ _ _ VD' VD E1) as (_ & _ & E). clear E1.
  destruct (varint_inj _ _ _ _ _ _ VT' VT E) as (_ & <- & E1). clear E. injection E1 as _ E1.
  destruct (varint_inj _ _ _ _ _ _ VND' VND E1) as (_ & <- & E). clear E1.
  destruct (varint_inj _ _ _ _ _ _ VNI' VNI E) as (_ & <- & E1). clear E.
  destruct (varint_inj _ _ _ _ _ _ VNA' VNA E1) as (_ & <- & E). clear E1.
  assert (body = l) as ->; [|auto 10]. unfold checksum_bytes in CB. rewrite EX, <- HC in CB. destruct has.
  - destruct CB as (v & _ & V), CK as [V' _]. destruct (varint_inj _ _ _ _ _ _ V' V E) as (_ & _ & <-). reflexivity.
  - destruct CB as [-> _], CK as [-> _]. symmetry. exact E.
Qed.

Lemma window_opened : forall t f dict prev w T, Spec.window t f dict prev w T ->
  exists seg nd ni na body items hist, opened f dict prev w seg (zlen T) nd ni na body /\ layout t f items nd ni na body /\
    items_mean (t_drop t) (f_table f) (f_near f) (f_same f) (zlen T) seg items ([], []) (hist, T).
Proof.
  intros t f dict prev w T W.
  inversion W as [ind sb seg bd dl bt di bnd nd bni ni bna na bcks items body hist T1 BI SG VD VT BDI DI VND VNI VNA CF LA DL IM EW ET]; subst w T1.
  exists seg, nd, ni, na, body, items, hist. split; [|auto]. destruct (checksum_field_bytes _ _ _ _ CF) as (o & CB).
  exists ind, sb, bd, dl, bt, di, bnd, bni, bna, bcks, o. auto 10.
Qed.

Lemma begun_opened : forall f dict prev w L m, begun_window f dict prev w L m ->
  exists seg ni body hist, f_ext f = true /\ opened f dict prev w seg L 0 ni 0 body /\ zlen body <= ni /\ zlen m < L /\
    begins (f_table f) (f_near f) (f_same f) L seg body ([], []) (hist, m).
Proof.
  intros f dict prev w L m W.
  inversion W as [ind sb seg bd dl bt L0 di bnd bni ni bna bcks cks body hist m0 EX BI SG VD VT BDI DI VND VNI VNA CF DL ZB BG LT]; subst w L0 m0.
  exists seg, ni, body, hist. split; [exact EX|]. split; [|auto]. rewrite <- EX in CF.
  exists ind, sb, bd, dl, bt, di, bnd, bni, bna, bcks, cks. auto 10.
Qed.

(** ** One window *)

Lemma il_prompt : forall c ns ss fd hdr seg ca total l c1 u1 body y hist m, core_ok ns ss c -> d_win c = None -> bytes_ok l ->
  header_rel c ns ss fd hdr seg -> cache_init ns ss = Some ca ->
  finish_il c total (fields_window c fd ca) l = XEod (c1, u1) ->
  l = body ++ y -> zlen body <= w_expected (fields_window c fd ca) ->
  begins (entry (d_table c)) ns ss (w_len (fields_window c fd ca)) seg body ([], []) (hist, m) ->
  zlen m <= w_len (fields_window c fd ca) ->
  exists e, d_target c1 = d_target c ++ m ++ e /\ zlen (m ++ e) < w_len (fields_window c fd ca).
Proof.
  intros c ns ss fd hdr seg ca total l c1 u1 body y hist m CO DW BL HR CI FI EL ZB BG ZM.
  pose proof (co_table _ _ _ CO) as TO. pose proof (co_win _ _ _ CO) as CW. rewrite DW in CW.
  destruct (cache_init_like ns ss ca (co_ns _ _ _ CO) (co_ss _ _ _ CO) CI) as (CR & NS & SS).
  set (w := fields_window c fd ca) in *.
  rewrite finish_il_eq in FI. rewrite CW in FI.
  assert (BI : binv (d_dict c) (d_table c) w (d_target c) seg (il_state w (d_target c) l) [] []).
  { replace (il_state w (d_target c) l) with
      {| b_il := true; b_inst := ztake (w_expected w) l; b_data := []; b_addr := [];
         b_pending := None; b_cache := ca; b_target := d_target c |}.
    2:{ unfold w. destruct fd as [[[[[[[[kind seglen] pos] tl] nd] ni] na] cks] has]. reflexivity. }
    eapply binv_init; eauto; try constructor; auto. apply bytes_ok_ztake. auto. }
  unfold loop in FI.
  destruct (body_loop _ _ _ _ _ (il_state w (d_target c) l)) as [st'|st'| | |] eqn:LOOP; try discriminate FI.
  { destruct (_ && _) in FI; [discriminate FI|]. destruct (_ && _) in FI; discriminate FI. }
  cbv zeta in FI. destruct (_ <? _) in FI; [|discriminate FI].
  assert (d_target c1 = b_target st') as ET.
  { replace c1 with (fst (c1, u1)) by reflexivity.
    match goal with H : XEod ?x = XEod (c1, u1) |- _ => replace (c1, u1) with x by congruence end. reflexivity. }
  assert (w_pending w = None) as PN by (unfold w; destruct fd as [[[[[[[[kind seglen] pos] tl] nd] ni] na] cks] has]; reflexivity).
  pose proof (fields_window_cache c fd ca) as WC. fold w in WC.
  assert (fits (b_cache (il_state w (d_target c) l))) as FT.
  { cbn [il_state b_cache]. rewrite WC. unfold fits. rewrite NS, SS. split; [|split; apply CO].
    unfold cache_init in CI. destruct (Z.ltb_spec 254 (ns + ss)); [discriminate CI|lia]. }
  pose proof (body_loop_prompt _ _ _ _ _ _ _ _ _ _ TO BI eq_refl FT LOOP (hist, m) body (ztake (w_expected w - zlen body) y) ZM) as P.
  cbn [il_state b_pending b_cache b_inst] in P. rewrite PN, WC, NS, SS in P. specialize (P BG).
  destruct P as (e & P).
  { rewrite EL, ztake_app, ztake_all by lia. reflexivity. }
  cbn [snd] in P. exists e. rewrite ET. split; [exact P|].
  destruct (body_loop_begins _ _ _ _ _ _ _ _ _ _ TO BI eq_refl LOOP) as (h' & T' & b & I1 & I2 & _).
  replace (m ++ e) with T'; [exact I2|]. apply (app_inv_head (d_target c)). congruence.
Qed.

Lemma begins_fmt : forall c ns ss f L seg body s s', Unique.same_format (fmt c ns ss) f ->
  begins (f_table f) (f_near f) (f_same f) L seg body s s' -> begins (entry (d_table c)) ns ss L seg body s s'.
Proof.
  intros c ns ss f L seg body s s' (_ & _ & QN & QS & QT) H. cbn [fmt f_near f_same f_table] in *. rewrite QN, QS.
  eapply begins_table; [|exact H]. intros. symmetry. auto.
Qed.

Lemma decode_window_prompt : forall k ns ss z c1 u1 f, core_ok ns ss k -> d_win k = None -> bytes_ok z ->
  decode_window k z = XEod (c1, u1) -> Unique.same_format (fmt k ns ss) f ->
  (forall t w rest T, z = w ++ rest -> ~ Spec.window t f (d_dict k) (d_target k) w T) /\
  (forall w rest L m, z = w ++ rest -> begun_window f (d_dict k) (d_target k) w L m -> exists e, d_target c1 = d_target k ++ m ++ e).
Proof.
  intros k ns ss z c1 u1 f CO WN BZ DW SF.
  rewrite (decode_window_none k ns ss) in DW by (auto; apply CO).
  assert (f_ext f = allow_extensions k) as EX by (symmetry; apply SF).
  destruct (header_fields k z) as [[fd l]| | |] eqn:HF; try discriminate DW.
  2:{ split.
      - intros t w rest T -> W. destruct (window_opened _ _ _ _ _ _ W) as (seg & nd & ni & na & body & items & hist & O & _).
        exact (opened_not_eod k f _ _ _ _ _ _ _ BZ EX (opened_app _ _ _ _ _ _ _ _ _ _ rest O) HF).
      - intros w rest L m -> W. destruct (begun_opened _ _ _ _ _ _ W) as (seg & ni & body & hist & _ & O & _).
        destruct (opened_not_eod k f _ _ _ _ _ _ _ BZ EX (opened_app _ _ _ _ _ _ _ _ _ _ rest O) HF). }
  destruct (header_sound k ns ss z fd l BZ HF) as (hdr & seg0 & ED & HR & BL).
  pose proof (interleaved_iff k ns ss fd) as II.
  assert (forall c ca, w_expected (fields_window c fd ca) = if fields_il c fd then (let '(_, _, _, _, _, ni, _, _, _) := fd in ni) else 0) as WE
    by (intros; destruct fd as [[[[[[[[kind seglen] pos] tl] nd] ni] na] cks] has]; reflexivity).
  assert (forall c ca, w_len (fields_window c fd ca) = (let '(_, _, _, tl, _, _, _, _, _) := fd in tl)) as WL
    by (intros; destruct fd as [[[[[[[[kind seglen] pos] tl] nd] ni] na] cks] has]; reflexivity).
  split.
  - intros t w rest T E W. destruct (window_opened _ _ _ _ _ _ W) as (seg & nd & ni & na & body & items & hist & O & LA & IM).
    assert (forall n1 n2, interleaved (fmt k ns ss) n1 n2 <-> interleaved f n1 n2) as IQ by (intros; unfold interleaved; cbn [fmt f_ext]; rewrite EX; tauto).
    apply (opened_app _ _ _ _ _ _ _ _ _ _ rest) in O. rewrite <- E in O. symmetry in ED.
    destruct fd as [[[[[[[[kind seglen] pos] tl] nd0] ni0] na0] cks] has].
    destruct (opened_fields _ _ _ _ _ _ _ _ _ _ _ _ _ _ _ _ _ _ _ _ _ _ _ HR EX O ED) as (-> & <- & -> & -> & -> & EB). subst l.
    destruct LA as [(IL & EBD & NI)|(NIL & D1 & D2 & D3 & EBD)].
    + apply IQ, II in IL. rewrite IL in DW. cbn [negb andb] in DW. destruct (cache_init ns ss) as [ca|] eqn:CI; [|discriminate DW]. cbv zeta in DW.
      apply items_begin in IM. rewrite <- EBD in IM. apply (begins_fmt k ns ss) in IM; [|exact SF].
      destruct (il_prompt k ns ss _ hdr seg0 ca _ _ c1 u1 body rest hist T CO WN BL HR CI DW eq_refl) as (e & _ & ZT).
      { rewrite WE, IL. destruct NI as [->|[_ NI]]; lia. }
      { rewrite WL. exact IM. }
      { rewrite WL. lia. }
      rewrite WL, zlen_app in ZT. pose proof (zlen_nonneg _ e). lia.
    + destruct (fields_il _ _) eqn:IL; [exfalso; apply NIL, IQ, II; reflexivity|]. cbn [negb andb] in DW.
      destruct (Z.ltb_spec (zlen (body ++ rest)) (fields_total (kind, seglen, pos, zlen T, nd0, ni0, na0, cks, has))) as [LT|_].
      { cbn [fields_total] in LT. rewrite zlen_app, EBD, !zlen_app in LT. pose proof (zlen_nonneg _ rest). lia. }
      destruct (cache_init ns ss) as [ca|] eqn:CI; [|discriminate DW]. cbv zeta in DW.
      pose proof (finish_std k ns ss _ hdr seg0 ca (to_size (d_total k + w_len (fields_window k (kind, seglen, pos, zlen T, nd0, ni0, na0, cks, has) ca))) (body ++ rest)
        (zdrop (fields_total (kind, seglen, pos, zlen T, nd0, ni0, na0, cks, has)) (body ++ rest)) CO WN HR CI BL) as FS.
      rewrite DW in FS. exact FS.
  - intros w rest L m E W. destruct (begun_opened _ _ _ _ _ _ W) as (seg & ni & body & hist & FE & O & ZB & ZM & BG).
    assert (forall n1 n2, interleaved (fmt k ns ss) n1 n2 <-> interleaved f n1 n2) as IQ by (intros; unfold interleaved; cbn [fmt f_ext]; rewrite EX; tauto).
    apply (opened_app _ _ _ _ _ _ _ _ _ _ rest) in O. rewrite <- E in O. symmetry in ED.
    destruct fd as [[[[[[[[kind seglen] pos] tl] nd0] ni0] na0] cks] has].
    destruct (opened_fields _ _ _ _ _ _ _ _ _ _ _ _ _ _ _ _ _ _ _ _ _ _ _ HR EX O ED) as (-> & -> & <- & -> & <- & EB). subst l.
    assert (interleaved f 0 0) as IL by (split; auto).
    apply IQ, II in IL. rewrite IL in DW. cbn [negb andb] in DW. destruct (cache_init ns ss) as [ca|] eqn:CI; [|discriminate DW]. cbv zeta in DW.
    apply (begins_fmt k ns ss) in BG; [|exact SF].
    destruct (il_prompt k ns ss _ hdr seg0 ca _ _ c1 u1 body rest hist m CO WN BL HR CI DW eq_refl) as (e & TG & _).
    { rewrite WE, IL. exact ZB. }
    { rewrite WL. exact BG. }
    { rewrite WL. lia. }
    eauto.
Qed.

(** ** The windows of a file *)

(** All that the bytes [z] determine of the next window is in [m]. *)
Definition exhausted (f : format) (dict prev z m : list Z) : Prop :=
  (forall t w rest T, z = w ++ rest -> ~ Spec.window t f dict prev w T) /\
  (forall w rest L m', z = w ++ rest -> begun_window f dict prev w L m' -> exists e, m = m' ++ e).

Lemma parts_ahead : forall t tl f dict ok prev ws Ts, windows_parts t tl f dict ok prev ws Ts ->
  forall t' tl' f' ok' ws' Ts' z z' m m', Unique.same_format f f' -> Unique.same_format f' f ->
  windows_parts t' tl' f' dict ok' prev ws' Ts' -> exhausted f' dict (prev ++ concat Ts) z m ->
  partly f' dict (prev ++ concat Ts') z' m' -> ws ++ z = ws' ++ z' -> exists e, concat Ts ++ m = (concat Ts' ++ m') ++ e.
Proof.
  induction 1 as [prev|prev w T rest Ts W K R IH]; intros t' tl' f' ok' ws' Ts' z z' m m' SF SF' WP' [NW NB] P' E.
  - cbn [concat app] in *. rewrite app_nil_r in NW, NB. subst z.
    inversion WP' as [prev0|prev0 w' T' rest' Ts0 W' K' R']; subst; cbn [concat app] in *.
    + rewrite app_nil_r in P'. destruct P' as [->|(w' & rest' & L' & -> & B')]; [eexists; reflexivity|]. eapply NB; eauto.
    + exfalso. eapply NW; [|exact W']. rewrite <- app_assoc. reflexivity.
  - inversion WP' as [prev0|prev0 w' T' rest' Ts0 W' K' R']; subst; cbn [concat app] in *.
    + rewrite app_nil_r in P'. destruct P' as [->|(w' & rest' & L' & -> & B')]; [eexists; reflexivity|].
      rewrite <- !app_assoc in E. destruct (begun_window_done _ _ _ _ _ _ _ _ _ _ _ _ SF' B' W (eq_sym E)) as (c & ->).
      exists (c ++ concat Ts ++ m). rewrite <- !app_assoc. reflexivity.
    + rewrite <- !app_assoc in E. destruct (window_inj _ _ _ _ _ _ _ _ _ _ _ _ SF W W' E) as (-> & -> & E').
      rewrite app_assoc in P', NW, NB.
      destruct (IH t' tl' f' ok' rest' Ts0 z z' m m' SF SF' R' (conj NW NB) P' E') as (e & EE).
      exists e. rewrite <- app_assoc, EE, <- !app_assoc. reflexivity.
Qed.

Lemma exhausted_nil : forall f dict prev, exhausted f dict prev [] [].
Proof.
  intros f dict prev. split.
  - intros t w rest T E W. symmetry in E. apply app_eq_nil in E as [-> _].
    destruct (window_opened _ _ _ _ _ _ W) as (seg & nd & ni & na & body & items & hist & (ind & sb & bd & dl & bt & di & bnd & bni & bna & bcks & o & E & _) & _). discriminate E.
  - intros w rest L m' E W. symmetry in E. apply app_eq_nil in E as [-> _].
    destruct (begun_opened _ _ _ _ _ _ W) as (seg & ni & body & hist & _ & (ind & sb & bd & dl & bt & di & bnd & bni & bna & bcks & o & E & _) & _). discriminate E.
Qed.

Lemma wcame_prompt : forall k0 ns ss W Ts k u f, wcame k0 ns ss W Ts k u -> ~ stopped k -> Unique.same_format (fmt k0 ns ss) f ->
  exists ws z m, W = ws ++ z /\ windows_parts lax lax (fmt k0 ns ss) (d_dict k0) (limits k0) (d_target k0) ws Ts /\
    d_target k = d_target k0 ++ concat Ts ++ m /\ exhausted f (d_dict k0) (d_target k0 ++ concat Ts) z m.
Proof.
  intros k0 ns ss W Ts k u f (ks & ws & z & -> & AW & BZ & ALT) NS SF.
  pose proof (aw_means _ _ _ _ _ _ AW) as WS. pose proof (aw_target _ _ _ _ _ _ AW) as TG.
  destruct ALT as [(_ & <- & ST)|[(_ & -> & _ & ->)|(NSK & _ & [c1 u1] & DW & SR)]]; [contradiction| |].
  - exists ws, [], []. rewrite !app_nil_r. split; [reflexivity|]. split; [exact WS|]. split; [exact TG|]. apply exhausted_nil.
  - assert (d_target k = d_target c1) as ETG.
    { destruct SR as [E|(w & nops & _ & _ & _ & _ & E)]; [congruence|]. cbn [fst snd] in E.
      assert (c1 = set_win k (Some (next_win w (w_expected w + zlen nops) None (w_cache w))) (d_start k) (d_target k) (d_total k)) as -> by congruence.
      reflexivity. }
    rewrite ETG. pose proof (aw_core _ _ _ _ _ _ AW) as CO.
    pose proof (decode_window_step ks ns ss z [] CO BZ ltac:(constructor)) as STP. rewrite DW in STP.
    destruct STP as (_ & CS & _). destruct (cstep_out _ _ CS) as (_ & (m & EM) & _).
    exists ws, z, m. rewrite EM. split; [reflexivity|]. split; [exact WS|]. split; [rewrite TG, app_assoc; reflexivity|].
    destruct (aw_step _ _ _ _ _ _ AW) as (w0 & s0 & m0 & t0 & EK). rewrite <- TG.
    replace (fmt k0 ns ss) with (fmt ks ns ss) in SF by (rewrite EK; reflexivity).
    replace (d_dict k0) with (d_dict ks) by (rewrite EK; reflexivity).
    destruct (decode_window_prompt ks ns ss z c1 u1 f CO (aw_win _ _ _ _ _ _ AW) BZ DW SF) as [P1 P2].
    split; [exact P1|]. intros w rest L m' E B. destruct (P2 w rest L m' E B) as (e & T1). exists e.
    apply (app_inv_head (d_target ks)). congruence.
Qed.

Lemma parts_of_windows : forall t tl f dict ok prev ws out, windows t tl f dict ok prev ws out ->
  exists Ts, windows_parts t tl f dict (fun _ _ => True) prev ws Ts /\ out = prev ++ concat Ts.
Proof.
  induction 1 as [prev|prev w T rest out W K R (Ts & WP & ->)].
  - exists []. split; [constructor|]. cbn [concat]. rewrite app_nil_r. reflexivity.
  - exists (T :: Ts). split; [constructor; auto|]. cbn [concat]. rewrite app_assoc. reflexivity.
Qed.

Lemma came_prompt : forall k a X Ts, came k a X Ts -> aok a -> ~ stopped (acore a) -> d_sizes k = None -> base_ok k ->
  forall t tl t' tl' ok allow h v tbl ns ss ws z Ts' m, X = h ++ ws ++ z -> head t tl h v tbl ns ss ->
    windows_parts t' tl' (file_format v tbl ns ss allow) (d_dict k) ok [] ws Ts' -> partly (file_format v tbl ns ss allow) (d_dict k) (concat Ts') z m ->
    exists e, d_target (acore a) = (concat Ts' ++ m) ++ e.
Proof.
  induction 1 as [k u|k v ind p ns q ss kt nd X' Tn V BI I0 I1 VP VQ LN LS SO EK C IH|k h v tbl ns ss k1 W Ts' k2 u HD SO BO S ST EV EA ED EL WC];
    intros OK NS S0 BOK t tl t' tl' ok allow h' v' tbl' ns' ss' ws' z Ts1 m EX HD' WP P.
  - exfalso. inversion OK as [k0 u0 BO0 S1 BU HE E|k0 n0 ns1 ss1 BO0 S1 SO1 ON PN TN E|ns1 ss1 k0 u0 CO BU Q TI LI EX' E]; subst.
    2:{ rewrite (co_sizes _ _ _ CO) in S0. discriminate S0. }
    inversion HD' as [v0 ind V BI I0 I1 E1|v0 ind b1 n1 b2 s1 h2 v2 tbl2 ns2 ss2 ws2 s tbl0 V BI I0 I1 VN VS NSL SSL]; subst.
    + change (file_header v' ind ++ ws' ++ z) with (hd5 v' ind (ws' ++ z)) in HE. rewrite aheader_hd5, I0, I1 in HE by auto. discriminate HE.
    + rewrite <- !app_assoc in HE. change (file_header v' ind ++ b1 ++ b2 ++ h2 ++ ws2 ++ ws' ++ z) with (hd5 v' ind (b1 ++ b2 ++ h2 ++ ws2 ++ ws' ++ z)) in HE.
      rewrite aheader_hd5, I0, I1, parse_cache_sizes_ok with (ns := ns') (ss := ss') in HE by auto. discriminate HE.
  - exfalso. inversion HD' as [v0 ind' V' BI' I0' I1' E1|v0 ind' b1 n1 b2 s1 h2 v2 tbl2 ns2 ss2 ws2 s tbl0 V' BI' I0' I1' VN VS NSL SSL HD2 MF2 WS2 LS2]; subst.
    { unfold file_header in EX. cbn [app] in EX. assert (ind = ind') by congruence. congruence. }
    rewrite <- !app_assoc in EX. unfold file_header in EX. cbn [app] in EX.
    assert (p ++ q ++ X' = b1 ++ b2 ++ h2 ++ ws2 ++ ws' ++ z) as E by congruence.
    destruct (varint_inj _ _ _ _ _ _ VP VN E) as (_ & _ & E2). destruct (varint_inj _ _ _ _ _ _ VQ VS E2) as (_ & _ & E3). clear E E2.
    inversion OK as [|k0 n0 ns1 ss1 BO0 S1 SO1 ON PN TN E|]; subst.
    destruct (parts_of_windows _ _ _ _ _ _ _ _ WS2) as (Tn2 & WP2 & ->). cbn [app] in LS2.
    destruct a_table_fields as (kt' & EKT & KS & KB & KT & KAL & KD & KW & KF & KP).
    assert (kt' = kt) as -> by congruence. rewrite <- KD in WP2.
    assert (~ stopped (acore nd)) as NSN by (intros STN; apply (proj1 (aok_stopped nd ON PN)) in STN; lia).
    destruct (IH ON NSN KS KB _ _ _ _ _ _ h2 v2 tbl2 ns2 ss2 ws2 (ws' ++ z) Tn2 [] eq_refl HD2 WP2 ltac:(left; reflexivity)) as (e & TE).
    rewrite TE, app_nil_r, zlen_app in TN. pose proof (zlen_nonneg _ e). lia.
  - cbn [acore] in *. destruct (head_inj _ _ _ _ _ _ _ HD _ _ _ _ _ _ _ _ _ HD' EX) as (_ & <- & <- & <- & <- & E).
    pose proof (head_near _ _ _ _ _ _ _ HD) as HN.
    assert (Unique.same_format (fmt k1 ns ss) (file_format v tbl ns ss allow) /\ Unique.same_format (file_format v tbl ns ss allow) (fmt k1 ns ss)) as [SF SF'].
    { pose proof (fmt_file k1 ns ss tbl ST) as (Q1 & Q2 & Q3 & Q4 & _). rewrite EV in Q1.
      split; (split; [cbn in *; congruence|split; [exact HN|split; [reflexivity|split; [reflexivity|]]]]); [exact Q2|]. intros op O. symmetry. apply Q2. exact O. }
    destruct (wcame_prompt _ _ _ _ _ _ _ _ WC NS SF) as (ws & z0 & m0 & -> & WS & TG & EXH).
    rewrite (bo_target _ BO) in WS, TG, EXH. cbn [app] in TG. rewrite ED in WS, EXH.
    destruct (parts_ahead _ _ _ _ _ _ _ _ WS _ _ _ _ _ _ _ _ _ m SF SF' WP EXH P E) as (e & EE).
    exists e. congruence.
Qed.

(** ** Calls *)

Lemma chunks_prompt : forall d dict chunks d' out, idle_plain d -> bytes_ok dict -> Forall bytes_ok chunks ->
  decode_chunks (start_decoding d dict) chunks [] = Some (d', true, out) ->
  forall t tl t' tl' ok allow h v tbl ns ss ws z Ts' m, concat chunks = h ++ ws ++ z -> head t tl h v tbl ns ss ->
    windows_parts t' tl' (file_format v tbl ns ss allow) dict ok [] ws Ts' -> partly (file_format v tbl ns ss allow) dict (concat Ts') z m ->
    exists e, out = (concat Ts' ++ m) ++ e.
Proof.
  intros d dict chunks d' out IP BD F DC. pose proof (idle_plain_idle d IP) as [ID _]. pose proof (idle_ready d ID) as RD.
  destruct (start_facts d dict IP BD) as (k & EA & S & BO & DT & DD & DA & UP & LM).
  destruct (start_ok d dict RD BD) as (DR0 & OK & U & _). rewrite EA in *.
  destruct (chunks_within chunks _ [] _ k [] [] [] d' out DR0 OK U (came_start k []) S BO DT ltac:(constructor) F DC)
      as (Ts & more & a & CM & DR & OKA & UA & EO & _). cbn [app] in *. subst more. rewrite <- (drel_out _ _ _ DR).
  rewrite <- DD. intros t tl t' tl' ok allow. eapply came_prompt; eauto. apply unplanned_stopped. exact UA.
Qed.

(** ** VCD_TARGET *)

Lemma segment_target : forall f f' dict prev ind sb seg, f_target f' = true -> segment f dict prev ind sb seg -> segment f' dict prev ind sb seg.
Proof. intros f f' dict prev ind sb seg FT H. inversion H; subst; [constructor|econstructor|eapply seg_target]; eauto. Qed.

Lemma window_target : forall t v tbl ns ss a dict prev w T, Spec.window t (file_format v tbl ns ss a) dict prev w T -> Spec.window t (file_format v tbl ns ss true) dict prev w T.
Proof.
  intros t v tbl ns ss a dict prev w T W.
  inversion W as [ind sb seg bd dl bt di bnd nd bni ni bna na bcks items body hist T1 BI SG VD VT BDI DI VND VNI VNA CF LA DL IM EW ET]; subst w T1.
  eapply window_intro with (seg := seg); eauto. eapply segment_target; [reflexivity|exact SG].
Qed.

Lemma parts_target : forall t tl v tbl ns ss a dict ok prev ws Ts, windows_parts t tl (file_format v tbl ns ss a) dict ok prev ws Ts ->
  windows_parts t tl (file_format v tbl ns ss true) dict (fun _ _ => True) prev ws Ts.
Proof. induction 1; constructor; auto. eapply window_target; eauto. Qed.

Lemma begun_target : forall v tbl ns ss a dict prev w L m, begun_window (file_format v tbl ns ss a) dict prev w L m ->
  begun_window (file_format v tbl ns ss true) dict prev w L m.
Proof.
  intros v tbl ns ss a dict prev w L m W.
  inversion W as [ind sb seg bd dl bt L0 di bnd bni ni bna bcks cks body hist m0 EX BI SG VD VT BDI DI VND VNI VNA CF DL ZB BG LT]; subst w L0 m0.
  eapply begun_window_intro with (seg := seg); eauto. eapply segment_target; [reflexivity|exact SG].
Qed.
