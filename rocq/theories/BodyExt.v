(** Facts about decoding an interleaved window body piece by piece: what more
    input changes, and what it does not. *)

From Verif Require Import Base Spec Varint VarintFacts AddrCache AddrCacheFacts CodeTable
  InstructionMap DecodeTable HeaderParser Adler Decoder CopyFacts BodyFacts.
From Coq Require Import ZifyBool ZifyNat.

(** The same state with more input. *)
Definition ext (st : body) (y : list Z) : body := with_inst st (b_pending st) (b_inst st ++ y).

Lemma with_inst_same : forall st, with_inst st (b_pending st) (b_inst st) = st.
Proof. intros []. reflexivity. Qed.

(** Two results that differ at most in unread opcodes that stand for nothing. *)
Definition xrel (t : table) (r r' : xres body) : Prop :=
  r = r' \/
  exists s nops, r = XEod s /\ b_pending s = None /\ b_inst s <> [] /\ Forall (is_nop t) nops /\
    r' = XEod (with_inst s None (nops ++ b_inst s)).

Lemma inst_loop_app : forall t inst p ty k mode p' rest y,
  inst_loop t p inst = inl (ty, k, mode, p', rest) ->
  inst_loop t p (inst ++ y) = inl (ty, k, mode, p', rest ++ y).
Proof.
  intros t inst. induction inst as [|op tl IH]; intros p ty k mode p' rest y H.
  - destruct p; [|discriminate]. rewrite inst_loop_pending in H |- *. injection H as <- <- <- <- <-. reflexivity.
  - destruct p as [o|].
    + rewrite inst_loop_pending in H |- *. injection H as <- <- <- <- <-. reflexivity.
    + cbn [inst_loop app] in H |- *. destruct (tget (inst1 t) op =? VCD_NOOP).
      * apply IH. exact H.
      * injection H as <- <- <- <- <-. reflexivity.
Qed.

Lemma gni_app : forall t p inst y,
  match get_next_instruction t p inst with
  | NI ty size mode p' rest => get_next_instruction t p (inst ++ y) = NI ty size mode p' (rest ++ y)
  | NI_err => get_next_instruction t p (inst ++ y) = NI_err
  | NI_eod _ _ => True
  end.
Proof.
  intros t p inst y. unfold get_next_instruction.
  destruct (inst_loop t p inst) as [[[[[ty k] mode] p'] rest]|[p' rest]] eqn:E; [|exact I].
  rewrite (inst_loop_app _ _ _ _ _ _ _ _ y E).
  destruct (k =? 0); [|reflexivity].
  destruct (parse I32 rest) as [[n rest']| | |] eqn:PE; try exact I.
  - rewrite (parse_app _ _ _ _ PE) by discriminate. reflexivity.
  - rewrite (parse_app _ _ _ _ PE) by discriminate. reflexivity.
  - rewrite (parse_app _ _ _ _ PE) by discriminate. reflexivity.
Qed.

Lemma exec_ext : forall dict w start st ty size mode y, b_il st = true ->
  match decode_instruction dict w start st ty size mode with
  | XOk st' => decode_instruction dict w start (ext st y) ty size mode = XOk (ext st' y) /\ b_il st' = true
  | XEod _ => True
  | r => decode_instruction dict w start (ext st y) ty size mode = r
  end.
Proof.
  intros dict w start st ty size mode y IL. destruct st as [il inst dat addr pend ca tgt]. cbn [b_il] in IL. subst il.
  unfold decode_instruction, ext. cbn [b_pending b_inst with_inst b_il b_data b_addr b_cache b_target].
  destruct (ty =? VCD_ADD); [|destruct (ty =? VCD_RUN); [|destruct (ty =? VCD_COPY); [|reflexivity]]].
  - unfold decode_add, data_of. cbn [b_pending b_inst with_inst b_il b_data b_addr b_cache b_target].
    destruct (Z.ltb_spec (zlen inst) size) as [L|L]; [exact I|].
    destruct (Z.ltb_spec (zlen (inst ++ y)) size) as [L'|L']; [rewrite zlen_app in L'; pose proof (zlen_nonneg _ y); lia|].
    rewrite ztake_app_le, zdrop_app_le by lia.
    destruct (append_target _ _ _); [|reflexivity]. split; reflexivity.
  - unfold decode_run, data_of. cbn [b_pending b_inst with_inst b_il b_data b_addr b_cache b_target].
    destruct inst as [|b tl]; [exact I|]. cbn [app].
    destruct (append_target _ _ _); [|reflexivity]. split; reflexivity.
  - unfold decode_copy, addr_of. cbn [b_pending b_inst with_inst b_il b_data b_addr b_cache b_target].
    set (here := to_int32 _).
    pose proof (decode_address_app ca here mode inst y) as DA.
    destruct (decode_address ca here mode inst) as [[[a rest] c']| | |].
    + rewrite DA by discriminate. destruct (copy_bytes _ _ _ _ _ _); try reflexivity. split; reflexivity.
    + exact I.
    + rewrite DA by discriminate. reflexivity.
    + rewrite DA by discriminate. reflexivity.
Qed.

Lemma body_loop_nops : forall f dict t w start st nops,
  b_pending st = None -> Forall (is_nop t) nops -> zlen (b_target st) - start < w_len w ->
  xrel t (body_loop f dict t w start st)
         (body_loop f dict t w start (with_inst st None (nops ++ b_inst st))).
Proof.
  intros f dict t w start st nops PE F L. 
  destruct f as [|f]; cbn [body_loop]; cbn [with_inst b_target b_pending b_inst].
  - destruct (zlen (b_target st) - start <? w_len w) eqn:E; [left; reflexivity|lia].
  - destruct (Z.ltb_spec (zlen (b_target st) - start) (w_len w)) as [_|]; [|lia].
    unfold get_next_instruction. rewrite inst_loop_nops by auto. rewrite PE.
    destruct (inst_loop t None (b_inst st)) as [[[[[ty k] mode] p'] rest]|[p' rest]] eqn:E.
    2: { left. reflexivity. }
    assert (b_inst st <> []) as NE by (intros NE; rewrite NE in E; discriminate).
    change (with_inst (with_inst st None (nops ++ b_inst st)) p' rest) with (with_inst st p' rest).
    assert (forall size rest',
      xrel t (if (w_len w <? size) || (w_len w <? size + (zlen (b_target st) - start)) then XErr
              else match decode_instruction dict w start (with_inst st p' rest') ty size mode with
                   | XOk st' => body_loop f dict t w start st' | XEod _ => XEod st | XErr => XErr | XUB => XUB | XFuel => XFuel end)
             (if (w_len w <? size) || (w_len w <? size + (zlen (b_target st) - start)) then XErr
              else match decode_instruction dict w start (with_inst st p' rest') ty size mode with
                   | XOk st' => body_loop f dict t w start st' | XEod _ => XEod (with_inst st None (nops ++ b_inst st)) | XErr => XErr | XUB => XUB | XFuel => XFuel end)) as X.
    { intros size rest'. destruct (_ || _); [left; reflexivity|].
      destruct (decode_instruction _ _ _ _ _ _ _); try (left; reflexivity).
      right. exists st, nops. auto 6. }
    destruct (k =? 0); [|apply X].
    destruct (parse I32 rest) as [[n rest']| | |]; [apply X| |left; reflexivity|left; reflexivity].
    right. exists st, nops. rewrite <- PE at 1. rewrite with_inst_same. auto 6.
Qed.

Lemma body_loop_ext : forall f dict t w prev seg st hist T y,
  table_ok t -> binv dict t w prev seg st hist T -> b_il st = true ->
  match body_loop f dict t w (zlen prev) st with
  | XOk st' => body_loop f dict t w (zlen prev) (ext st y) = XOk (ext st' y)
  | XErr => body_loop f dict t w (zlen prev) (ext st y) = XErr
  | XEod st' => forall f', exists f'',
      xrel t (body_loop f' dict t w (zlen prev) (ext st' y)) (body_loop f'' dict t w (zlen prev) (ext st y))
  | XUB => body_loop f dict t w (zlen prev) (ext st y) = XUB
  | XFuel => True
  end.
Proof.
  induction f as [|f IH]; intros dict t w prev seg st hist T y TO BI IL.
  - cbn [body_loop]. cbn [ext with_inst b_target].
    destruct (zlen (b_target st) - zlen prev <? w_len w) eqn:E; [exact I|]. reflexivity.
  - cbn [body_loop]. cbn [ext with_inst b_target b_pending b_inst]. fold (ext st y).
    destruct (binv_lens _ _ _ _ _ _ _ _ BI) as (TL & SL & SN). rewrite TL.
    replace (zlen prev + zlen T - zlen prev) with (zlen T) by lia.
    destruct (Z.ltb_spec (zlen T) (w_len w)) as [L|L]; [|reflexivity].
    pose proof (gni_sound t (b_pending st) (b_inst st) TO (bi_binst _ _ _ _ _ _ _ _ BI) (bi_pending _ _ _ _ _ _ _ _ BI)) as G.
    pose proof (gni_app t (b_pending st) (b_inst st) y) as GA.
    destruct (get_next_instruction t (b_pending st) (b_inst st)) as [ty size mode p' rest|p' rest|] eqn:GE.
    + rewrite GA. destruct G as (k & ps & F & NE & SC & PO & BR & SM).
      pose proof (size_code_nonneg k ps size SC) as SZ.
      destruct ((w_len w <? size) || (w_len w <? size + zlen T)) eqn:CK; [reflexivity|].
      assert (binv dict t w prev seg (with_inst st p' rest) hist T) as BI1 by (apply binv_with_inst; auto).
      pose proof (exec_sound dict t w prev seg _ hist T ty size mode BI1 ltac:(lia) ltac:(lia) ltac:(intros; lia)) as E.
      pose proof (exec_ext dict w (zlen prev) (with_inst st p' rest) ty size mode y IL) as X.
      change (with_inst (ext st y) p' (rest ++ y)) with (ext (with_inst st p' rest) y).
      destruct (decode_instruction dict w (zlen prev) (with_inst st p' rest) ty size mode) as [st2|sx| | |] eqn:DI.
      * destruct X as [X IL2]. rewrite X.
        destruct E as (pd & pa & h2 & T2 & _ & _ & BI2 & _).
        specialize (IH dict t w prev seg st2 h2 T2 y TO BI2 IL2).
        destruct (body_loop f dict t w (zlen prev) st2); auto.
        intros f'. destruct (IH f') as (f'' & R). exists (S f''). cbn [body_loop].
        cbn [ext with_inst b_target b_pending b_inst]. fold (ext st y). rewrite TL.
        replace (zlen prev + zlen T - zlen prev) with (zlen T) by lia.
        destruct (Z.ltb_spec (zlen T) (w_len w)); [|lia]. rewrite GA, CK.
        change (with_inst (ext st y) p' (rest ++ y)) with (ext (with_inst st p' rest) y). rewrite X. exact R.
      * intros f'. exists f'. left. reflexivity.
      * rewrite X. reflexivity.
      * rewrite X. reflexivity.
      * exact I.
    + destruct G as [(-> & ->)|(P1 & -> & -> & FN)]; intros f'; exists f'.
      * rewrite with_inst_same. left. reflexivity.
      * cbn [ext with_inst b_pending b_inst app].
        replace (ext st y) with (with_inst (with_inst st None y) None (b_inst st ++ b_inst (with_inst st None y)))
          by (unfold ext; cbn; rewrite P1; reflexivity).
        apply body_loop_nops; auto. cbn [with_inst b_target]. lia.
    + rewrite GA. reflexivity.
Qed.

(** What holds when the input ran out. *)
Lemma body_loop_eod : forall f dict t w prev seg st hist T st',
  table_ok t -> binv dict t w prev seg st hist T ->
  body_loop f dict t w (zlen prev) st = XEod st' ->
  exists hist' bs, binv dict t w prev seg st' hist' (T ++ bs) /\ zlen (T ++ bs) < w_len w /\
    b_il st' = b_il st /\ near_size (b_cache st') = near_size (b_cache st) /\
    same_size (b_cache st') = same_size (b_cache st) /\
    exists pre, b_inst st = pre ++ b_inst st'.
Proof.
  induction f as [|f IH]; intros dict t w prev seg st hist T st' TO BI H.
  - cbn [body_loop] in H. destruct (_ <? _) in H; discriminate.
  - cbn [body_loop] in H.
    destruct (binv_lens _ _ _ _ _ _ _ _ BI) as (TL & SL & SN). rewrite TL in H.
    replace (zlen prev + zlen T - zlen prev) with (zlen T) in H by lia.
    destruct (Z.ltb_spec (zlen T) (w_len w)) as [L|L]; [|discriminate].
    pose proof (gni_sound t (b_pending st) (b_inst st) TO (bi_binst _ _ _ _ _ _ _ _ BI) (bi_pending _ _ _ _ _ _ _ _ BI)) as G.
    assert (exists hist' bs, binv dict t w prev seg st hist' (T ++ bs) /\ zlen (T ++ bs) < w_len w /\
      b_il st = b_il st /\ near_size (b_cache st) = near_size (b_cache st) /\
      same_size (b_cache st) = same_size (b_cache st) /\
      exists pre, b_inst st = pre ++ b_inst st) as STAY.
    { exists hist, []. rewrite app_nil_r. repeat (split; [auto|]). exists []. reflexivity. }
    destruct (get_next_instruction t (b_pending st) (b_inst st)) as [ty size mode p' rest|p' rest|] eqn:GE.
    + destruct G as (k & ps & F & NE & SC & PO & BR & SM).
      pose proof (size_code_nonneg k ps size SC) as SZ.
      destruct ((w_len w <? size) || (w_len w <? size + zlen T)) eqn:CK; [discriminate|].
      assert (binv dict t w prev seg (with_inst st p' rest) hist T) as BI1 by (apply binv_with_inst; auto).
      pose proof (exec_sound dict t w prev seg _ hist T ty size mode BI1 ltac:(lia) ltac:(lia) ltac:(intros; lia)) as E.
      destruct (decode_instruction dict w (zlen prev) (with_inst st p' rest) ty size mode) as [st2|sx| | |] eqn:DI;
        try discriminate.
      * destruct E as (pd & pa & h2 & T2 & (A1 & A2 & A3 & A4) & SE & BI2 & TL2 & HM).
        assert (exists b2, T2 = T ++ b2) as (b2 & ->).
        { pose proof (HM k ps SC L) as Q. inversion Q; subst; eauto.
          - exists []. rewrite app_nil_r. reflexivity.
          - match goal with A : copy_bytewise _ _ _ _ = _ |- _ => apply copy_bytewise_length in A as (bs & -> & LB) end. eauto. }
        specialize (IH dict t w prev seg st2 h2 (T ++ b2) st' TO BI2 H).
        destruct IH as (h' & bs & I1 & I2 & I3 & I4 & I5 & pre & I6).
        exists h', (b2 ++ bs). rewrite app_assoc. cbn [with_inst b_il b_cache] in *.
        repeat (split; [congruence || auto|]).
        assert (exists pre1, rest = pre1 ++ b_inst st2) as (pre1 & E1).
        { unfold sec in SE. cbn [with_inst b_inst b_data b_addr b_il] in SE. destruct (b_il st); cbn in SE; injection SE as S1 S2 S3; eauto.
          exists []. auto. }
        destruct (found_inv _ _ _ _ _ _ _ _ F) as
          [(op & _ & E2 & _)|[(nops & op & _ & E2 & _)|(nops & op & _ & E2 & _)]]; rewrite E2, E1, I6.
        -- exists (ps ++ pre1 ++ pre). rewrite !app_assoc. reflexivity.
        -- exists (nops ++ op :: ps ++ pre1 ++ pre). rewrite <- !app_assoc. cbn [app]. rewrite <- !app_assoc. reflexivity.
        -- exists (nops ++ op :: ps ++ pre1 ++ pre). rewrite <- !app_assoc. cbn [app]. rewrite <- !app_assoc. reflexivity.
      * injection H as <-. exact STAY.
    + injection H as <-. destruct G as [(-> & ->)|(P1 & -> & -> & FN)].
      * rewrite with_inst_same. exact STAY.
      * exists hist, []. rewrite app_nil_r. split; [apply binv_with_inst; auto; constructor|].
        repeat (split; [auto|]). cbn. exists (b_inst st). rewrite app_nil_r. reflexivity.
    + discriminate.
Qed.
