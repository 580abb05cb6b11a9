(** One call of DecodeWindow: invariant, safety, and how the result changes when
    more input is available. *)

From Verif Require Import Base Spec Varint VarintFacts AddrCache AddrCacheFacts CodeTable
  InstructionMap DecodeTable HeaderParser Adler Decoder CopyFacts BodyFacts BodyExt WindowExt WindowHeader.
From Coq Require Import ZifyBool ZifyNat.

(** ** Decoded bytes are bytes *)

Lemma slice_bytes : forall l off n s, bytes_ok l -> slice l off n = Some s -> bytes_ok s.
Proof.
  intros l off n s B S. apply slice_inv in S as (_ & _ & _ & -> & _).
  apply bytes_ok_ztake, bytes_ok_zdrop, B.
Qed.

Lemma append_target_bytes : forall cap t b t', bytes_ok t -> bytes_ok b -> append_target cap t b = Some t' -> bytes_ok t'.
Proof.
  intros cap t b t' T B H. unfold append_target in H. destruct (_ <=? _); [|discriminate].
  injection H as <-. apply bytes_ok_app. auto.
Qed.

Lemma read_source_bytes : forall dict w target a n s, bytes_ok dict -> bytes_ok target ->
  read_source dict w target a n = Some s -> bytes_ok s.
Proof.
  intros dict w target a n s D T H. unfold read_source in H.
  destruct (w_kind w); (eapply slice_bytes; [|exact H]); auto. constructor.
Qed.

Lemma copy_loop_bytes : forall f cap start t td a n t', bytes_ok t ->
  copy_loop f cap start t td a n = XOk t' -> bytes_ok t'.
Proof.
  induction f as [|f IH]; intros cap start t td a n t' B H; cbn [copy_loop] in H; [discriminate|].
  destruct (td - a <? n).
  - destruct (slice t _ _) eqn:S; [|discriminate]. destruct (append_target _ _ _) eqn:A; [|discriminate].
    eapply IH; [|exact H]. eapply append_target_bytes; [exact B| |exact A]. eapply slice_bytes; [exact B|exact S].
  - destruct (slice t _ _) eqn:S; [|discriminate]. destruct (append_target _ _ _) eqn:A; [|discriminate].
    injection H as <-. eapply append_target_bytes; [exact B| |exact A]. eapply slice_bytes; [exact B|exact S].
Qed.

Lemma copy_bytes_bytes : forall dict w start t a n t', bytes_ok dict -> bytes_ok t ->
  copy_bytes dict w start t a n = XOk t' -> bytes_ok t'.
Proof.
  intros dict w start t a n t' D B H. unfold copy_bytes in H.
  destruct (_ <=? _).
  - destruct (read_source _ _ _ _ _) eqn:S; [|discriminate]. destruct (append_target _ _ _) eqn:A; [|discriminate].
    injection H as <-. eapply append_target_bytes; [exact B| |exact A]. eapply read_source_bytes; [exact D|exact B|exact S].
  - destruct (_ <? _).
    + destruct (read_source _ _ _ _ _) eqn:S; [|discriminate]. destruct (append_target _ _ _) eqn:A; [|discriminate].
      eapply copy_loop_bytes; [|exact H]. eapply append_target_bytes; [exact B| |exact A]. eapply read_source_bytes; [exact D|exact B|exact S].
    + eapply copy_loop_bytes; [exact B|exact H].
Qed.

Lemma decode_instruction_bytes : forall dict w start st ty n m st', bytes_ok dict ->
  bytes_ok (b_inst st) -> bytes_ok (b_data st) -> bytes_ok (b_target st) ->
  decode_instruction dict w start st ty n m = XOk st' -> bytes_ok (b_target st').
Proof.
  intros dict w start st ty n m st' D BI BD BT H. unfold decode_instruction in H.
  assert (bytes_ok (data_of st)) as DO by (unfold data_of; destruct (b_il st); auto).
  destruct (ty =? VCD_ADD); [|destruct (ty =? VCD_RUN); [|destruct (ty =? VCD_COPY); [|discriminate]]].
  - unfold decode_add in H. destruct (_ <? _); [discriminate|].
    destruct (append_target _ _ _) eqn:A; [|discriminate]. injection H as <-. cbn.
    eapply append_target_bytes; [exact BT| |exact A]. apply bytes_ok_ztake. auto.
  - unfold decode_run in H. destruct (data_of st) as [|b tl] eqn:E; [discriminate|].
    apply bytes_ok_cons in DO as [Bb _].
    destruct (append_target _ _ _) eqn:A; [|discriminate]. injection H as <-. cbn.
    eapply append_target_bytes; [exact BT| |exact A]. apply bytes_ok_zrepeat. auto.
  - unfold decode_copy in H. destruct (decode_address _ _ _ _) as [[[a rest] c]| | |]; try discriminate.
    destruct (copy_bytes _ _ _ _ _ _) eqn:C; try discriminate. injection H as <-. cbn.
    eapply copy_bytes_bytes; [exact D|exact BT|exact C].
Qed.

Lemma body_loop_bytes : forall f dict t w prev seg st hist T,
  table_ok t -> binv dict t w prev seg st hist T -> bytes_ok dict -> bytes_ok (b_target st) ->
  match body_loop f dict t w (zlen prev) st with
  | XOk st' | XEod st' => bytes_ok (b_target st')
  | _ => True
  end.
Proof.
  induction f as [|f IH]; intros dict t w prev seg st hist T TO BI BD BT; cbn [body_loop].
  - destruct (_ <? _); auto.
  - destruct (binv_lens _ _ _ _ _ _ _ _ BI) as (TL & SL & SN). rewrite TL.
    replace (zlen prev + zlen T - zlen prev) with (zlen T) by lia.
    destruct (Z.ltb_spec (zlen T) (w_len w)) as [L|L]; [|exact BT].
    pose proof (gni_sound t (b_pending st) (b_inst st) TO (bi_binst _ _ _ _ _ _ _ _ BI) (bi_pending _ _ _ _ _ _ _ _ BI)) as G.
    destruct (get_next_instruction t (b_pending st) (b_inst st)) as [ty size mode p' rest|p' rest|] eqn:GE; auto.
    destruct G as (k & ps & F & NE & SC & PO & BR & SM).
    pose proof (size_code_nonneg k ps size SC) as SZ.
    destruct ((w_len w <? size) || (w_len w <? size + zlen T)) eqn:CK; [exact I|].
    assert (binv dict t w prev seg (with_inst st p' rest) hist T) as BI1 by (apply binv_with_inst; auto).
    pose proof (exec_sound dict t w prev seg _ hist T ty size mode BI1 ltac:(lia) ltac:(lia) ltac:(intros; lia)) as E.
    destruct (decode_instruction dict w (zlen prev) (with_inst st p' rest) ty size mode) as [st2|sx| | |] eqn:DI; auto.
    destruct E as (pd & pa & h2 & T2 & _ & _ & BI2 & _).
    assert (bytes_ok (b_target st2)) as BT2.
    { eapply decode_instruction_bytes; [exact BD| | | |exact DI]; cbn; auto. apply BI. }
    apply (IH dict t w prev seg st2 h2 T2); auto.
Qed.

Lemma copy_bytewise_prefix : forall n seg T a T', copy_bytewise n seg T a = Some T' -> exists m, T' = T ++ m.
Proof.
  induction n as [|n IH]; intros seg T a T' H; cbn [copy_bytewise] in H.
  - injection H as <-. exists []. rewrite app_nil_r. reflexivity.
  - destruct (get _ _) as [b|]; [|discriminate]. apply IH in H as (m & ->). exists ([b] ++ m). rewrite <- app_assoc. reflexivity.
Qed.

Lemma half_means_prefix : forall ns ss L seg h p s s',
  half_means ns ss L seg h p s s' -> exists m, snd s' = snd s ++ m.
Proof.
  intros ns ss L seg h p s s' H. inversion H; subst; cbn [snd]; eauto.
  - exists []. rewrite app_nil_r. reflexivity.
  - eapply copy_bytewise_prefix. eauto.
Qed.

Lemma items_mean_prefix : forall drop tbl ns ss L seg l s s',
  items_mean drop tbl ns ss L seg l s s' -> exists m, snd s' = snd s ++ m.
Proof.
  intros drop tbl ns ss L seg l s s' H. induction H.
  - exists []. rewrite app_nil_r. reflexivity.
  - apply half_means_prefix in H1 as (m1 & E1). apply half_means_prefix in H2 as (m2 & E2).
    destruct IHitems_mean as (m3 & E3). exists (m1 ++ m2 ++ m3). rewrite E3, E2, E1, <- !app_assoc. reflexivity.
  - eapply half_means_prefix. eauto.
Qed.

(** ** Invariant of a decoder that has read the file header *)

Lemma cache_init_sum : forall ns ss ca, cache_init ns ss = Some ca -> ns + ss <= 254.
Proof. intros ns ss ca H. unfold cache_init in H. destruct (Z.ltb_spec 254 (ns + ss)); [discriminate|lia]. Qed.

Record core_ok (ns ss : Z) (c : core) : Prop := {
  co_table : table_ok (d_table c);
  co_sizes : d_sizes c = Some (ns, ss);
  co_ns : 0 <= ns;
  co_ss : 0 <= ss;
  co_dict : bytes_ok (d_dict c);
  co_target : bytes_ok (d_target c);
  co_win : match d_win c with
           | None => d_start c = zlen (d_target c)
           | Some w => il_inv c w []
           end;
  co_bad : forall w, d_win c = Some w -> cache_bad (w_cache w) -> ns = 254 /\ ss = 0
}.

(** A step of the decoder changes only the window, the target and the total. *)
Definition cstep (c c' : core) : Prop :=
  exists w s more tot, c' = set_win c w s (d_target c ++ more) tot.

Lemma set_win_set_win : forall c w s t n w' s' t' n',
  set_win (set_win c w s t n) w' s' t' n' = set_win c w' s' t' n'.
Proof. reflexivity. Qed.

Lemma set_win_same : forall c, set_win c (d_win c) (d_start c) (d_target c) (d_total c) = c.
Proof. intros []. reflexivity. Qed.

Lemma cstep_refl : forall c, cstep c c.
Proof. intros c. exists (d_win c), (d_start c), [], (d_total c). rewrite app_nil_r. symmetry. apply set_win_same. Qed.

Lemma il_inv_more : forall c w avail y, il_inv c w avail -> bytes_ok y -> il_inv c w (avail ++ y).
Proof.
  intros c w avail y (prev & seg & hist & T & SE & E0 & BA & TO & BI) BY.
  exists prev, seg, hist, T. split; [exact SE|]. split; [exact E0|]. split; [apply bytes_ok_app; auto|].
  split; [exact TO|]. rewrite il_state_ext. apply binv_ext; auto. apply bytes_ok_ztake. auto.
Qed.

Lemma il_inv_nil : forall c w avail, il_inv c w avail -> il_inv c w [].
Proof.
  intros c w avail (prev & seg & hist & T & SE & E0 & BA & TO & BI).
  exists prev, seg, hist, T. split; [exact SE|]. split; [exact E0|]. split; [constructor|].
  split; [exact TO|].
  replace (il_state w (d_target c) []) with (with_inst (il_state w (d_target c) avail) (w_pending w) []).
  2:{ unfold il_state, with_inst. cbn. rewrite ztake_all by (rewrite zlen_nil; lia). reflexivity. }
  apply binv_with_inst; auto; [apply BI|constructor].
Qed.

Lemma finish_il_bytes : forall c total w avail, il_inv c w avail -> bytes_ok (d_dict c) -> bytes_ok (d_target c) ->
  match finish_il c total w avail with
  | XOk (c', rest) | XEod (c', rest) =>
      bytes_ok (d_target c') /\ bytes_ok rest /\ cstep c c' /\ (exists used, avail = used ++ rest)
  | _ => True
  end.
Proof.
  intros c total w avail (prev & seg & hist & T & SE & E0 & BA & TO & BI) BD BT.
  rewrite finish_il_eq. rewrite SE.
  pose proof (body_loop_bytes (body_fuel (il_state w (d_target c) avail)) _ _ _ _ _ _ _ _ TO BI BD BT) as BB.
  fold (loop (d_dict c) (d_table c) w (zlen prev) (il_state w (d_target c) avail)) in BB.
  pose proof (body_loop_sound (d_dict c) (d_table c) w prev seg (body_fuel (il_state w (d_target c) avail)) _ hist T TO BI) as S.
  fold (loop (d_dict c) (d_table c) w (zlen prev) (il_state w (d_target c) avail)) in S.
  pose proof (bi_target _ _ _ _ _ _ _ _ BI) as TG. cbn [il_state b_target] in TG.
  destruct (loop (d_dict c) (d_table c) w (zlen prev) (il_state w (d_target c) avail)) as [st'|st'| | |] eqn:LOOP; auto.
  - assert (exists more, b_target st' = d_target c ++ more) as (more & MO).
    { destruct S as (h' & T' & BI' & _ & _ & IM). pose proof (bi_target _ _ _ _ _ _ _ _ BI') as TG'.
      assert (exists m, T' = T ++ m) as (m & ->).
      { destruct (b_pending _).
        - destruct IM as [(_ & _ & ->)|(p & items & s1 & HM & IM & _)]; [exists []; rewrite app_nil_r; auto|].
          apply half_means_prefix in HM as (m1 & E1). apply items_mean_prefix in IM as (m2 & E2). cbn in E1, E2.
          exists (m1 ++ m2). rewrite E2, E1, app_assoc. reflexivity.
        - destruct IM as (items & IM & _). apply items_mean_prefix in IM as (m2 & E2). cbn in E2. exists m2. exact E2. }
      exists m. rewrite TG', TG, app_assoc. reflexivity. }
    rewrite ?andb_true_r.
    set (r := zdrop (zlen (ztake (w_expected w) avail)) avail).
    assert (bytes_ok (b_target st') /\ bytes_ok r /\
            cstep c (set_win c None (zlen (b_target st')) (b_target st') total) /\ (exists used, avail = used ++ r)) as X.
    { split; [exact BB|]. split; [apply bytes_ok_zdrop; auto|]. split.
      - rewrite MO. eexists _, _, _, _. reflexivity.
      - exists (ztake (zlen (ztake (w_expected w) avail)) avail). unfold r. rewrite ztake_zdrop. reflexivity. }
    destruct (end_ok w (zlen prev) st' && negb (nonempty (b_inst st')) && b_il st'); [exact X|].
    destruct (_ && _); [exact X|exact I].
  - cbv zeta. destruct (0 <? _); [|exact I].
    destruct (body_loop_eod _ _ _ _ _ _ _ _ _ _ TO BI LOOP) as (h' & bs & BI' & _).
    pose proof (bi_target _ _ _ _ _ _ _ _ BI') as TG'.
    split; [exact BB|]. split; [apply bytes_ok_zdrop; auto|]. split.
    + unfold mid_core. rewrite TG', app_assoc, <- TG. eexists _, _, _, _. reflexivity.
    + eexists. symmetry. apply ztake_zdrop.
Qed.

(** ** Entering a window *)

Lemma header_rel_lens : forall c ns ss fd hdr seg, header_rel c ns ss fd hdr seg ->
  let '(kind, seglen, pos, target_len, n_data, n_inst, n_addr, cks, has_cks) := fd in
  hdr <> [] /\ 0 <= target_len <= int32_max /\ 0 <= n_data <= int32_max /\ 0 <= n_inst <= int32_max /\ 0 <= n_addr <= int32_max.
Proof.
  intros c ns ss fd hdr seg H. destruct fd as [[[[[[[[kind seglen] pos] tl] nd] ni] na] cks] has].
  destruct H as (ind & sb & bd & dl & bt & di & bnd & bni & bna & bcks & -> & _ & _ & _ & _ & _ & _ & V1 & L1 & _ & _ & _ & V2 & L2 & V3 & L3 & V4 & L4 & _).
  apply varint_cons in V1, V2, V3, V4. split; [discriminate|]. lia.
Qed.

(** The state at the start of the body satisfies the invariant of the loop. *)
Lemma binv_init : forall c ns ss fd hdr seg ca il,
  core_ok ns ss c -> header_rel c ns ss fd hdr seg -> cache_init ns ss = Some ca ->
  forall inst dat addr, bytes_ok inst -> bytes_ok dat -> bytes_ok addr ->
  (il = true -> dat = [] /\ addr = []) ->
  binv (d_dict c) (d_table c) (fields_window c fd ca) (d_target c) seg
    {| b_il := il; b_inst := inst; b_data := dat; b_addr := addr;
       b_pending := None; b_cache := ca; b_target := d_target c |} [] [].
Proof.
  intros c ns ss fd hdr seg ca il CO HR CI inst dat addr B1 B2 B3 IL.
  pose proof (header_rel_lens _ _ _ _ _ _ HR) as LE.
  destruct fd as [[[[[[[[kind seglen] pos] tl] nd] ni] na] cks] has].
  destruct HR as (ind & sb & bd & dl & bt & di & bnd & bni & bna & bcks & E & BI & SG & KO & SLM & _).
  destruct (cache_init_like ns ss ca (co_ns _ _ _ CO) (co_ss _ _ _ CO) CI) as (CR & _ & _).
  destruct KO as [KL KK].
  constructor; cbn [fields_window b_target b_cache b_pending b_inst b_data b_addr b_il w_len w_seglen w_kind w_pos]; auto.
  - rewrite app_nil_r. reflexivity.
  - rewrite zlen_nil. lia.
  - lia.
  - split; cbn [w_seglen w_kind w_pos]; [exact KL|]. destruct kind; auto.
  - intros ->. exact KK.
  - exact I.
Qed.

Lemma il_inv_init : forall c ns ss fd hdr seg ca l,
  core_ok ns ss c -> d_win c = None -> header_rel c ns ss fd hdr seg -> cache_init ns ss = Some ca -> bytes_ok l ->
  il_inv c (fields_window c fd ca) l.
Proof.
  intros c ns ss fd hdr seg ca l CO WN HR CI BL.
  exists (d_target c), seg, [], []. pose proof (co_win _ _ _ CO) as CW. rewrite WN in CW.
  split; [exact CW|]. pose proof (header_rel_lens _ _ _ _ _ _ HR) as LE.
  split. { destruct fd as [[[[[[[[kind seglen] pos] tl] nd] ni] na] cks] has]. cbn [fields_window w_expected]. destruct (fields_il _ _); lia. }
  split; [exact BL|]. split; [apply CO|].
  replace (il_state (fields_window c fd ca) (d_target c) l) with
    {| b_il := true; b_inst := ztake (w_expected (fields_window c fd ca)) l; b_data := []; b_addr := [];
       b_pending := None; b_cache := ca; b_target := d_target c |}.
  2:{ destruct fd as [[[[[[[[kind seglen] pos] tl] nd] ni] na] cks] has]. reflexivity. }
  eapply binv_init; eauto; try constructor; auto. apply bytes_ok_ztake. auto.
Qed.

(** ** A standard window whose bytes are all available *)

Lemma std_state_app : forall fd ca target l y,
  (let '(_, _, _, _, n_data, n_inst, n_addr, _, _) := fd in 0 <= n_data /\ 0 <= n_inst /\ 0 <= n_addr) ->
  fields_total fd <= zlen l -> std_state fd ca target (l ++ y) = std_state fd ca target l.
Proof.
  intros [[[[[[[[kind seglen] pos] tl] nd] ni] na] cks] has] ca target l y (A & B & C) L. cbn [fields_total std_state] in *.
  rewrite !(zdrop_app_le _ _ l) by lia. 
  rewrite (ztake_app_le _ nd l) by lia.
  rewrite (ztake_app_le _ ni) by (rewrite zlen_zdrop by lia; lia).
  rewrite (ztake_app_le _ na) by (rewrite zlen_zdrop by lia; lia). reflexivity.
Qed.

Lemma std_state_b_il : forall fd ca target l, b_il (std_state fd ca target l) = false.
Proof. intros [[[[[[[[kind seglen] pos] tl] nd] ni] na] cks] has] ca target l. reflexivity. Qed.

Lemma std_state_cache : forall fd ca target l, b_cache (std_state fd ca target l) = ca.
Proof. intros [[[[[[[[kind seglen] pos] tl] nd] ni] na] cks] has] ca target l. reflexivity. Qed.

Lemma cache_init_bad : forall ns ss ca, cache_init ns ss = Some ca -> cache_bad ca -> ns = 254 /\ ss = 0.
Proof.
  intros ns ss ca H (B1 & B2 & _). unfold cache_init in H. destruct (254 <? ns + ss); [discriminate|].
  injection H as <-. cbn in *. auto.
Qed.

Lemma finish_std : forall c ns ss fd hdr seg ca total l after,
  core_ok ns ss c -> d_win c = None -> header_rel c ns ss fd hdr seg -> cache_init ns ss = Some ca -> bytes_ok l ->
  match finish_window c total (fields_window c fd ca) (std_state fd ca (d_target c) l) l after with
  | XOk (c', rest) => rest = after /\ bytes_ok (d_target c') /\ cstep c c' /\ d_win c' = None /\ d_start c' = zlen (d_target c')
  | XErr => True
  | XUB => ns = 254 /\ ss = 0
  | _ => False
  end.
Proof.
  intros c ns ss fd hdr seg ca total l after CO WN HR CI BL.
  assert (binv (d_dict c) (d_table c) (fields_window c fd ca) (d_target c) seg (std_state fd ca (d_target c) l) [] []) as BI.
  { destruct fd as [[[[[[[[kind seglen] pos] tl] nd] ni] na] cks] has]. cbn [std_state].
    eapply binv_init; eauto; try (intros; discriminate); repeat first [apply bytes_ok_ztake | apply bytes_ok_zdrop]; auto. }
  pose proof (co_table _ _ _ CO) as TO.
  pose proof (co_win _ _ _ CO) as CW. rewrite WN in CW.
  unfold finish_window, decode_body. rewrite CW.
  fold (loop (d_dict c) (d_table c) (fields_window c fd ca) (zlen (d_target c)) (std_state fd ca (d_target c) l)).
  pose proof (loop_total _ _ _ _ _ _ _ _ TO BI) as [NF NU].
  assert (bytes_ok (b_target (std_state fd ca (d_target c) l))) as BT.
  { destruct fd as [[[[[[[[kind seglen] pos] tl] nd] ni] na] cks] has]. apply CO. }
  pose proof (body_loop_bytes (body_fuel (std_state fd ca (d_target c) l)) _ _ _ _ _ _ _ _ TO BI (co_dict _ _ _ CO) BT) as BB.
  pose proof (body_loop_sound (d_dict c) (d_table c) (fields_window c fd ca) (d_target c) seg (body_fuel (std_state fd ca (d_target c) l)) _ [] [] TO BI) as S.
  unfold loop in *.
  destruct (body_loop (body_fuel (std_state fd ca (d_target c) l)) (d_dict c) (d_table c) (fields_window c fd ca) (zlen (d_target c)) (std_state fd ca (d_target c) l)) as [st'|st'| | |]; try congruence; auto.
  - destruct S as (h' & T' & BI' & _).
    pose proof (bi_target _ _ _ _ _ _ _ _ BI') as TG'.
    destruct (negb _); [exact I|]. destruct (_ && _); [exact I|]. destruct (nonempty _); [exact I|].
    destruct (_ && _); [exact I|]. rewrite std_state_b_il.
    split; [reflexivity|]. split; [exact BB|]. split; [|split; reflexivity].
    rewrite TG'. eexists _, _, _, _. reflexivity.
  - rewrite std_state_b_il. exact I.
  - apply (cache_init_bad ns ss ca CI). rewrite std_state_cache in S. exact S.
Qed.

(** ** DecodeWindow *)

Lemma decode_window_some : forall c w data, d_win c = Some w -> decode_window c data = finish_il c (d_total c) w data.
Proof. intros c w data H. unfold decode_window. rewrite H. reflexivity. Qed.

Lemma decode_window_none : forall c ns ss data, d_win c = None -> d_sizes c = Some (ns, ss) ->
  decode_window c data =
  match header_fields c data with
  | Ok (fd, l) =>
      if negb (fields_il c fd) && (zlen l <? fields_total fd) then XEod (c, data)
      else match cache_init ns ss with
           | None => XErr
           | Some ca =>
               let w := fields_window c fd ca in
               let total := to_size (d_total c + w_len w) in
               if fields_il c fd then finish_il c total w l
               else finish_window c total w (std_state fd ca (d_target c) l) l (zdrop (fields_total fd) l)
           end
  | Eod => XEod (c, data)
  | Err => XErr
  | UB => XUB
  end.
Proof.
  intros c ns ss data WN SZ. unfold decode_window. rewrite WN, read_header_eq.
  destruct (header_fields c data) as [[fd l]| | |]; cbn [bind]; try reflexivity.
  destruct (negb (fields_il c fd) && (zlen l <? fields_total fd)); [reflexivity|].
  rewrite SZ. destruct (cache_init ns ss) as [ca|]; [|reflexivity].
  destruct (fields_il c fd); reflexivity.
Qed.

Lemma cstep_trans : forall a b c, cstep a b -> cstep b c -> cstep a c.
Proof.
  intros a b c (w & s & m & t & ->) (w' & s' & m' & t' & ->). cbn [set_win d_target]. rewrite <- app_assoc.
  exists w', s', (m ++ m'), t'. reflexivity.
Qed.

Lemma core_ok_cstep : forall ns ss c c', core_ok ns ss c -> cstep c c' -> bytes_ok (d_target c') ->
  match d_win c' with
  | None => d_start c' = zlen (d_target c')
  | Some w => il_inv c' w []
  end -> (forall w, d_win c' = Some w -> cache_bad (w_cache w) -> ns = 254 /\ ss = 0) -> core_ok ns ss c'.
Proof.
  intros ns ss c c' CO (w & s & m & t & ->) BT W BC. destruct CO. constructor; auto.
Qed.

Lemma finish_il_bad : forall c total w avail, il_inv c w avail ->
  match finish_il c total w avail with
  | XUB => cache_bad (w_cache w)
  | XEod (c', _) => forall w', d_win c' = Some w' -> cache_bad (w_cache w') -> cache_bad (w_cache w)
  | _ => True
  end.
Proof.
  intros c total w avail (prev & seg & hist & T & SE & E0 & BA & TO & BI).
  rewrite finish_il_eq. rewrite SE.
  pose proof (loop_total _ _ _ _ _ _ _ _ TO BI) as [_ NU].
  destruct (loop (d_dict c) (d_table c) w (zlen prev) (il_state w (d_target c) avail)) as [st'|st'| | |] eqn:LOOP; auto.
  - destruct (_ && _ && _); [exact I|]. destruct (_ && _ && _); exact I.
  - cbv zeta. destruct (0 <? _); [|exact I].
    destruct (body_loop_eod _ _ _ _ _ _ _ _ _ _ TO BI LOOP) as (h' & bs & BI' & _ & _ & N1 & _).
    intros w' [= <-] CB. cbn [next_win w_cache] in CB.
    exact (cache_like_bad _ _ _ (bi_cache _ _ _ _ _ _ _ _ BI) N1 CB).
Qed.

Lemma finish_il_step : forall c ns ss total w data y,
  core_ok ns ss c -> il_inv c w data -> bytes_ok y -> (cache_bad (w_cache w) -> ns = 254 /\ ss = 0) ->
  match finish_il c total w data with
  | XOk (c', rest) =>
      core_ok ns ss c' /\ cstep c c' /\ d_win c' = None /\ bytes_ok rest /\ (exists used, data = used ++ rest) /\
      (finish_il c total w (data ++ y) = XOk (c', rest ++ y) \/
       (rest = [] /\ (y <> [] -> finish_il c total w (data ++ y) = XErr)))
  | XErr => finish_il c total w (data ++ y) = XErr
  | XEod (c', rest) =>
      core_ok ns ss c' /\ cstep c c' /\ bytes_ok rest /\ (exists used, data = used ++ rest) /\
      (exists w', d_win c' = Some w') /\
      wrel (decode_window c' (rest ++ y)) (finish_il c total w (data ++ y))
  | XUB => (ns = 254 /\ ss = 0) /\ finish_il c total w (data ++ y) = XUB
  | XFuel => False
  end.
Proof.
  intros c ns ss total w data y CO INV BY BC.
  pose proof (finish_il_bad c total w data INV) as FBAD.
  pose proof (finish_il_ext c total w data y INV BY) as FE.
  pose proof (finish_il_bytes c total w data INV (co_dict _ _ _ CO) (co_target _ _ _ CO)) as FB.
  assert (forall c' rest, finish_il c total w data = XOk (c', rest) -> d_win c' = None /\ d_start c' = zlen (d_target c')) as DN.
  { rewrite finish_il_eq. intros c' rest. destruct (loop _ _ _ _ _); try discriminate.
    - destruct (_ && _ && _); [intros [= <- <-]; split; reflexivity|].
      destruct (_ && _ && _); [intros [= <- <-]; split; reflexivity|discriminate].
    - cbv zeta. destruct (_ <? _); discriminate. }
  destruct (finish_il c total w data) as [[c' rest]|[c' rest]| | |]; auto.
  - destruct (DN c' rest eq_refl) as [W0 W1]. destruct FB as (B1 & B2 & CS & U).
    split. { eapply core_ok_cstep; eauto; [rewrite W0; exact W1|rewrite W0; discriminate]. }
    split; [exact CS|]. split; [exact W0|]. split; [exact B2|]. split; [exact U|].
    destruct (_ <=? _); [left; exact FE|right; exact FE].
  - destruct FB as (B1 & B2 & CS & U). destruct FE as (w' & E1 & E2 & E3 & E4).
    split. { eapply core_ok_cstep; eauto. rewrite E1. eapply il_inv_nil; eauto. }
    split; [exact CS|]. split; [exact B2|]. split; [exact U|]. split; [eauto|].
    rewrite (decode_window_some c' w') by exact E1. rewrite E3. exact E4.
Qed.

Lemma decode_window_step : forall c ns ss data y,
  core_ok ns ss c -> bytes_ok data -> bytes_ok y ->
  match decode_window c data with
  | XOk (c', rest) =>
      core_ok ns ss c' /\ cstep c c' /\ d_win c' = None /\ bytes_ok rest /\
      (exists used, data = used ++ rest /\ (d_win c = None -> used <> [])) /\
      (decode_window c (data ++ y) = XOk (c', rest ++ y) \/
       (allow_extensions c = true \/ d_win c <> None) /\ rest = [] /\ (y <> [] -> decode_window c (data ++ y) = XErr))
  | XErr => decode_window c (data ++ y) = XErr
  | XEod (c', rest) =>
      core_ok ns ss c' /\ cstep c c' /\ bytes_ok rest /\ (exists used, data = used ++ rest) /\
      ((c' = c /\ rest = data) \/ ((allow_extensions c = true \/ d_win c <> None) /\ exists w', d_win c' = Some w')) /\
      wrel (decode_window c' (rest ++ y)) (decode_window c (data ++ y))
  | XUB => (ns = 254 /\ ss = 0) /\ decode_window c (data ++ y) = XUB
  | XFuel => False
  end.
Proof.
  intros c ns ss data y CO BD BY. destruct (d_win c) as [w|] eqn:DW.
  - rewrite !(decode_window_some c w) by exact DW.
    pose proof (co_win _ _ _ CO) as CW. rewrite DW in CW.
    pose proof (finish_il_step c ns ss (d_total c) w data y CO (il_inv_more c w [] data CW BD) BY (co_bad _ _ _ CO w DW)) as FS.
    destruct (finish_il c (d_total c) w data) as [[c' rest]|[c' rest]| | |]; auto.
    + destruct FS as (A1 & A2 & A3 & A4 & (used & A5) & A6). split; [exact A1|]. split; [exact A2|]. split; [exact A3|]. split; [exact A4|].
      split; [exists used; split; [exact A5|congruence]|]. destruct A6 as [A6|A6]; [left; exact A6|right].
      split; [right; discriminate|exact A6].
    + destruct FS as (A1 & A2 & A4 & A5 & A6 & A7). split; [exact A1|]. split; [exact A2|]. split; [exact A4|]. split; [exact A5|].
      split; [|exact A7]. right. split; [right; discriminate|exact A6].
  - rewrite !(decode_window_none c ns ss) by (auto; apply CO).
    pose proof (header_fields_mono c data y) as HM.
    pose proof (fun fd l E => header_sound c ns ss data fd l BD E) as HS.
    assert (forall P : Prop, P -> (core_ok ns ss c /\ cstep c c /\ bytes_ok data /\ (exists used, data = used ++ data) /\
      ((c = c /\ data = data) \/ P) /\ wrel (decode_window c (data ++ y)) (decode_window c (data ++ y)))) as TRIV.
    { intros P _. split; [exact CO|]. split; [apply cstep_refl|]. split; [exact BD|]. split; [exists []; reflexivity|].
      split; [left; auto|]. apply wrel_eq. reflexivity. }
    rewrite <- !(decode_window_none c ns ss (data ++ y)) in * by (auto; apply CO).
    destruct (header_fields c data) as [[fd l]| | |] eqn:HF.
    + destruct (HS fd l eq_refl) as (hdr & seg & ED & HR & BL). clear HS.
      pose proof (header_rel_lens _ _ _ _ _ _ HR) as LE.
      destruct (negb (fields_il c fd) && (zlen l <? fields_total fd)) eqn:SHORT.
      { specialize (TRIV True I). destruct TRIV as (A1 & A2 & A3 & A4 & _ & A5). auto 10. }
      rewrite (decode_window_none c ns ss (data ++ y)) by (auto; apply CO). rewrite HM.
      replace (negb (fields_il c fd) && (zlen (l ++ y) <? fields_total fd)) with false.
      2:{ rewrite zlen_app. pose proof (zlen_nonneg _ y). destruct (negb _); [|reflexivity]. cbn [andb] in *. lia. }
      destruct (cache_init ns ss) as [ca|] eqn:CI; [|reflexivity]. cbv zeta.
      destruct (fields_il c fd) eqn:IL.
      * pose proof (il_inv_init c ns ss fd hdr seg ca l CO DW HR CI BL) as INV.
        assert (allow_extensions c = true) as AE.
        { destruct fd as [[[[[[[[kind seglen] pos] tl] nd] ni] na] cks] has]. cbn [fields_il] in IL. lia. }
        pose proof (finish_il_step c ns ss (to_size (d_total c + w_len (fields_window c fd ca))) _ l y CO INV BY ltac:(destruct fd as [[[[[[[[kind seglen] pos] tl] nd] ni] na] cks] has]; exact (cache_init_bad ns ss ca CI))) as FS.
        destruct (finish_il c _ _ l) as [[c' rest]|[c' rest]| | |]; auto.
        -- destruct FS as (A1 & A2 & A3 & A4 & (used & A5) & A6). split; [exact A1|]. split; [exact A2|]. split; [exact A3|]. split; [exact A4|].
           split. { exists (hdr ++ used). split; [rewrite ED, A5, app_assoc; reflexivity|]. intros _.
                    destruct fd as [[[[[[[[kind seglen] pos] tl] nd] ni] na] cks] has]. destruct LE as [LE _]. destruct hdr; [congruence|discriminate]. }
           destruct A6 as [A6|A6]; [left; exact A6|right]. split; [left; exact AE|exact A6].
        -- destruct FS as (A1 & A2 & A4 & (used & A5) & A6 & A7). split; [exact A1|]. split; [exact A2|]. split; [exact A4|].
           split; [exists (hdr ++ used); rewrite ED, A5, app_assoc; reflexivity|].
           split; [right; split; [left; exact AE|exact A6]|]. exact A7.
      * assert (fields_total fd <= zlen l) as FT by (cbn [negb andb] in SHORT; lia).
        rewrite std_state_app; [|destruct fd as [[[[[[[[kind seglen] pos] tl] nd] ni] na] cks] has]; lia|exact FT].
        rewrite zdrop_app_le by exact FT.
        set (total := to_size _). set (w := fields_window c fd ca).
        pose proof (finish_std c ns ss fd hdr seg ca total l (zdrop (fields_total fd) l) CO DW HR CI BL) as FS.
        fold w in FS.
        assert (forall av af, finish_window c total w (std_state fd ca (d_target c) l) av af =
          match finish_window c total w (std_state fd ca (d_target c) l) l (zdrop (fields_total fd) l) with
          | XOk (c', rest) => XOk (c', af) | r => r end) as IND.
        { intros av af. unfold finish_window. rewrite std_state_b_il.
          destruct (decode_body _ _ _ _ _); reflexivity. }
        rewrite (IND (l ++ y)).
        destruct (finish_window c total w (std_state fd ca (d_target c) l) l (zdrop (fields_total fd) l)) as [[c' rest]|[c' rest]| | |]; try contradiction; auto.
        destruct FS as (-> & B1 & CS & W0 & W1).
        split. { eapply core_ok_cstep; eauto; [rewrite W0; exact W1|rewrite W0; discriminate]. }
        split; [exact CS|]. split; [exact W0|]. split; [apply bytes_ok_zdrop; auto|].
        split; [|left; reflexivity].
        exists (hdr ++ ztake (fields_total fd) l). rewrite <- app_assoc, ztake_zdrop. split; [exact ED|]. intros _.
        destruct fd as [[[[[[[[kind seglen] pos] tl] nd] ni] na] cks] has]. destruct LE as [LE _]. destruct hdr; [congruence|discriminate].
    + specialize (TRIV True I). destruct TRIV as (A1 & A2 & A3 & A4 & _ & A5). auto 10.
    + rewrite (decode_window_none c ns ss (data ++ y)) by (auto; apply CO). rewrite HM. reflexivity.
    + destruct HM.
Qed.

(** ** Unread opcodes that stand for nothing make no difference *)

Lemma srel_core_ok : forall ns ss c u c' u', core_ok ns ss c -> srel (c, u) (c', u') -> bytes_ok u ->
  core_ok ns ss c' /\ bytes_ok u'.
Proof.
  intros ns ss c u c' u' CO [E|(w & nops & W & P & L & F & E)] BU.
  - injection E as <- <-. auto.
  - cbn [fst snd] in *. injection E as -> ->. split.
    + pose proof (co_win _ _ _ CO) as CW. rewrite W in CW.
      destruct CO. constructor; auto; cbn [set_win d_win]; [|intros w0 [= <-]; exact (co_bad0 w W)].
      destruct CW as (prev & seg & hist & T & SE & E0 & BA & TO & BI).
      exists prev, seg, hist, T. split; [exact SE|]. pose proof (zlen_nonneg _ nops).
      split; [cbn; lia|]. split; [constructor|]. split; [exact TO|].
      apply (binv_same _ _ w); [apply next_win_same|].
      replace (il_state (next_win w (w_expected w + zlen nops) None (w_cache w)) _ []) with (il_state w (d_target c) []); [exact BI|].
      unfold il_state. cbn [set_win d_target next_win w_expected w_pending w_cache].
      rewrite !ztake_all by (rewrite zlen_nil; lia). rewrite P. reflexivity.
    + apply bytes_ok_app. split; [|exact BU]. eapply Forall_impl; [|exact F]. intros b [B _]. exact B.
Qed.

Lemma decode_window_srel : forall ns ss c u c' u' y,
  core_ok ns ss c -> srel (c, u) (c', u') -> bytes_ok u -> bytes_ok y ->
  wrel (decode_window c (u ++ y)) (decode_window c' (u' ++ y)).
Proof.
  intros ns ss c u c' u' y CO SR BU BY.
  destruct (srel_core_ok ns ss c u c' u' CO SR BU) as [CO' BU'].
  destruct SR as [E|(w & nops & W & P & L & F & E)].
  { injection E as <- <-. apply wrel_eq. reflexivity. }
  cbn [fst snd] in *. injection E as EC ->.
  set (w' := next_win w (w_expected w + zlen nops) None (w_cache w)) in *.
  rewrite (decode_window_some c w) by exact W. rewrite (decode_window_some c' w') by (subst c'; reflexivity).
  pose proof (co_win _ _ _ CO) as CW. rewrite W in CW.
  pose proof (il_inv_more c w [] (u ++ y) CW ltac:(apply bytes_ok_app; auto)) as (prev & seg & hist & T & SE & E0 & BA & TO & BI).
  cbn [app] in *. rewrite <- app_assoc. set (data := u ++ y) in *.
  rewrite !finish_il_eq.
  assert (d_dict c' = d_dict c /\ d_table c' = d_table c /\ d_start c' = d_start c /\ d_target c' = d_target c /\ d_total c' = d_total c)
    as (-> & -> & -> & -> & ->) by (subst c'; repeat split).
  pose proof (zlen_nonneg _ nops) as NN.
  assert (ztake (w_expected w') (nops ++ data) = nops ++ ztake (w_expected w) data) as ZT.
  { cbn [w' next_win w_expected]. rewrite ztake_app, ztake_all by lia. f_equal. f_equal. lia. }
  assert (il_state w' (d_target c) (nops ++ data) = with_inst (il_state w (d_target c) data) None (nops ++ b_inst (il_state w (d_target c) data))) as IS.
  { unfold il_state, with_inst. cbn [b_inst]. rewrite ZT. reflexivity. }
  rewrite IS. rewrite (loop_same _ _ w w') by apply next_win_same. rewrite SE.
  set (st := il_state w (d_target c) data) in *.
  assert (BI2 : binv (d_dict c) (d_table c) w prev seg (with_inst st None (nops ++ b_inst st)) hist T).
  { apply binv_with_inst; auto; [exact I|]. apply bytes_ok_app. split; [|apply BI].
    eapply Forall_impl; [|exact F]. intros b [B _]. exact B. }
  assert (xrel (d_table c) (loop (d_dict c) (d_table c) w (zlen prev) st)
            (loop (d_dict c) (d_table c) w (zlen prev) (with_inst st None (nops ++ b_inst st)))) as XR.
  { pose proof (body_loop_nops (body_fuel (with_inst st None (nops ++ b_inst st))) (d_dict c) (d_table c) w (zlen prev) st nops P F) as X.
    unfold loop. rewrite (body_loop_fuel (d_dict c) (d_table c) w prev seg st hist T (body_fuel (with_inst st None (nops ++ b_inst st))) _ TO BI eq_refl).
    - apply X. cbn [st il_state b_target]. rewrite SE in L. exact L.
    - eapply body_loop_total; eauto. pose proof (body_fuel_ok st). unfold body_fuel in *. cbn [with_inst b_inst]. rewrite app_length. lia. }
  pose proof (loop_il _ _ _ _ _ _ _ _ TO BI) as LI.
  assert (forall st', end_ok w' (zlen prev) st' = end_ok w (zlen prev) st') as EE by reflexivity.
  assert (zlen (nops ++ ztake (w_expected w) data) = zlen nops + zlen (ztake (w_expected w) data)) as ZL by apply zlen_app.
  assert (forall k, 0 <= k -> zdrop (zlen nops + k) (nops ++ data) = zdrop k data) as ZD.
  { intros k K. rewrite zdrop_app_ge by lia. f_equal. lia. }
  assert (forall w0 s tg tot, set_win c' w0 s tg tot = set_win c w0 s tg tot) as SW by (subst c'; reflexivity).
  destruct XR as [XR|(s & n2 & X1 & X2 & X3 & X4 & X5)].
  - rewrite <- XR.
    destruct (loop (d_dict c) (d_table c) w (zlen prev) st) as [st'|st'| | |] eqn:LOOP; try (apply wrel_eq; reflexivity).
    + rewrite EE, ZT, ZL, ZD by apply zlen_nonneg. rewrite SW. apply wrel_eq. reflexivity.
    + cbv zeta. rewrite ZT, ZL.
      destruct (body_loop_eod _ _ _ _ _ _ _ _ _ _ TO BI LOOP) as (h' & bs & BI' & LT & IL' & N1 & N2 & pre & PRE).
      cbn [st il_state b_inst] in PRE.
      assert (0 <= zlen (ztake (w_expected w) data) - zlen (b_inst st')) as NNG.
      { rewrite PRE, zlen_app. pose proof (zlen_nonneg _ pre). lia. }
      replace (zlen nops + zlen (ztake (w_expected w) data) - zlen (b_inst st')) with (zlen nops + (zlen (ztake (w_expected w) data) - zlen (b_inst st'))) by lia.
      rewrite ZD by lia. cbn [w' next_win w_expected].
      replace (w_expected w + zlen nops - (zlen nops + (zlen (ztake (w_expected w) data) - zlen (b_inst st')))) with
        (w_expected w - (zlen (ztake (w_expected w) data) - zlen (b_inst st'))) by lia.
      apply wrel_eq. subst c'. reflexivity.
  - rewrite X1, X5. cbv zeta. rewrite ZT, ZL. cbn [with_inst b_inst b_pending b_cache b_target]. rewrite zlen_app.
    pose proof (zlen_nonneg _ n2) as NN2.
    destruct (body_loop_eod _ _ _ _ _ _ _ _ _ _ TO BI X1) as (h' & bs & BI' & LT & IL' & N1 & N2 & pre & PRE).
    destruct (body_loop_eod _ _ _ _ _ _ _ _ _ _ TO BI2 X5) as (_ & _ & _ & _ & _ & _ & _ & pre2 & PRE2).
    cbn [with_inst b_inst] in PRE2. cbn [st il_state b_inst] in PRE, PRE2.
    pose proof (zlen_nonneg _ pre). pose proof (zlen_nonneg _ pre2).
    assert (zlen (ztake (w_expected w) data) = zlen pre + zlen (b_inst s)) as Z1 by (rewrite PRE, zlen_app; reflexivity).
    assert (zlen nops + zlen (ztake (w_expected w) data) = zlen pre2 + zlen n2 + zlen (b_inst s)) as Z2.
    { rewrite <- zlen_app, PRE2, !zlen_app. lia. }
    assert (zlen (ztake (w_expected w) data) <= w_expected w) as Z3 by (rewrite zlen_ztake by lia; lia).
    assert (1 <= zlen (b_inst s)) as Z4.
    { clear - X3. destruct (b_inst s); [congruence|]. rewrite zlen_cons. pose proof (zlen_nonneg _ l). lia. }
    set (n := zlen (ztake (w_expected w) data)) in *.
    destruct (Z.ltb_spec 0 (w_expected w - (n - zlen (b_inst s)))) as [L1|L1]; [|lia].
    destruct (Z.ltb_spec 0 (w_expected w' - (zlen nops + n - (zlen n2 + zlen (b_inst s))))) as [L2|L2]; [|cbn [w' next_win w_expected] in L2; lia].
    right. cbn [fst snd]. rewrite X2. eexists _, n2. split; [reflexivity|]. split; [reflexivity|].
    split. { cbn [mid_core set_win d_target d_start next_win w_len]. rewrite (bi_target _ _ _ _ _ _ _ _ BI').
             rewrite SE, (zlen_app _ prev). lia. }
    split; [exact X4|]. f_equal.
    + subst c'. unfold mid_core, set_win. cbn. f_equal. f_equal. unfold next_win. cbn. f_equal. lia.
    + replace (n - zlen (b_inst s)) with (zlen pre) by lia.
      replace (zlen nops + n - (zlen n2 + zlen (b_inst s))) with (zlen pre2) by lia.
      assert (data = ztake (w_expected w) data ++ zdrop (w_expected w) data) as DD by (symmetry; apply ztake_zdrop).
      assert (zdrop (zlen pre) data = b_inst s ++ zdrop (w_expected w) data) as D1.
      { rewrite DD at 1. rewrite PRE. rewrite <- app_assoc. apply zdrop_app_eq. reflexivity. }
      assert (zdrop (zlen pre2) (nops ++ data) = n2 ++ b_inst s ++ zdrop (w_expected w) data) as D2.
      { rewrite DD at 1. rewrite app_assoc. rewrite PRE2. rewrite <- !app_assoc. apply zdrop_app_eq. reflexivity. }
      rewrite D1, D2. reflexivity.
Qed.
