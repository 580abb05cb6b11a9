(** The decoder with all target data kept.

    A decoder that does not allow VCD_TARGET throws away the target data after
    each window, and every decoder remembers how much of the target it has
    output already.  Neither matters for what is decoded: this file relates a
    decoder to one that keeps everything ([full]). *)

From Verif Require Import Base Spec Varint VarintFacts AddrCache AddrCacheFacts CodeTable
  InstructionMap DecodeTable HeaderParser Adler AdlerFacts Decoder CopyFacts BodyFacts BodyExt WindowExt
  WindowHeader WindowStep.
From Coq Require Import ZifyBool ZifyNat.

(** ** Target data in front of the window *)

Definition shiftb (pre : list Z) (st : body) : body :=
  {| b_il := b_il st; b_inst := b_inst st; b_data := b_data st; b_addr := b_addr st;
     b_pending := b_pending st; b_cache := b_cache st; b_target := pre ++ b_target st |}.

Definition xmap {A B} (f : A -> B) (r : xres A) : xres B :=
  match r with
  | XOk a => XOk (f a) | XEod a => XEod (f a) | XErr => XErr | XUB => XUB | XFuel => XFuel
  end.

Definition free (pre : list Z) (w : window) : Prop := pre = [] \/ w_kind w <> SegTarget.

Lemma slice_shift : forall (pre t s : list Z) off n, slice t off n = Some s -> slice (pre ++ t) (zlen pre + off) n = Some s.
Proof.
  intros pre t s off n H. apply slice_inv in H as (H1 & H2 & H3 & -> & _). pose proof (zlen_nonneg _ pre).
  rewrite slice_some by (try rewrite zlen_app; lia). f_equal. f_equal. rewrite zdrop_app_ge by lia. f_equal. lia.
Qed.

Lemma append_target_shift : forall pre cap t b,
  append_target (zlen pre + cap) (pre ++ t) b = option_map (app pre) (append_target cap t b).
Proof.
  intros. unfold append_target. rewrite zlen_app.
  destruct (Z.leb_spec (zlen t + zlen b) cap); destruct (Z.leb_spec (zlen pre + zlen t + zlen b) (zlen pre + cap)); try lia; cbn [option_map];
    [rewrite app_assoc|]; reflexivity.
Qed.

Lemma read_source_shift : forall dict w pre t a n s, free pre w ->
  read_source dict w t a n = Some s -> read_source dict w (pre ++ t) a n = Some s.
Proof.
  intros dict w pre t a n s [->|F] H; [exact H|]. unfold read_source in *. destruct (w_kind w); auto. congruence.
Qed.

Lemma copy_loop_shift : forall f pre cap start t td a n,
  copy_loop f cap start t td a n <> XUB ->
  copy_loop f (zlen pre + cap) (zlen pre + start) (pre ++ t) td a n = xmap (app pre) (copy_loop f cap start t td a n).
Proof.
  induction f as [|f IH]; intros pre cap start t td a n N; [reflexivity|]. cbn [copy_loop] in *.
  rewrite <- !Z.add_assoc. destruct (td - a <? n).
  - destruct (slice t (start + a) (td - a)) as [bs|] eqn:S; [|congruence].
    rewrite (slice_shift _ _ _ _ _ S). rewrite append_target_shift.
    destruct (append_target cap t bs) as [t'|]; [|congruence]. cbn [option_map]. apply IH. exact N.
  - destruct (slice t (start + a) n) as [bs|] eqn:S; [|congruence].
    rewrite (slice_shift _ _ _ _ _ S). rewrite append_target_shift.
    destruct (append_target cap t bs) as [t'|]; [|congruence]. reflexivity.
Qed.

Lemma copy_bytes_shift : forall dict w pre start t a n, free pre w ->
  copy_bytes dict w start t a n <> XUB ->
  copy_bytes dict w (zlen pre + start) (pre ++ t) a n = xmap (app pre) (copy_bytes dict w start t a n).
Proof.
  intros dict w pre start t a n F N. unfold copy_bytes in *. rewrite zlen_app.
  replace (zlen pre + zlen t - (zlen pre + start)) with (zlen t - start) by lia.
  rewrite <- Z.add_assoc.
  destruct (a + n <=? w_seglen w).
  - destruct (read_source dict w t a n) as [bs|] eqn:R; [|congruence]. rewrite (read_source_shift _ _ _ _ _ _ _ F R).
    rewrite append_target_shift. destruct (append_target _ t bs) as [t'|]; [|congruence]. reflexivity.
  - destruct (a <? w_seglen w).
    + destruct (read_source dict w t a _) as [bs|] eqn:R; [|congruence]. rewrite (read_source_shift _ _ _ _ _ _ _ F R).
      rewrite append_target_shift. destruct (append_target _ t bs) as [t'|]; [|congruence]. cbn [option_map].
      apply copy_loop_shift. exact N.
    + apply copy_loop_shift. exact N.
Qed.

Lemma decode_instruction_shift : forall dict w pre start st ty n m, free pre w ->
  decode_instruction dict w start st ty n m <> XUB \/ (cache_bad (b_cache st) /\ 0 <= m < 256) ->
  decode_instruction dict w (zlen pre + start) (shiftb pre st) ty n m = xmap (shiftb pre) (decode_instruction dict w start st ty n m).
Proof.
  intros dict w pre start st ty n m F N. unfold decode_instruction in *.
  destruct (ty =? VCD_ADD); [|destruct (ty =? VCD_RUN); [|destruct (ty =? VCD_COPY); [|reflexivity]]].
  - unfold decode_add in *. change (data_of (shiftb pre st)) with (data_of st).
    destruct (zlen (data_of st) <? n); [reflexivity|]. cbn [shiftb b_target].
    rewrite <- Z.add_assoc, append_target_shift. destruct (append_target _ (b_target st) _) as [t'|]; reflexivity.
  - unfold decode_run in *. change (data_of (shiftb pre st)) with (data_of st).
    destruct (data_of st) as [|b tl]; [reflexivity|]. cbn [shiftb b_target].
    rewrite <- Z.add_assoc, append_target_shift. destruct (append_target _ (b_target st) _) as [t'|]; reflexivity.
  - unfold decode_copy in *. change (addr_of (shiftb pre st)) with (addr_of st). cbn [shiftb b_target b_cache].
    rewrite zlen_app. replace (zlen pre + zlen (b_target st) - (zlen pre + start)) with (zlen (b_target st) - start) by lia.
    destruct (decode_address _ _ _ _) as [[[a rest] c]| | |] eqn:DA; try reflexivity.
    destruct N as [N|[N1 N2]]; [|exfalso; pose proof (bad_decode _ (to_int32 (w_seglen w + (zlen (b_target st) - start))) m (addr_of st) N1 N2) as X; rewrite DA in X; exact X].
    rewrite copy_bytes_shift; auto. 2:{ intros E. rewrite E in N. congruence. }
    destruct (copy_bytes dict w start (b_target st) a n) as [t'|t'| | |]; reflexivity.
Qed.

Lemma body_loop_shift : forall f dict t w pre prev seg st hist T, free pre w ->
  table_ok t -> binv dict t w prev seg st hist T ->
  body_loop f dict t w (zlen pre + zlen prev) (shiftb pre st) = xmap (shiftb pre) (body_loop f dict t w (zlen prev) st).
Proof.
  induction f as [|f IH]; intros dict t w pre prev seg st hist T F TO BI; cbn [body_loop] in *; cbn [shiftb b_target b_pending b_inst];
    rewrite zlen_app; replace (zlen pre + zlen (b_target st) - (zlen pre + zlen prev)) with (zlen (b_target st) - zlen prev) by lia.
  - destruct (zlen (b_target st) - zlen prev <? w_len w); reflexivity.
  - destruct (zlen (b_target st) - zlen prev <? w_len w); [|reflexivity].
    pose proof (gni_sound t (b_pending st) (b_inst st) TO (bi_binst _ _ _ _ _ _ _ _ BI) (bi_pending _ _ _ _ _ _ _ _ BI)) as G.
    destruct (get_next_instruction t (b_pending st) (b_inst st)) as [ty n m p rest|p rest|]; try reflexivity.
    destruct G as (k & ps & FO & NE & SC & PO & BR & SM).
    pose proof (size_code_nonneg k ps n SC) as SZ.
    destruct (binv_lens _ _ _ _ _ _ _ _ BI) as (TL & SL & SN).
    destruct ((w_len w <? n) || (w_len w <? n + (zlen (b_target st) - zlen prev))) eqn:CK; [reflexivity|].
    change (with_inst (shiftb pre st) p rest) with (shiftb pre (with_inst st p rest)).
    assert (binv dict t w prev seg (with_inst st p rest) hist T) as BI1 by (apply binv_with_inst; auto).
    pose proof (exec_sound dict t w prev seg _ hist T ty n m BI1 ltac:(lia) ltac:(lia) ltac:(intros; lia)) as E.
    rewrite decode_instruction_shift; auto.
    2:{ destruct (decode_instruction dict w (zlen prev) (with_inst st p rest) ty n m); try (left; discriminate).
        right. split; [exact E|lia]. }
    destruct (decode_instruction dict w (zlen prev) (with_inst st p rest) ty n m) as [st'|st'| | |]; try reflexivity.
    cbn [xmap]. destruct E as (pd & pa & h2 & T2 & _ & _ & BI2 & _). eapply IH; eauto.
Qed.

Lemma decode_body_shift : forall dict t w pre prev seg st hist T, free pre w ->
  table_ok t -> binv dict t w prev seg st hist T ->
  decode_body dict t w (zlen pre + zlen prev) (shiftb pre st) = xmap (shiftb pre) (decode_body dict t w (zlen prev) st).
Proof.
  intros dict t w pre prev seg st hist T F TO BI. unfold decode_body in *. change (body_fuel (shiftb pre st)) with (body_fuel st).
  rewrite (body_loop_shift _ _ _ _ _ _ _ _ _ _ F TO BI).
  destruct (body_loop (body_fuel st) dict t w (zlen prev) st) as [st'|st'| | |]; try reflexivity. cbn [xmap].
  cbn [shiftb b_target b_inst b_il b_data b_addr]. rewrite zlen_app.
  replace (zlen pre + zlen (b_target st') - (zlen pre + zlen prev)) with (zlen (b_target st') - zlen prev) by lia.
  pose proof (zlen_nonneg _ pre). pose proof (zlen_nonneg _ prev).
  rewrite zdrop_app_ge by lia. replace (zlen pre + zlen prev - zlen pre) with (zlen prev) by lia.
  destruct (negb _); [reflexivity|]. destruct (_ && _); [reflexivity|]. destruct (nonempty _); [reflexivity|].
  destruct (_ && _); reflexivity.
Qed.

(** ** The decoder that keeps everything *)

Definition full (pre : list Z) (c : core) : core :=
  {| d_started := d_started c; d_dict := d_dict c; d_unparsed := [];
     d_target := pre ++ d_target c; d_version := d_version c; d_sizes := d_sizes c;
     d_string := []; d_planned := d_planned c; d_max_file := d_max_file c;
     d_max_window := d_max_window c; d_total := d_total c; d_out_pos := 0;
     d_allow := d_allow c; d_win := d_win c; d_start := zlen pre + d_start c; d_table := d_table c |}.

Definition shiftable (pre : list Z) (c : core) : Prop :=
  pre = [] \/ (d_allow c = false /\ match d_win c with Some w => w_kind w <> SegTarget | None => True end).

Lemma full_set_win : forall pre c w s t n, full pre (set_win c w s t n) = set_win (full pre c) w (zlen pre + s) (pre ++ t) n.
Proof. reflexivity. Qed.

Lemma finish_window_full : forall pre c total w st avail after, free pre w ->
  (exists prev seg hist T, d_start c = zlen prev /\ table_ok (d_table c) /\ binv (d_dict c) (d_table c) w prev seg st hist T) ->
  finish_window (full pre c) total w (shiftb pre st) avail after =
  xmap (fun p => (full pre (fst p), snd p)) (finish_window c total w st avail after).
Proof.
  intros pre c total w st avail after F (prev & seg & hist & T & SE & TO & BI). unfold finish_window in *.
  cbn [full d_dict d_table d_start]. rewrite SE. rewrite (decode_body_shift _ _ _ _ _ _ _ _ _ F TO BI).
  destruct (decode_body (d_dict c) (d_table c) w (zlen prev) st) as [st'|st'| | |]; try reflexivity; cbn [xmap].
  - cbn [shiftb b_target b_inst b_il fst snd]. rewrite full_set_win, zlen_app. reflexivity.
  - cbn [shiftb b_target b_inst b_il b_pending b_cache]. cbv zeta. destruct (_ && _); [|reflexivity].
    cbn [xmap fst snd]. rewrite full_set_win. reflexivity.
Qed.

Lemma finish_window_kind : forall c total w st avail after,
  match finish_window c total w st avail after with
  | XOk (c', _) => d_win c' = None
  | XEod (c', _) => match d_win c' with Some w' => w_kind w' = w_kind w | None => False end
  | _ => True
  end.
Proof.
  intros. unfold finish_window. destruct (decode_body _ _ _ _ _); auto.
  cbv zeta. destruct (_ && _); auto. reflexivity.
Qed.

Lemma header_fields_full : forall pre c data, shiftable pre c -> header_fields (full pre c) data = header_fields c data.
Proof.
  intros pre c data [->|[AL _]].
  - unfold header_fields. cbn [full d_dict d_target d_allow app]. reflexivity.
  - unfold header_fields. cbn [full d_dict d_target d_allow]. rewrite AL.
    unfold parse_win_indicator. destruct (parse_byte data) as [[ind l]| | |]; cbn [bind]; reflexivity.
Qed.

Lemma header_fields_kind : forall c data fd l, d_allow c = false -> header_fields c data = Ok (fd, l) ->
  let '(kind, _, _, _, _, _, _, _, _) := fd in kind <> SegTarget.
Proof.
  intros c data [[[[[[[[kind seglen] pos] tl] nd] ni] na] cks] has] l AL H. unfold header_fields in H. rewrite AL in H.
  destruct (parse_win_indicator _ _ _ data) as [[[[[ind k] len] p] r]| | |] eqn:PW; cbn [bind] in H; try discriminate.
  assert (k <> SegTarget) as K.
  { unfold parse_win_indicator in PW. destruct (parse_byte data) as [[i2 l2]| | |]; cbn [bind] in PW; try discriminate.
    cbn [negb] in PW. destruct (Z.testbit i2 0), (Z.testbit i2 1); try discriminate.
    - destruct (parse_source_segment _ _) as [[[a b] d]| | |]; cbn [bind] in PW; try discriminate. congruence.
    - congruence. }
  destruct (parse_size r) as [[dl s]| | |]; cbn [bind] in H; try discriminate.
  destruct (parse_size s) as [[tl2 s2]| | |]; cbn [bind] in H; try discriminate.
  destruct (would_exceed c tl2); try discriminate.
  destruct (parse_delta_indicator s2) as [s3| | |]; cbn [bind] in H; try discriminate.
  destruct (parse_section_lengths _ _ _ _) as [[[[[x1 x2] x3] x4] x5]| | |]; cbn [bind] in H; try discriminate.
  congruence.
Qed.

Definition fullp (pre : list Z) (p : core * list Z) : core * list Z := (full pre (fst p), snd p).

Lemma decode_window_full : forall pre c ns ss data, core_ok ns ss c -> shiftable pre c -> bytes_ok data ->
  decode_window (full pre c) data = xmap (fullp pre) (decode_window c data).
Proof.
  intros pre c ns ss data CO SH BD.
  pose proof (co_win _ _ _ CO) as CW.
  destruct (d_win c) as [w|] eqn:DW.
  - apply (il_inv_more c w [] data) in CW; [|exact BD]. cbn [app] in CW.
    destruct CW as (prev & seg & hist & T & SE & E0 & BA & TO & BI).
    unfold decode_window in *. cbn [full d_win]. rewrite DW in *.
    apply (finish_window_full pre c (d_total c) w (il_state w (d_target c) data) data []); eauto 10.
    destruct SH as [->|[_ SH]]; [left; reflexivity|]. rewrite DW in SH. right. exact SH.
  - rewrite (decode_window_none (full pre c) ns ss) by (auto; apply CO).
    rewrite (decode_window_none c ns ss) in * by (auto; apply CO).
    rewrite header_fields_full by exact SH.
    destruct (header_fields c data) as [[fd l]| | |] eqn:HF; try reflexivity.
    change (fields_il (full pre c) fd) with (fields_il c fd).
    destruct (header_sound c ns ss data fd l BD HF) as (hdr & seg & ED & HR & BL).
    destruct (negb (fields_il c fd) && (zlen l <? fields_total fd)); [reflexivity|].
    destruct (cache_init ns ss) as [ca|] eqn:CI; [|reflexivity]. cbv zeta in *.
    assert (fields_window (full pre c) fd ca = fields_window c fd ca) as FW.
    { destruct fd as [[[[[[[[kind seglen] pos] tl] nd] ni] na] cks] has]. reflexivity. }
    assert (free pre (fields_window c fd ca)) as FR.
    { destruct SH as [->|[AL _]]; [left; reflexivity|right]. pose proof (header_fields_kind _ _ _ _ AL HF) as K.
      destruct fd as [[[[[[[[kind seglen] pos] tl] nd] ni] na] cks] has]. exact K. }
    rewrite FW. cbn [full d_total d_target].
    destruct (fields_il c fd).
    + unfold finish_il in *. apply (finish_window_full pre c _ _ (il_state (fields_window c fd ca) (d_target c) l)); auto.
      destruct (il_inv_init c ns ss fd hdr seg ca l CO DW HR CI BL) as (prev & sg & hist & T & SE & E0 & BA & TO & BI). eauto 10.
    + replace (std_state fd ca (pre ++ d_target c) l) with (shiftb pre (std_state fd ca (d_target c) l)).
      2:{ destruct fd as [[[[[[[[kind seglen] pos] tl] nd] ni] na] cks] has]. reflexivity. }
      apply finish_window_full; auto. exists (d_target c), seg, [], []. split; [exact CW|]. split; [apply CO|].
      destruct fd as [[[[[[[[kind seglen] pos] tl] nd] ni] na] cks] has]. cbn [std_state].
      eapply binv_init; eauto; try (intros; discriminate); repeat first [apply bytes_ok_ztake | apply bytes_ok_zdrop]; auto.
Qed.

Lemma decode_window_shiftable : forall pre c data, shiftable pre c ->
  match decode_window c data with
  | XOk (c', _) | XEod (c', _) => shiftable pre c' /\ d_allow c' = d_allow c
  | _ => True
  end.
Proof.
  intros pre c data SH.
  assert (match decode_window c data with XOk (c', _) | XEod (c', _) => d_allow c' = d_allow c | _ => True end) as AL.
  { unfold decode_window. destruct (d_win c) as [w|].
    - unfold finish_window. destruct (decode_body _ _ _ _ _); auto. cbv zeta. destruct (_ && _); auto.
    - destruct (read_header c data) as [[[[w st] af] l]| | |]; auto.
      unfold finish_window. destruct (decode_body _ _ _ _ _); auto. cbv zeta. destruct (_ && _); auto. }
  destruct SH as [->|[A W]].
  { destruct (decode_window c data) as [[c' r]|[c' r]| | |]; auto; split; auto; left; reflexivity. }
  assert (match decode_window c data with XOk (c', _) | XEod (c', _) => match d_win c' with Some w => w_kind w <> SegTarget | None => True end | _ => True end) as KD.
  { unfold decode_window. destruct (d_win c) as [w|] eqn:DW.
    - pose proof (finish_window_kind c (d_total c) w {| b_il := true; b_inst := ztake (w_expected w) data; b_data := []; b_addr := [];
                   b_pending := w_pending w; b_cache := w_cache w; b_target := d_target c |} data []) as K.
      destruct (finish_window _ _ _ _ _ _) as [[c' r]|[c' r]| | |]; auto; [rewrite K; exact I|].
      destruct (d_win c') as [w'|]; auto. congruence.
    - rewrite read_header_eq.
      destruct (header_fields c data) as [[fd l]| | |] eqn:HF; cbn [bind]; auto.
      2:{ rewrite DW. exact I. }
      destruct (negb (fields_il c fd) && (zlen l <? fields_total fd)); [rewrite DW; exact I|].
      destruct (d_sizes c) as [[ns ss]|]; auto. destruct (cache_init ns ss) as [ca|]; auto.
      pose proof (finish_window_kind c (to_size (d_total c + w_len (fields_window c fd ca))) (fields_window c fd ca)
        (if fields_il c fd then il_state (fields_window c fd ca) (d_target c) l else std_state fd ca (d_target c) l) l (zdrop (fields_total fd) l)) as K.
      destruct (finish_window _ _ _ _ _ _) as [[c' r]|[c' r]| | |]; auto; [rewrite K; exact I|].
      destruct (d_win c') as [w'|]; auto. rewrite K. pose proof (header_fields_kind _ _ _ _ A HF) as K2.
      destruct fd as [[[[[[[[kind seglen] pos] tl] nd] ni] na] cks] has]. exact K2. }
  destruct (decode_window c data) as [[c' r]|[c' r]| | |]; auto; split; auto; right; split; congruence.
Qed.
