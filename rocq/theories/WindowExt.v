(** How decoding one window depends on the amount of input available. *)

From Verif Require Import Base Spec Varint VarintFacts AddrCache AddrCacheFacts CodeTable
  InstructionMap DecodeTable HeaderParser Adler Decoder CopyFacts BodyFacts BodyExt.
From Coq Require Import ZifyBool ZifyNat.

(** ** Header parsers *)

Definition mono {A} (f : list Z -> res (A * list Z)) : Prop := forall l y,
  match f l with
  | Ok (a, r) => f (l ++ y) = Ok (a, r ++ y)
  | Err => f (l ++ y) = Err
  | Eod => True
  | UB => False
  end.

Lemma parse_mono : forall t, mono (parse t).
Proof.
  intros t l y. pose proof (parse_app t l y (parse t l) eq_refl) as P. pose proof (parse_not_ub t l) as N.
  destruct (parse t l) as [[v r]| | |]; auto; apply P; discriminate.
Qed.

Lemma parse_size_mono : mono parse_size.
Proof. apply parse_mono. Qed.

Lemma parse_byte_mono : mono parse_byte.
Proof. intros [|b l] y; cbn; auto. Qed.

Lemma parse_checksum_mono : mono parse_checksum.
Proof.
  intros l y. unfold parse_checksum. pose proof (parse_mono I64 l y) as P.
  destruct (parse I64 l) as [[v r]| | |]; cbn [bind]; auto.
  - rewrite P. cbn [bind]. destruct (4294967295 <? v); reflexivity.
  - rewrite P. reflexivity.
Qed.

Lemma parse_source_segment_mono : forall n, mono (parse_source_segment n).
Proof.
  intros n l y. unfold parse_source_segment. pose proof (parse_size_mono l y) as P.
  destruct (parse_size l) as [[len r]| | |]; cbn [bind]; auto; [|rewrite P; reflexivity].
  rewrite P. cbn [bind]. destruct (n <? len); [reflexivity|].
  pose proof (parse_size_mono r y) as P2.
  destruct (parse_size r) as [[pos r2]| | |]; cbn [bind]; auto; [|rewrite P2; reflexivity].
  rewrite P2. cbn [bind]. destruct ((n <=? pos) && (0 <? len)); [reflexivity|].
  destruct (n <? to_size (pos + len)); reflexivity.
Qed.

Lemma parse_win_indicator_mono : forall ds ts al, mono (parse_win_indicator ds ts al).
Proof.
  intros ds ts al l y. unfold parse_win_indicator. pose proof (parse_byte_mono l y) as P.
  destruct (parse_byte l) as [[ind r]| | |]; cbn [bind]; auto; [|rewrite P; reflexivity].
  rewrite P. cbn [bind]. destruct (Z.testbit ind 0), (Z.testbit ind 1); auto.
  - pose proof (parse_source_segment_mono ds r y) as P2.
    destruct (parse_source_segment ds r) as [[[len pos] r2]| | |]; cbn [bind]; auto; rewrite P2; reflexivity.
  - destruct al; cbn [negb]; [|reflexivity].
    pose proof (parse_source_segment_mono ts r y) as P2.
    destruct (parse_source_segment ts r) as [[[len pos] r2]| | |]; cbn [bind]; auto; rewrite P2; reflexivity.
Qed.

Lemma parse_section_lengths_ext : forall h n start l y,
  match parse_section_lengths h n start l with
  | Ok (a, r) => parse_section_lengths h n (start ++ y) (l ++ y) = Ok (a, r ++ y)
  | Err => parse_section_lengths h n (start ++ y) (l ++ y) = Err
  | Eod => True
  | UB => False
  end.
Proof.
  intros h n start l y. unfold parse_section_lengths.
  pose proof (parse_size_mono l y) as P1.
  destruct (parse_size l) as [[n1 r1]| | |]; cbn [bind]; auto; [|rewrite P1; reflexivity].
  rewrite P1. cbn [bind]. pose proof (parse_size_mono r1 y) as P2.
  destruct (parse_size r1) as [[n2 r2]| | |]; cbn [bind]; auto; [|rewrite P2; reflexivity].
  rewrite P2. cbn [bind]. pose proof (parse_size_mono r2 y) as P3.
  destruct (parse_size r2) as [[n3 r3]| | |]; cbn [bind]; auto; [|rewrite P3; reflexivity].
  rewrite P3. cbn [bind].
  assert (forall cks r4,
    match (if n =? zlen start - zlen r4 + n1 + n2 + n3 then Ok (n1, n2, n3, cks, r4) else Err) with
    | Ok (a, r) => (if n =? zlen (start ++ y) - zlen (r4 ++ y) + n1 + n2 + n3 then Ok (n1, n2, n3, cks, r4 ++ y) else Err) = Ok (a, r ++ y)
    | Err => (if n =? zlen (start ++ y) - zlen (r4 ++ y) + n1 + n2 + n3 then @Ok (Z * Z * Z * Z * list Z) (n1, n2, n3, cks, r4 ++ y) else Err) = Err
    | Eod => True
    | UB => False
    end) as X.
  { intros cks r4. rewrite !zlen_app.
    replace (zlen start + zlen y - (zlen r4 + zlen y)) with (zlen start - zlen r4) by lia.
    destruct (n =? zlen start - zlen r4 + n1 + n2 + n3); reflexivity. }
  destruct h; cbn [bind]; [|apply X].
  pose proof (parse_checksum_mono r3 y) as P4.
  destruct (parse_checksum r3) as [[cks r4]| | |]; cbn [bind]; auto; [|rewrite P4; reflexivity].
  rewrite P4. cbn [bind]. apply X.
Qed.

(** ** The header of a window *)

(** The parts of the header read by [read_header] before the body is set up. *)
Definition fields : Type := seg_kind * Z * Z * Z * Z * Z * Z * Z * bool.
Definition header_fields (c : core) (data : list Z) : res (fields * list Z) :=
  do '(ind, kind, seglen, pos, l) <-
     parse_win_indicator (zlen (d_dict c)) (zlen (d_target c)) (d_allow c) data;
  let has_cks := allow_extensions c && Z.testbit ind 2 in
  do '(delta_len, start) <- parse_size l;
  do '(target_len, l) <- parse_size start;
  if would_exceed c target_len then Err
  else
    do 'l <- parse_delta_indicator l;
    do '(n_data, n_inst, n_addr, cks, l) <- parse_section_lengths has_cks delta_len start l;
    Ok (kind, seglen, pos, target_len, n_data, n_inst, n_addr, cks, has_cks, l).

Definition fields_il (c : core) (f : fields) : bool :=
  let '(_, _, _, _, n_data, _, n_addr, _, _) := f in
  allow_extensions c && (n_data =? 0) && (n_addr =? 0).
Definition fields_window (c : core) (f : fields) (ca : cache) : window :=
  let '(kind, seglen, pos, target_len, n_data, n_inst, n_addr, cks, has_cks) := f in
  {| w_kind := kind; w_pos := pos; w_seglen := seglen;
     w_len := target_len; w_has_cks := has_cks; w_cks := cks;
     w_expected := if fields_il c f then n_inst else 0;
     w_pending := None; w_cache := ca |}.
Definition fields_total (f : fields) : Z :=
  let '(_, _, _, _, n_data, n_inst, n_addr, _, _) := f in n_data + n_inst + n_addr.
Definition std_state (f : fields) (ca : cache) (target l : list Z) : body :=
  let '(_, _, _, _, n_data, n_inst, n_addr, _, _) := f in
  {| b_il := false;
     b_inst := ztake n_inst (zdrop n_data l);
     b_data := ztake n_data l;
     b_addr := ztake n_addr (zdrop (n_data + n_inst) l);
     b_pending := None; b_cache := ca; b_target := target |}.
Definition il_state (w : window) (target avail : list Z) : body :=
  {| b_il := true; b_inst := ztake (w_expected w) avail; b_data := []; b_addr := [];
     b_pending := w_pending w; b_cache := w_cache w; b_target := target |}.

Lemma read_header_eq : forall c data,
  read_header c data =
  (do '(f, l) <- header_fields c data;
   if negb (fields_il c f) && (zlen l <? fields_total f) then Eod
   else match d_sizes c with
        | None => UB
        | Some (ns, ss) =>
            match cache_init ns ss with
            | None => Err
            | Some ca =>
                let w := fields_window c f ca in
                Ok (w, if fields_il c f then il_state w (d_target c) l else std_state f ca (d_target c) l,
                    zdrop (fields_total f) l, l)
            end
        end).
Proof.
  intros c data. unfold read_header, header_fields.
  destruct (parse_win_indicator _ _ _ data) as [[[[[ind kind] seglen] pos] l]| | |]; cbn [bind]; auto.
  destruct (parse_size l) as [[delta_len start]| | |]; cbn [bind]; auto.
  destruct (parse_size start) as [[target_len l2]| | |]; cbn [bind]; auto.
  destruct (would_exceed c target_len); cbn [bind]; auto.
  destruct (parse_delta_indicator l2) as [l3| | |]; cbn [bind]; auto.
  destruct (parse_section_lengths _ _ _ l3) as [[[[[n1 n2] n3] cks] l4]| | |]; cbn [bind]; auto.
  cbn [fields_il fields_total].
  destruct (negb _ && _); auto. destruct (d_sizes c) as [[ns ss]|]; auto.
  destruct (cache_init ns ss); auto. cbn [fields_window fields_il std_state il_state w_expected w_pending w_cache].
  destruct (allow_extensions c && (n1 =? 0) && (n3 =? 0)); reflexivity.
Qed.

Lemma header_fields_mono : forall c, mono (header_fields c).
Proof.
  intros c l y. unfold header_fields.
  pose proof (parse_win_indicator_mono (zlen (d_dict c)) (zlen (d_target c)) (d_allow c) l y) as P.
  destruct (parse_win_indicator _ _ _ l) as [[[[[ind kind] seglen] pos] r]| | |]; cbn [bind]; auto; [|rewrite P; reflexivity].
  rewrite P. cbn [bind].
  pose proof (parse_size_mono r y) as P1.
  destruct (parse_size r) as [[n1 r1]| | |]; cbn [bind]; auto; [|rewrite P1; reflexivity].
  rewrite P1. cbn [bind]. pose proof (parse_size_mono r1 y) as P2.
  destruct (parse_size r1) as [[n2 r2]| | |]; cbn [bind]; auto; [|rewrite P2; reflexivity].
  rewrite P2. cbn [bind].
  destruct (would_exceed c n2); [reflexivity|].
  unfold parse_delta_indicator. pose proof (parse_byte_mono r2 y) as P3.
  destruct (parse_byte r2) as [[di r3]| | |]; cbn [bind]; auto; [|rewrite P3; reflexivity].
  rewrite P3. cbn [bind]. destruct (Z.land di 7 =? 0); cbn [bind]; [|reflexivity].
  pose proof (parse_section_lengths_ext (allow_extensions c && Z.testbit ind 2) n1 r1 r3 y) as P4.
  destruct (parse_section_lengths _ _ _ r3) as [[[[[m1 m2] m3] cks] r4]| | |]; cbn [bind]; auto; rewrite P4; reflexivity.
Qed.

(** ** Windows that agree on what the body loop looks at *)

Definition same_win (w w' : window) : Prop :=
  w_kind w' = w_kind w /\ w_pos w' = w_pos w /\ w_seglen w' = w_seglen w /\ w_len w' = w_len w /\
  w_has_cks w' = w_has_cks w /\ w_cks w' = w_cks w.

Lemma copy_bytes_same : forall dict w w' start target a n, same_win w w' ->
  copy_bytes dict w' start target a n = copy_bytes dict w start target a n.
Proof.
  intros dict w w' start target a n (E1 & E2 & E3 & E4 & _). unfold copy_bytes, read_source.
  rewrite E1, E2, E3, E4. reflexivity.
Qed.

Lemma decode_instruction_same : forall dict w w' start st ty n m, same_win w w' ->
  decode_instruction dict w' start st ty n m = decode_instruction dict w start st ty n m.
Proof.
  intros dict w w' start st ty n m SW. pose proof SW as (E1 & E2 & E3 & E4 & _).
  unfold decode_instruction, decode_add, decode_run, decode_copy. rewrite E3, E4.
  destruct (ty =? VCD_ADD); [reflexivity|]. destruct (ty =? VCD_RUN); [reflexivity|].
  destruct (ty =? VCD_COPY); [|reflexivity].
  destruct (decode_address _ _ _ _) as [[[a rest] c]| | |]; auto.
  rewrite (copy_bytes_same dict w w') by exact SW. reflexivity.
Qed.

Lemma body_loop_same : forall f dict t w w' start st, same_win w w' ->
  body_loop f dict t w' start st = body_loop f dict t w start st.
Proof.
  induction f as [|f IH]; intros dict t w w' start st SW; pose proof SW as (E1 & E2 & E3 & E4 & _);
    cbn [body_loop]; rewrite E4; [reflexivity|].
  destruct (_ <? _); [|reflexivity].
  destruct (get_next_instruction _ _ _); auto. destruct (_ || _); auto.
  rewrite (decode_instruction_same dict w w') by exact SW.
  destruct (decode_instruction _ _ _ _ _ _ _); auto.
Qed.

Lemma decode_body_same : forall dict t w w' start st, same_win w w' ->
  decode_body dict t w' start st = decode_body dict t w start st.
Proof.
  intros dict t w w' start st SW. unfold decode_body. rewrite (body_loop_same _ _ _ w w') by exact SW.
  destruct SW as (E1 & E2 & E3 & E4 & E5 & E6). rewrite E4, E5, E6. reflexivity.
Qed.

Lemma binv_same : forall dict t w w' prev seg st hist T, same_win w w' ->
  binv dict t w prev seg st hist T -> binv dict t w' prev seg st hist T.
Proof.
  intros dict t w w' prev seg st hist T (E1 & E2 & E3 & E4 & _) B. destruct B.
  constructor; auto; rewrite ?E1, ?E2, ?E3, ?E4; auto.
  destruct bi_seg as [A B]. split; [congruence|]. rewrite E1, E2, E3. assumption.
Qed.

(** ** The loop with its own fuel *)

Definition loop (dict : list Z) (t : table) (w : window) (start : Z) (st : body) : xres body :=
  body_loop (body_fuel st) dict t w start st.

Lemma binv_ext : forall dict t w prev seg st hist T y,
  binv dict t w prev seg st hist T -> bytes_ok y -> binv dict t w prev seg (ext st y) hist T.
Proof.
  intros. apply binv_with_inst; auto; [apply H|]. apply bytes_ok_app. split; [apply H|auto].
Qed.

Lemma loop_total : forall dict t w prev seg st hist T, table_ok t -> binv dict t w prev seg st hist T ->
  loop dict t w (zlen prev) st <> XFuel /\ (loop dict t w (zlen prev) st = XUB -> cache_bad (b_cache st)).
Proof.
  intros dict t w prev seg st hist T TO BI. split.
  - eapply body_loop_total; eauto. apply body_fuel_ok.
  - pose proof (body_loop_sound dict t w prev seg (body_fuel st) st hist T TO BI) as S.
    unfold loop. intros E. rewrite E in S. exact S.
Qed.

Lemma loop_ext : forall dict t w prev seg st hist T y,
  table_ok t -> binv dict t w prev seg st hist T -> b_il st = true -> bytes_ok y ->
  match loop dict t w (zlen prev) st with
  | XOk st' => loop dict t w (zlen prev) (ext st y) = XOk (ext st' y)
  | XErr => loop dict t w (zlen prev) (ext st y) = XErr
  | XEod st' => xrel t (loop dict t w (zlen prev) (ext st' y)) (loop dict t w (zlen prev) (ext st y))
  | XUB => loop dict t w (zlen prev) (ext st y) = XUB
  | XFuel => False
  end.
Proof.
  intros dict t w prev seg st hist T y TO BI IL BY.
  pose proof (loop_total dict t w prev seg st hist T TO BI) as [NF NU].
  pose proof (body_loop_ext (body_fuel st) dict t w prev seg st hist T y TO BI IL) as E.
  pose proof (binv_ext _ _ _ _ _ _ _ _ y BI BY) as BIX.
  unfold loop in *. destruct (body_loop (body_fuel st) dict t w (zlen prev) st) as [st'|st'| | |] eqn:EE; try congruence.
  - eapply body_loop_fuel; eauto; discriminate.
  - destruct (body_loop_eod _ _ _ _ _ _ _ _ _ _ TO BI EE) as (h' & bs & BI' & LT & IL' & N1 & N2 & pre & _).
    pose proof (binv_ext _ _ _ _ _ _ _ _ y BI' BY) as BIX'.
    destruct (E (body_fuel (ext st' y))) as (f'' & X).
    pose proof (loop_total dict t w prev seg (ext st' y) h' (T ++ bs) TO BIX') as [NF' _]. unfold loop in NF'.
    assert (body_loop f'' dict t w (zlen prev) (ext st y) <> XFuel) as NF''.
    { destruct X as [X|(s & nops & _ & _ & _ & _ & X)]; congruence. }
    rewrite (body_loop_fuel dict t w prev seg (ext st y) hist T f'' _ TO BIX eq_refl NF''). exact X.
  - eapply body_loop_fuel; eauto; discriminate.
  - eapply body_loop_fuel; eauto; discriminate.
Qed.

(** ** One more piece of an interleaved window *)

Lemma ztake_app : forall A n (a b : list A), ztake n (a ++ b) = ztake n a ++ ztake (n - zlen a) b.
Proof.
  intros. destruct (Z.leb_spec (zlen a) n) as [L|L].
  - rewrite ztake_app_ge by lia. rewrite (ztake_all _ n a) by lia. reflexivity.
  - rewrite ztake_app_le by lia. unfold ztake at 3. Transparent ztake. unfold ztake.
    replace (Z.to_nat (n - zlen a)) with 0%nat by lia. cbn. rewrite app_nil_r. reflexivity.
Qed.
Opaque ztake.

Lemma ztake_neg : forall A n (a : list A), n <= 0 -> ztake n a = [].
Proof. Transparent ztake. intros. unfold ztake. replace (Z.to_nat n) with 0%nat by lia. reflexivity. Qed.
Opaque ztake.

Lemma il_state_ext : forall w target avail y,
  il_state w target (avail ++ y) = ext (il_state w target avail) (ztake (w_expected w - zlen avail) y).
Proof. intros. unfold il_state, ext, with_inst. cbn. rewrite ztake_app. reflexivity. Qed.

(** The window after [parsed] more bytes of its body have been read. *)
Definition next_win (w : window) (expected : Z) (pending : option Z) (ca : cache) : window :=
  {| w_kind := w_kind w; w_pos := w_pos w; w_seglen := w_seglen w;
     w_len := w_len w; w_has_cks := w_has_cks w; w_cks := w_cks w;
     w_expected := expected; w_pending := pending; w_cache := ca |}.

Lemma next_win_same : forall w e p ca, same_win w (next_win w e p ca).
Proof. intros. repeat split. Qed.

Definition finish_il (c : core) (total : Z) (w : window) (avail : list Z) : dres :=
  finish_window c total w (il_state w (d_target c) avail) avail [].

(** The state of a decoder that is in the middle of an interleaved window. *)
Definition mid_core (c : core) (w : window) (expected : Z) (pending : option Z) (ca : cache)
    (target : list Z) (total : Z) : core :=
  set_win c (Some (next_win w expected pending ca)) (d_start c) target total.

(** Two states in the middle of an interleaved window that differ at most in
    unread opcodes that stand for nothing. *)
Definition srel (p p' : core * list Z) : Prop :=
  p = p' \/
  exists w nops,
    d_win (fst p) = Some w /\ w_pending w = None /\
    zlen (d_target (fst p)) - d_start (fst p) < w_len w /\
    Forall (is_nop (d_table (fst p))) nops /\
    p' = (set_win (fst p) (Some (next_win w (w_expected w + zlen nops) None (w_cache w)))
            (d_start (fst p)) (d_target (fst p)) (d_total (fst p)), nops ++ snd p).

(** Outcomes of decoding a window. *)
Definition wrel (r r' : dres) : Prop :=
  match r, r' with
  | XEod p, XEod p' => srel p p'
  | _, _ => r = r'
  end.

Lemma wrel_eq : forall r r', r = r' -> wrel r r'.
Proof. intros r r' <-. destruct r; cbn; auto. left. reflexivity. Qed.

Lemma next_win_next_win : forall w e p ca e' p' ca',
  next_win (next_win w e p ca) e' p' ca' = next_win w e' p' ca'.
Proof. reflexivity. Qed.

Lemma srel_trans : forall a b c, srel a b -> srel b c -> srel a c.
Proof.
  intros a b c [->|(w & n & W & P & L & F & E)] H; [exact H|]. destruct H as [<-|(w' & n' & W' & P' & L' & F' & E')].
  - right. exists w, n. auto.
  - right. exists w, (n' ++ n). split; [exact W|]. split; [exact P|]. split; [exact L|]. rewrite E in F'. cbn in F'.
    split; [apply Forall_app; auto|]. rewrite E' , E. cbn [fst snd set_win d_win d_start d_target d_total].
    rewrite E in W'. cbn in W'. injection W' as <-. rewrite next_win_next_win. cbn [next_win w_expected w_cache].
    rewrite zlen_app. rewrite <- app_assoc. f_equal. unfold set_win. cbn. f_equal. f_equal. unfold next_win. f_equal. lia.
Qed.

(** [Finish_window] in the interleaved case, in terms of [loop]. *)
Definition end_ok (w : window) (start : Z) (st : body) : bool :=
  (zlen (b_target st) - start =? w_len w) &&
  (negb (w_has_cks w) || (compute_adler32 (zdrop start (b_target st)) =? w_cks w)).

Lemma finish_il_eq : forall c total w avail,
  finish_il c total w avail =
  match loop (d_dict c) (d_table c) w (d_start c) (il_state w (d_target c) avail) with
  | XOk st' =>
      if end_ok w (d_start c) st' && negb (nonempty (b_inst st')) && b_il st' then
        XOk (set_win c None (zlen (b_target st')) (b_target st') total,
             zdrop (zlen (ztake (w_expected w) avail)) avail)
      else
        if end_ok w (d_start c) st' && negb (nonempty (b_inst st')) && negb (nonempty (b_data st') || nonempty (b_addr st')) then
        XOk (set_win c None (zlen (b_target st')) (b_target st') total,
             zdrop (zlen (ztake (w_expected w) avail)) avail) else XErr
  | XEod st' =>
      let parsed := zlen (ztake (w_expected w) avail) - zlen (b_inst st') in
      if 0 <? w_expected w - parsed then
        XEod (mid_core c w (w_expected w - parsed) (b_pending st') (b_cache st') (b_target st') total,
              zdrop parsed avail)
      else XErr
  | XErr => XErr
  | XUB => XUB
  | XFuel => XFuel
  end.
Proof.
  intros c total w avail. unfold finish_il, finish_window, decode_body. fold (loop (d_dict c) (d_table c) w (d_start c) (il_state w (d_target c) avail)).
  destruct (loop _ _ _ _ _) as [st'|st'| | |]; try reflexivity.
  unfold end_ok.
  destruct (zlen (b_target st') - d_start c =? w_len w); cbn [negb andb]; [|reflexivity].
  replace (w_has_cks w && negb (compute_adler32 (zdrop (d_start c) (b_target st')) =? w_cks w))
    with (negb (negb (w_has_cks w) || (compute_adler32 (zdrop (d_start c) (b_target st')) =? w_cks w)))
    by (destruct (w_has_cks w); reflexivity).
  destruct (negb (w_has_cks w) || _); cbn [negb andb]; [|reflexivity].
  destruct (b_inst st') as [|b l] eqn:EI; cbn [nonempty negb andb]; [|reflexivity].
  cbn [il_state b_il b_inst].
  destruct (b_il st'); cbn [negb andb].
  - rewrite EI, zlen_nil, Z.sub_0_r. reflexivity.
  - destruct (nonempty (b_data st') || nonempty (b_addr st')); cbn [negb]; [reflexivity|].
    rewrite EI, zlen_nil, Z.sub_0_r. reflexivity.
Qed.

(** Invariant of a decoder about to read the body of an interleaved window. *)
Definition il_inv (c : core) (w : window) (avail : list Z) : Prop :=
  exists prev seg hist T, d_start c = zlen prev /\ 0 <= w_expected w /\ bytes_ok avail /\
    table_ok (d_table c) /\
    binv (d_dict c) (d_table c) w prev seg (il_state w (d_target c) avail) hist T.

Lemma end_ok_ext : forall w start st y, end_ok w start (ext st y) = end_ok w start st.
Proof. reflexivity. Qed.

Lemma loop_il : forall dict t w prev seg st hist T, table_ok t -> binv dict t w prev seg st hist T ->
  match loop dict t w (zlen prev) st with
  | XOk st' | XEod st' => b_il st' = b_il st
  | _ => True
  end.
Proof.
  intros dict t w prev seg st hist T TO BI.
  pose proof (body_loop_sound dict t w prev seg (body_fuel st) st hist T TO BI) as S. unfold loop.
  destruct (body_loop (body_fuel st) dict t w (zlen prev) st) eqn:E; auto.
  - destruct S as (h & T' & _ & IL & _). exact IL.
  - destruct (body_loop_eod _ _ _ _ _ _ _ _ _ _ TO BI E) as (h' & bs & _ & _ & IL & _). exact IL.
Qed.

Lemma loop_same : forall dict t w w' start st, same_win w w' ->
  loop dict t w' start st = loop dict t w start st.
Proof. intros. unfold loop. apply body_loop_same. auto. Qed.

Lemma finish_il_ext : forall c total w avail y,
  il_inv c w avail -> bytes_ok y ->
  match finish_il c total w avail with
  | XOk (c', rest) =>
      if w_expected w <=? zlen avail
      then finish_il c total w (avail ++ y) = XOk (c', rest ++ y)
      else rest = [] /\ (y <> [] -> finish_il c total w (avail ++ y) = XErr)
  | XErr => finish_il c total w (avail ++ y) = XErr
  | XEod (c', rest) =>
      exists w', d_win c' = Some w' /\ il_inv c' w' rest /\ d_total c' = total /\
        wrel (finish_il c' total w' (rest ++ y)) (finish_il c total w (avail ++ y))
  | XUB => finish_il c total w (avail ++ y) = XUB
  | XFuel => False
  end.
Proof.
  intros c total w avail y (prev & seg & hist & T & SE & E0 & BA & TO & BI) BY.
  set (y' := ztake (w_expected w - zlen avail) y).
  assert (bytes_ok y') as BY' by (apply bytes_ok_ztake; auto).
  rewrite !finish_il_eq. rewrite il_state_ext. fold y'. rewrite SE.
  pose proof (loop_ext _ _ _ _ _ _ _ _ y' TO BI eq_refl BY') as LE.
  pose proof (loop_il _ _ _ _ _ _ _ _ TO BI) as LI.
  destruct (loop (d_dict c) (d_table c) w (zlen prev) (il_state w (d_target c) avail)) as [st'|st'| | |] eqn:LOOP.
  - rewrite LE. rewrite end_ok_ext. cbn [ext with_inst b_inst b_il b_data b_addr b_target].
    cbn [il_state b_il] in LI. rewrite LI. rewrite !andb_true_r.
    destruct (end_ok w (zlen prev) st'); cbn [andb]; [|reflexivity].
    destruct (b_inst st') as [|b l]; cbn [nonempty negb app andb]; [|reflexivity].
    destruct (Z.leb_spec (w_expected w) (zlen avail)) as [L|L].
    + unfold y'. rewrite (ztake_neg _ (w_expected w - zlen avail)) by lia. cbn [nonempty negb].
      f_equal. f_equal. rewrite ztake_app, (ztake_neg _ (w_expected w - zlen avail)), app_nil_r by lia.
      rewrite zlen_ztake by lia. rewrite Z.min_l by lia. apply zdrop_app_le. lia.
    + split.
      * rewrite ztake_all by lia. apply zdrop_all. lia.
      * intros NY. assert (zlen y' <> 0) as NZ.
        { unfold y'. rewrite zlen_ztake by lia. destruct y; [congruence|]. rewrite zlen_cons. pose proof (zlen_nonneg _ y). lia. }
        destruct y' as [|b y']; [rewrite zlen_nil in NZ; lia|]. reflexivity.
  - cbv zeta. set (parsed := zlen (ztake (w_expected w) avail) - zlen (b_inst st')).
    destruct (body_loop_eod _ _ _ _ _ _ _ _ _ _ TO BI LOOP) as (h' & bs & BI' & LT & IL' & N1 & N2 & pre & PRE).
    cbn [il_state b_inst] in PRE.
    assert (parsed = zlen pre) as PP. { unfold parsed. rewrite PRE, zlen_app. lia. }
    pose proof (zlen_nonneg _ pre). pose proof (zlen_nonneg _ (b_inst st')).
    assert (zlen pre + zlen (b_inst st') = Z.min (w_expected w) (zlen avail)) as PL.
    { rewrite <- zlen_app, <- PRE, zlen_ztake by lia. reflexivity. }
    destruct (Z.ltb_spec 0 (w_expected w - parsed)) as [L|L].
    + set (w1 := next_win w (w_expected w - parsed) (b_pending st') (b_cache st')).
      set (c1 := mid_core c w (w_expected w - parsed) (b_pending st') (b_cache st') (b_target st') total).
      exists w1. split; [reflexivity|].
      assert (ztake (w_expected w - parsed) (zdrop parsed avail) = b_inst st') as ZI.
      { rewrite <- zdrop_ztake by lia. rewrite PRE. apply zdrop_app_eq. lia. }
      assert (il_state w1 (d_target c1) (zdrop parsed avail) = st') as ST.
      { unfold il_state. cbn [w1 next_win w_expected w_pending w_cache]. rewrite ZI. cbn [c1 mid_core set_win d_target].
        cbn [il_state b_il] in IL'. destruct st' as [il inst dat addr pend ca tg]. cbn [b_il b_inst b_data b_addr b_pending b_cache b_target] in *.
        destruct (bi_il _ _ _ _ _ _ _ _ BI' IL') as [D A]. cbn in D, A. rewrite D, A, IL'. reflexivity. }
      assert (il_inv c1 w1 (zdrop parsed avail)) as INV.
      { exists prev, seg, h', (T ++ bs). rewrite ST. split; [exact SE|]. split; [cbn; lia|].
        split; [apply bytes_ok_zdrop; auto|]. split; [exact TO|].
        apply (binv_same _ _ w w1); [apply next_win_same|exact BI']. }
      split; [exact INV|]. split; [reflexivity|].
      rewrite finish_il_eq. rewrite il_state_ext. rewrite ST.
      change (w_expected w1) with (w_expected w - parsed).
      replace (w_expected w - parsed - zlen (zdrop parsed avail)) with (w_expected w - zlen avail)
        by (rewrite zlen_zdrop by lia; lia).
      fold y'. change (d_dict c1) with (d_dict c). change (d_table c1) with (d_table c).
      change (d_start c1) with (d_start c). rewrite SE.
      rewrite (loop_same _ _ w w1) by apply next_win_same.
      rewrite ztake_app.
      replace (w_expected w - parsed - zlen (zdrop parsed avail)) with (w_expected w - zlen avail)
        by (rewrite zlen_zdrop by lia; lia). fold y'. rewrite ZI.
      rewrite ztake_app. fold y'. rewrite PRE. rewrite <- app_assoc.
      set (inst1 := b_inst st' ++ y').
      assert (zlen (pre ++ inst1) = parsed + zlen inst1) as PL1 by (rewrite zlen_app; lia).
      assert (forall k, 0 <= k -> zdrop (parsed + k) (avail ++ y) = zdrop k (zdrop parsed avail ++ y)) as ZD.
      { intros k K. rewrite <- (zdrop_app_le _ parsed avail y) by lia. rewrite zdrop_zdrop by lia. f_equal. lia. }
      pose proof (binv_ext _ _ _ _ _ _ _ _ y' BI' BY') as BIX.
      assert (forall st2, loop (d_dict c) (d_table c) w (zlen prev) (ext st' y') = XEod st2 ->
                exists pre2, inst1 = pre2 ++ b_inst st2) as SUF.
      { intros st2 E. destruct (body_loop_eod _ _ _ _ _ _ _ _ _ _ TO BIX E) as (_ & _ & _ & _ & _ & _ & _ & pre2 & E2).
        exists pre2. exact E2. }
      destruct LE as [LE|(s & nops & LE1 & PN & NS & FN & LE2)].
      * rewrite <- LE. apply wrel_eq.
        destruct (loop (d_dict c) (d_table c) w (zlen prev) (ext st' y')) as [st2|st2| | |] eqn:L2; try reflexivity.
        -- change (end_ok w1 (zlen prev) st2) with (end_ok w (zlen prev) st2).
           rewrite PL1, ZD by apply zlen_nonneg. reflexivity.
        -- destruct (SUF st2 eq_refl) as (pre2 & E2).
           assert (zlen inst1 = zlen pre2 + zlen (b_inst st2)) as ZL by (rewrite E2, zlen_app; reflexivity).
           pose proof (zlen_nonneg _ pre2).
           cbv zeta. rewrite PL1.
           replace (parsed + zlen inst1 - zlen (b_inst st2)) with (parsed + (zlen inst1 - zlen (b_inst st2))) by lia.
           rewrite ZD by lia.
           replace (w_expected w - (parsed + (zlen inst1 - zlen (b_inst st2)))) with
             (w_expected w - parsed - (zlen inst1 - zlen (b_inst st2))) by lia.
           reflexivity.
      * rewrite LE1, LE2. cbn [with_inst b_inst b_pending b_cache b_target]. cbv zeta.
        destruct (SUF s LE1) as (pre2 & E2).
        assert (zlen inst1 = zlen pre2 + zlen (b_inst s)) as ZL by (rewrite E2, zlen_app; reflexivity).
        pose proof (zlen_nonneg _ pre2). pose proof (zlen_nonneg _ nops).
        destruct (body_loop_eod _ _ _ _ _ _ _ _ _ _ TO (binv_ext _ _ _ _ _ _ _ _ y' BI BY') LE2)
          as (_ & _ & _ & _ & _ & _ & _ & pre3 & E3).
        cbn [il_state ext with_inst b_inst] in E3. rewrite PRE in E3. rewrite <- app_assoc in E3. fold inst1 in E3.
        assert (parsed + zlen inst1 = zlen pre3 + zlen nops + zlen (b_inst s)) as ZL3.
        { rewrite <- PL1. rewrite E3, !zlen_app. lia. }
        pose proof (zlen_nonneg _ pre3).
        rewrite PL1. rewrite zlen_app. 
        set (n2 := zlen inst1 - zlen (b_inst s)) in *.
        replace (parsed + zlen inst1 - (zlen nops + zlen (b_inst s))) with (parsed + n2 - zlen nops) by lia.
        assert (zlen inst1 <= w_expected w - parsed) as BOUND.
        { assert (zlen (pre ++ inst1) <= w_expected w); [|lia].
          unfold inst1. rewrite app_assoc, <- PRE. unfold y'. rewrite <- ztake_app. rewrite zlen_ztake by lia. lia. }
        destruct (Z.ltb_spec 0 (w_expected w - (parsed + n2 - zlen nops))) as [L3|L3].
        -- destruct (Z.ltb_spec 0 (w_expected w - parsed - n2)) as [L4|L4].
           ++ right. cbn [fst snd]. rewrite PN. eexists _, nops.
              split; [reflexivity|]. split; [reflexivity|]. 
              split. { destruct (body_loop_eod _ _ _ _ _ _ _ _ _ _ TO BIX LE1) as (hx & bs2 & BI2 & LT2 & _).
                       cbn [mid_core set_win d_target d_start next_win w_len]. rewrite (bi_target _ _ _ _ _ _ _ _ BI2).
                       change (d_start c1) with (d_start c). rewrite SE, (zlen_app _ prev). change (w_len w1) with (w_len w). lia. }
              split; [exact FN|].
              f_equal; [cbn [mid_core set_win d_win d_target d_start d_total next_win w_cache w_expected w_kind w_pos w_seglen w_len w_has_cks w_cks]; unfold mid_core, set_win; cbn; f_equal; f_equal; unfold next_win; f_equal; lia|].
              (* the unread bytes *)
              rewrite <- ZD by lia.
              assert (exists rest, avail ++ y = (pre ++ inst1) ++ rest) as (rest & AY).
              { unfold inst1. rewrite app_assoc, <- PRE. unfold y'. rewrite <- ztake_app.
                exists (zdrop (w_expected w) (avail ++ y)). rewrite ztake_zdrop. reflexivity. }
              rewrite AY. rewrite E3. rewrite <- !app_assoc.
              replace (parsed + n2 - zlen nops) with (zlen pre3) by lia.
              rewrite zdrop_app_eq by reflexivity. f_equal.
              rewrite app_assoc. rewrite zdrop_app_eq by (rewrite zlen_app; lia). reflexivity.
           ++ (* all declared bytes read: impossible, the opcode at which input ran out is left *)
              exfalso. assert (1 <= zlen (b_inst s)); [|unfold n2 in *; lia].
              clear - NS. destruct (b_inst s); [congruence|]. rewrite zlen_cons. pose proof (zlen_nonneg _ l). lia.
        -- destruct (Z.ltb_spec 0 (w_expected w - parsed - n2)) as [L4|L4]; [exfalso; lia|reflexivity].
    + (* everything declared has been read *)
      assert (zlen (b_inst st') = 0) as I0 by lia. apply zlen_0_nil in I0.
      assert (y' = []) as Y0. { unfold y'. apply ztake_neg. lia. }
      rewrite Y0 in *. assert (ext (il_state w (d_target c) avail) [] = il_state w (d_target c) avail) as EX.
      { unfold ext. rewrite app_nil_r. apply with_inst_same. }
      rewrite EX, LOOP. cbv zeta.
      rewrite ztake_app. rewrite (ztake_neg _ (w_expected w - zlen avail)), app_nil_r.
      2:{ unfold y' in Y0. rewrite I0, zlen_nil in PL. lia. }
      fold parsed. destruct (Z.ltb_spec 0 (w_expected w - parsed)); [lia|reflexivity].
  - rewrite LE. reflexivity.
  - rewrite LE. reflexivity.
  - exact LE.
Qed.
