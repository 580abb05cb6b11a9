(** Which of the places in [Fatal] the decoder can reach. *)

From Verif Require Import Base ListFacts Spec Varint VarintFacts AddrCache AddrCacheFacts CodeTable CodeTableFacts
  InstructionMap DecodeTable HeaderParser Adler AdlerFacts Decoder CopyFacts BodyFacts BodyExt WindowExt
  WindowHeader WindowStep Refine Totals Abstract FileHeader Chunk Usable Platform Sim PlatformFacts Fatal.
From Coq Require Import ZifyBool ZifyNat.

(** [m]: a bound for the size of the target, with which a dictionary and a target together
    fit into an int32_t; [pl]: no file with its own code table has been decoded. *)
Definition tolerated (m : option Z) (pl : bool) (s : site) : Prop :=
  match s with
  | HereNegative => m = None
  | NearSizeInvalid | SameSizeInvalid | CacheInitFailed | ModeInvalid => pl = false
  | _ => False
  end.
Definition fine (m : option Z) (pl : bool) (r : option site) : Prop := forall s, r = Some s -> tolerated m pl s.

Lemma fine_none : forall m pl, fine m pl None.
Proof. intros m pl s H. discriminate. Qed.
Lemma fine_some : forall m pl s, tolerated m pl s -> fine m pl (Some s).
Proof. intros m pl s T s' H. injection H as <-. exact T. Qed.
Lemma fine_first : forall m pl a b, fine m pl a -> fine m pl b -> fine m pl (first a b).
Proof. intros m pl [a|] b A B; cbn; auto. Qed.
Lemma fine_if : forall m pl (b : bool) x, (b = true -> fine m pl x) -> fine m pl (if b then x else None).
Proof. intros m pl [|] x H; [auto|apply fine_none]. Qed.

(** Every instruction of the table is one of the four. *)
Definition types_ok (t : table) : Prop :=
  forall op, byte_ok op -> 0 <= tget (inst1 t) op <= 3 /\ 0 <= tget (inst2 t) op <= 3.

Lemma all_opcodes : forall f, forallb f opcodes = true -> forall op, byte_ok op -> f op = true.
Proof.
  intros f H op O. rewrite forallb_forall in H. apply H. unfold opcodes. apply in_map_iff. exists (Z.to_nat op).
  unfold byte_ok in O. split; [lia|]. apply in_seq. lia.
Qed.

Lemma default_types_ok : types_ok default_table.
Proof.
  assert (forallb (fun op => (0 <=? tget (inst1 default_table) op) && (tget (inst1 default_table) op <=? 3) &&
                             (0 <=? tget (inst2 default_table) op) && (tget (inst2 default_table) op <=? 3)) opcodes = true) as H by (vm_compute; reflexivity).
  intros op O. apply (all_opcodes _ H) in O. lia.
Qed.

Lemma default_modes : forall op, byte_ok op ->
  0 <= tget (mode1 default_table) op <= 8 /\ 0 <= tget (mode2 default_table) op <= 8.
Proof.
  assert (forallb (fun op => (0 <=? tget (mode1 default_table) op) && (tget (mode1 default_table) op <=? 8) &&
                             (0 <=? tget (mode2 default_table) op) && (tget (mode2 default_table) op <=? 8)) opcodes = true) as H by (vm_compute; reflexivity).
  intros op O. apply (all_opcodes _ H) in O. lia.
Qed.

Lemma use_types_ok : forall cur s mm t b, types_ok cur -> bytes_ok s -> zlen s = 1536 -> 0 <= mm <= 255 ->
  use_code_table cur (table_of_bytes s) mm = Some (t, b) -> types_ok t.
Proof.
  intros cur s mm t b TC BS L M U. destruct (use_code_table_usable cur s mm BS L M) as (t' & b' & U' & CASES).
  rewrite U in U'. injection U' as <- <-. destruct CASES as [(_ & [UT _] & ->)|(_ & _ & ->)]; [|exact TC].
  intros op O. destruct (table_of_bytes_get s op O) as (A & B & _). rewrite A, B.
  destruct (UT op O) as [H1 H2]. unfold half_usable in *. lia.
Qed.

(** ** Instructions *)

Lemma inst_loop_entry : forall t inst p ty k mode p' rest, bytes_ok inst -> pending_ok t p ->
  inst_loop t p inst = inl (ty, k, mode, p', rest) ->
  (exists op, byte_ok op /\ ((ty = tget (inst1 t) op /\ mode = tget (mode1 t) op) \/ (ty = tget (inst2 t) op /\ mode = tget (mode2 t) op))) /\
  zlen rest <= zlen inst /\ (p <> None -> p' = None).
Proof.
  intros t. induction inst as [|op tl IH]; intros [o|] ty k mode p' rest B P H; cbn [inst_loop] in H; try discriminate.
  - injection H as <- <- <- <- <-. destruct P as [P _]. split; [exists o; auto|]. split; [lia|auto].
  - injection H as <- <- <- <- <-. destruct P as [P _]. split; [exists o; auto|]. split; [lia|auto].
  - apply bytes_ok_cons in B as [B1 B2]. cbv zeta in H. rewrite zlen_cons. pose proof (zlen_nonneg _ tl).
    destruct (tget (inst1 t) op =? VCD_NOOP) eqn:E1.
    + apply IH in H as (H1 & H2 & H3); [|exact B2|].
      * split; [exact H1|]. split; [lia|congruence].
      * destruct (Z.eqb_spec (tget (inst2 t) op) VCD_NOOP); cbn; auto.
    + injection H as <- <- <- <- <-. split; [exists op; auto|]. split; [lia|congruence].
Qed.

Lemma gni_entry : forall t p inst ty size mode p' rest, bytes_ok inst -> pending_ok t p ->
  get_next_instruction t p inst = NI ty size mode p' rest ->
  (exists op, byte_ok op /\ ((ty = tget (inst1 t) op /\ mode = tget (mode1 t) op) \/ (ty = tget (inst2 t) op /\ mode = tget (mode2 t) op))) /\
  zlen rest <= zlen inst /\ (p <> None -> p' = None).
Proof.
  intros t p inst ty size mode p' rest B P H. unfold get_next_instruction in H.
  pose proof (inst_loop_found t inst p B P) as IF.
  destruct (inst_loop t p inst) as [[[[[ty0 k] mode0] p0] rest0]|[p0 rest0]] eqn:IL; [|discriminate].
  pose proof (inst_loop_entry t inst p ty0 k mode0 p0 rest0 B P IL) as (E1 & E2 & E3).
  destruct (k =? 0); [|injection H as <- <- <- <- <-; auto].
  destruct (parse I32 rest0) as [[n rest1]| | |] eqn:PE; try discriminate. injection H as <- <- <- <- <-.
  split; [exact E1|]. split; [|exact E3].
  assert (bytes_ok rest0) as BR0.
  { pose proof (gni_sound) as _. clear - IL B. revert p p0 IL. induction inst as [|op tl IH]; intros [o|] p0 IL; cbn [inst_loop] in IL; try discriminate.
    - injection IL as _ _ _ _ <-. exact B.
    - injection IL as _ _ _ _ <-. exact B.
    - apply bytes_ok_cons in B as [_ B]. cbv zeta in IL. destruct (_ =? VCD_NOOP); [eapply IH; eauto|]. injection IL as _ _ _ _ <-. exact B. }
  apply parse_inv in PE as (ps & E & _); auto; [|left; reflexivity]. subst rest0. rewrite zlen_app in E2. pose proof (zlen_nonneg _ ps). lia.
Qed.

Lemma f_next_fine : forall m pl t p inst, bytes_ok inst -> pending_ok t p -> fine m pl (f_next_instruction t p inst).
Proof.
  intros m pl t p inst B P. unfold f_next_instruction.
  destruct (inst_loop t p inst) as [[[[[ty k] mode] p'] rest]|] eqn:IL; [|apply fine_none].
  apply inst_loop_entry in IL as (_ & L & N); [|exact B|exact P].
  apply fine_if. intros _. destruct (parse I32 rest); try apply fine_none.
  unfold f_unget. destruct (Z.ltb_spec (zlen inst) (zlen rest)); [lia|].
  destruct p' as [x|]; [|apply fine_none]. destruct p as [y|]; [|apply fine_none]. specialize (N ltac:(discriminate)). discriminate.
Qed.

Lemma instruction_eod : forall dict w start st ty size mode st1, decode_instruction dict w start st ty size mode = XEod st1 -> st1 = st.
Proof.
  intros dict w start st ty size mode st1. unfold decode_instruction.
  destruct (ty =? VCD_ADD); [|destruct (ty =? VCD_RUN); [|destruct (ty =? VCD_COPY); [|discriminate]]].
  - unfold decode_add. destruct (_ <? _); [congruence|]. destruct (append_target _ _ _); discriminate.
  - unfold decode_run. destruct (data_of st); [congruence|]. destruct (append_target _ _ _); discriminate.
  - unfold decode_copy. destruct (decode_address _ _ _ _) as [[[a r] c]| | |]; try congruence.
    destruct (copy_bytes _ _ _ _ _ _); discriminate.
Qed.

Lemma decode_address_range : forall c here mode l a rest c', decode_address c here mode l = Ok (a, rest, c') -> 0 <= a < here.
Proof.
  intros c here mode l a rest c'. unfold decode_address. destruct (here <? 0); [discriminate|]. cbv zeta.
  assert (forall x y, (if decoded_address_valid x here then match update_cache c x with Some c' => Ok (x, y, c') | None => UB end else Err) = Ok (a, rest, c') -> 0 <= a < here) as F.
  { intros x y H. unfold decoded_address_valid in H. destruct ((0 <=? x) && (x <? here)) eqn:V; [|discriminate].
    destruct (update_cache c x); [|discriminate]. injection H as <- _ _. lia. }
  destruct l as [|b tl]; [discriminate|]. destruct (is_same_mode c mode).
  - destruct (get _ _); [apply F|discriminate].
  - destruct (parse I32 (b :: tl)) as [[e r]| | |]; try discriminate.
    destruct (mode =? 0); [apply F|]. destruct (mode =? 1); [apply F|]. destruct (is_near_mode c mode); [|discriminate].
    destruct (get _ _); [apply F|discriminate].
Qed.

Lemma f_copy_fine : forall m pl w start st mode,
  (m <> None -> 0 <= w_seglen w + (zlen (b_target st) - start) <= int32_max) ->
  (pl = true -> near_size (b_cache st) = 4 /\ same_size (b_cache st) = 3 /\ 0 <= mode <= 8) ->
  fine m pl (f_decode_copy w start st mode).
Proof.
  intros m pl w start st mode HM HP. unfold f_decode_copy. cbv zeta. apply fine_first.
  - unfold f_decode_address. destruct (Z.ltb_spec (to_int32 (w_seglen w + (zlen (b_target st) - start))) 0) as [L|L].
    { apply fine_some. cbn. destruct m as [M|]; [|reflexivity]. specialize (HM ltac:(discriminate)).
      rewrite to_int32_id in L by (unfold int32_max in *; lia). lia. }
    destruct (addr_of st); [apply fine_none|]. destruct (is_same_mode _ _) eqn:SM; [apply fine_none|].
    destruct (parse I32 _); try apply fine_none. destruct (_ || _ || _) eqn:MO; [apply fine_none|].
    apply fine_some. cbn. destruct pl; [|reflexivity]. exfalso. destruct (HP eq_refl) as (N & S & M8).
    unfold is_same_mode, is_near_mode, last_mode, first_same_mode in *. rewrite N, S in *.
    change (to_uchar (2 + 4)) with 6 in *. change (to_uchar (6 + 3 - 1)) with 8 in *. lia.
  - destruct (decode_address _ _ _ _) as [[[a r] c]| | |] eqn:DA; try apply fine_none.
    apply decode_address_range in DA. apply fine_if. lia.
Qed.

(** ** The body of a window *)

(** What is known of the body for the sake of [m] and [pl]. *)
Definition body_lim (m : option Z) (pl : bool) (t : table) (w : window) (st : body) : Prop :=
  (m <> None -> w_seglen w + w_len w <= int32_max) /\
  (pl = true -> t = default_table /\ near_size (b_cache st) = 4 /\ same_size (b_cache st) = 3).

Lemma body_loop_keeps : forall dict t w prev seg fuel st hist T, table_ok t -> binv dict t w prev seg st hist T ->
  match body_loop fuel dict t w (zlen prev) st with
  | XOk st' | XEod st' => zlen (b_inst st') <= zlen (b_inst st) /\ b_il st' = b_il st /\
      near_size (b_cache st') = near_size (b_cache st) /\ same_size (b_cache st') = same_size (b_cache st)
  | _ => True
  end.
Proof.
  intros dict t w prev seg. induction fuel as [|fuel IH]; intros st hist T TO BI; cbn [body_loop].
  - destruct (_ <? _); [exact Logic.I|]. repeat split; lia.
  - destruct (binv_lens _ _ _ _ _ _ _ _ BI) as (TL & SL & SN).
    destruct (Z.ltb_spec (zlen (b_target st) - zlen prev) (w_len w)) as [L|L]; [|repeat split; lia].
    pose proof (gni_sound t (b_pending st) (b_inst st) TO (bi_binst _ _ _ _ _ _ _ _ BI) (bi_pending _ _ _ _ _ _ _ _ BI)) as G.
    destruct (get_next_instruction t (b_pending st) (b_inst st)) as [ty size mode p' rest|p' rest|] eqn:GN; auto.
    2:{ cbn. destruct G as [(-> & ->)|(_ & _ & -> & _)]; (split; [|auto]); [lia|]. rewrite zlen_nil. apply zlen_nonneg. }
    destruct (gni_entry _ _ _ _ _ _ _ _ (bi_binst _ _ _ _ _ _ _ _ BI) (bi_pending _ _ _ _ _ _ _ _ BI) GN) as (_ & LR & _).
    destruct G as (k & ps & F & NE & SC & PO & BR & SM). pose proof (size_code_nonneg k ps size SC) as SZ.
    destruct ((w_len w <? size) || _) eqn:CK; [exact Logic.I|].
    set (st1 := with_inst st p' rest) in *.
    assert (binv dict t w prev seg st1 hist T) as BI1 by (apply binv_with_inst; auto).
    pose proof (exec_sound dict t w prev seg st1 hist T ty size mode BI1) as E.
    destruct (decode_instruction dict w (zlen prev) st1 ty size mode) as [st2|st2| | |]; auto.
    + destruct E as (pd & pa & h2 & T2 & (I1 & I2 & I3 & I4) & SE & BI2 & _); [lia|lia|intros; lia|].
      specialize (IH st2 h2 T2 TO BI2).
      assert (zlen (b_inst st2) <= zlen (b_inst st)) as ZL.
      { assert (zlen (b_inst st2) <= zlen (b_inst st1)) as X; [|cbn in X; lia].
        unfold sec, app3 in SE. pose proof (zlen_nonneg _ pd). pose proof (zlen_nonneg _ pa).
        destruct (b_il st1) eqn:BIL; rewrite ?BIL, ?I1 in SE; apply (f_equal (fun x => zlen (fst (fst x)))) in SE; cbn [fst snd app] in SE;
          rewrite ?zlen_app in SE; lia. }
      change (b_il st1) with (b_il st) in I1. change (b_cache st1) with (b_cache st) in I3, I4.
      destruct (body_loop fuel dict t w (zlen prev) st2); auto; rewrite <- I1, <- I3, <- I4; (split; [lia|tauto]).
    + cbn. repeat split; lia.
Qed.

Lemma f_body_loop_fine : forall m pl dict t w prev seg fuel st hist T,
  table_ok t -> types_ok t -> binv dict t w prev seg st hist T -> body_lim m pl t w st ->
  fine m pl (f_body_loop fuel dict t w (zlen prev) st).
Proof.
  intros m pl dict t w prev seg. induction fuel as [|fuel IH]; intros st hist T TO TY BI [LM LP]; cbn [f_body_loop].
  - destruct (_ <? _); apply fine_none.
  - destruct (binv_lens _ _ _ _ _ _ _ _ BI) as (TL & SL & SN).
    pose proof (bi_binst _ _ _ _ _ _ _ _ BI) as BB. pose proof (bi_pending _ _ _ _ _ _ _ _ BI) as BP.
    destruct (Z.ltb_spec (zlen (b_target st) - zlen prev) (w_len w)) as [L|L]; [|apply fine_none].
    apply fine_first; [apply f_next_fine; auto|].
    pose proof (gni_sound t (b_pending st) (b_inst st) TO BB BP) as G.
    destruct (get_next_instruction t (b_pending st) (b_inst st)) as [ty size mode p' rest|p' rest|] eqn:GN; try apply fine_none.
    destruct (gni_entry _ _ _ _ _ _ _ _ BB BP GN) as ((op & OP & ALT) & LR & NP).
    destruct G as (k & ps & F & NE & SC & PO & BR & SM). pose proof (size_code_nonneg k ps size SC) as SZ.
    destruct ((w_len w <? size) || _) eqn:CK; [apply fine_none|].
    set (st1 := with_inst st p' rest) in *.
    assert (binv dict t w prev seg st1 hist T) as BI1 by (apply binv_with_inst; auto).
    pose proof (zlen_nonneg _ T).
    apply fine_first.
    + unfold f_decode_instruction. destruct (TY op OP) as [T1 T2].
      destruct (Z.eqb_spec ty VCD_ADD) as [|N1]; [apply fine_none|]. destruct (Z.eqb_spec ty VCD_RUN) as [|N2]; [apply fine_none|].
      destruct (Z.eqb_spec ty VCD_COPY) as [|N3].
      * apply f_copy_fine.
        -- intros X. specialize (LM X). change (b_target st1) with (b_target st). lia.
        -- intros X. destruct (LP X) as (-> & N & S). split; [exact N|]. split; [exact S|]. destruct (default_modes op OP). lia.
      * exfalso. unfold VCD_ADD, VCD_RUN, VCD_COPY, VCD_NOOP in *. lia.
    + pose proof (exec_sound dict t w prev seg st1 hist T ty size mode BI1) as E.
      destruct (decode_instruction dict w (zlen prev) st1 ty size mode) as [st2|st2| | |] eqn:DI; try apply fine_none.
      * destruct E as (pd & pa & h2 & T2 & (I1 & I2 & I3 & I4) & SE & BI2 & _); [lia|lia|intros; lia|].
        apply (IH st2 h2 T2 TO TY BI2). split; [exact LM|]. intros X. destruct (LP X) as (A & B & C).
        change (b_cache st1) with (b_cache st) in I3, I4. rewrite I3, I4. auto.
      * apply instruction_eod in DI as ->. unfold f_unget. change (b_inst st1) with rest. change (b_pending st1) with p'.
        destruct (Z.ltb_spec (zlen (b_inst st)) (zlen rest)); [lia|].
        destruct p' as [x|]; [|apply fine_none]. destruct (b_pending st) as [y|]; [|apply fine_none].
        specialize (NP ltac:(discriminate)). discriminate.
Qed.

Lemma f_body_fine : forall m pl c w prev seg st hist T avail sections,
  table_ok (d_table c) -> types_ok (d_table c) -> binv (d_dict c) (d_table c) w prev seg st hist T -> body_lim m pl (d_table c) w st ->
  d_start c = zlen prev ->
  (b_il st = true -> zlen (b_inst st) <= zlen avail) -> (b_il st = false -> sections <= zlen avail) ->
  fine m pl (f_decode_body c w st avail sections).
Proof.
  intros m pl c w prev seg st hist T avail sections TO TY BI BL SE IL SP. unfold f_decode_body. rewrite SE.
  apply fine_first; [eapply f_body_loop_fine; eauto|].
  pose proof (body_loop_keeps _ _ _ _ _ (body_fuel st) _ _ _ TO BI) as K. unfold decode_body.
  assert (forall st', zlen (b_inst st') <= zlen (b_inst st) -> b_il st = true ->
    fine m pl (f_advance (zlen (b_inst st) - zlen (b_inst st')) avail)) as ADV.
  { intros st' L I1. specialize (IL I1). unfold f_advance. pose proof (zlen_nonneg _ (b_inst st')). apply fine_if. lia. }
  destruct (body_loop (body_fuel st) (d_dict c) (d_table c) w (zlen prev) st) as [st'|st'| | |]; try apply fine_none.
  - destruct K as (K & _). destruct (negb _); [apply fine_none|]. destruct (_ && _); [apply fine_none|].
    destruct (nonempty _); [apply fine_none|]. destruct (_ && _); [apply fine_none|].
    destruct (b_il st) eqn:BIL; [apply ADV; auto|]. unfold f_set_position. apply fine_if. specialize (SP eq_refl). lia.
  - destruct K as (K & _). destruct (b_il st) eqn:BIL; [apply ADV; auto|apply fine_none].
Qed.

(** ** Windows *)

Definition plan_ok (c : core) : Prop :=
  0 <= d_total c /\ (d_planned c = kUnlimitedBytes \/ d_planned c = 1536 /\ d_total c <= 1536).
Definition lim (m : option Z) (c : core) : Prop :=
  plan_ok c /\
  match m with
  | None => True
  | Some M => plim LP64 c /\ d_max_file c <= M /\ zlen (d_dict c) + M <= int32_max
  end.
Definition plainc (pl : bool) (c : core) : Prop :=
  pl = true -> d_table c = default_table /\ d_sizes c = Some (4, 3) /\
    (forall w, d_win c = Some w -> near_size (w_cache w) = 4 /\ same_size (w_cache w) = 3).

Lemma plan_reached : forall m pl c, plan_ok c -> fine m pl (f_reached_planned c).
Proof.
  intros m pl c [_ P]. unfold f_reached_planned. apply fine_if. intros H. exfalso. unfold has_planned in H.
  destruct P as [P|[P T]]; rewrite P in H; [rewrite Z.eqb_refl in H; discriminate|lia].
Qed.

Lemma finish_plain : forall pl c total w prev seg st hist T avail after, plainc pl c -> table_ok (d_table c) ->
  binv (d_dict c) (d_table c) w prev seg st hist T -> d_start c = zlen prev ->
  (pl = true -> near_size (b_cache st) = 4 /\ same_size (b_cache st) = 3) ->
  match finish_window c total w st avail after with XOk (c', _) | XEod (c', _) => plainc pl c' | _ => True end.
Proof.
  intros pl c total w prev seg st hist T avail after PC TO BI SE CA. unfold finish_window.
  pose proof (body_loop_keeps _ _ _ _ _ (body_fuel st) _ _ _ TO BI) as K.
  unfold decode_body. rewrite SE. destruct (body_loop (body_fuel st) (d_dict c) (d_table c) w (zlen prev) st) as [st'|st'| | |]; auto.
  - destruct (negb _); auto. destruct (_ && _); auto. destruct (nonempty _); auto. destruct (_ && _); auto.
    intros P. destruct (PC P) as (A & B & _). split; [exact A|]. split; [exact B|]. cbn. discriminate.
  - cbv zeta. destruct (_ && _); auto. intros P. destruct (PC P) as (A & B & _). split; [exact A|]. split; [exact B|].
    cbn. intros w' E. injection E as <-. cbn. destruct (CA P). destruct K as (_ & _ & -> & ->). auto.
Qed.

Lemma window_plan : forall ns ss c data, core_ok ns ss c -> bytes_ok data -> plan_ok c ->
  match decode_window c data with XOk (c', _) | XEod (c', _) => plan_ok c' | _ => True end.
Proof.
  intros ns ss c data CO B [P0 P].
  assert (forall total w st avail after, 0 <= total -> (d_planned c = kUnlimitedBytes \/ d_planned c = 1536 /\ total <= 1536) ->
    match finish_window c total w st avail after with XOk (c', _) | XEod (c', _) => plan_ok c' | _ => True end) as F.
  { intros total w st avail after T0 T. unfold finish_window. destruct (decode_body _ _ _ _ _); auto; [split; auto|].
    cbv zeta. destruct (_ && _); auto. split; auto. }
  unfold decode_window. destruct (d_win c) as [w|] eqn:DW; [apply F; auto|].
  destruct (read_header c data) as [[[[w st] after] l]| | |] eqn:RH; auto; [|split; auto].
  destruct (read_header_binv ns ss c data w st after l CO DW B RH) as (_ & WE & WL).
  apply F. { unfold to_size. apply Z.mod_pos_bound. reflexivity. }
  destruct P as [P|[P T]]; [left; exact P|right]. split; [exact P|].
  unfold would_exceed, has_planned in WE. rewrite P in WE. apply orb_false_iff in WE as [WE _]. apply orb_false_iff in WE as [_ WE].
  rewrite to_size_id in WE by (unfold size_max; lia). destruct (1536 =? kUnlimitedBytes) eqn:U; [discriminate|]. cbn [negb andb] in WE.
  rewrite to_size_id by (unfold size_max; lia). lia.
Qed.

(** The source segment and the window together. *)
Lemma segment_fits : forall c dict t w prev seg st hist T M tot, binv dict t w prev seg st hist T ->
  zlen prev + w_len w <= tot -> tot <= d_max_file c -> d_max_file c <= M -> zlen dict + M <= int32_max ->
  w_seglen w + w_len w <= int32_max.
Proof.
  intros c dict t w prev seg st hist T M tot BI H1 H2 H3 H4. pose proof (zlen_nonneg _ dict). pose proof (zlen_nonneg _ prev).
  pose proof (bi_none _ _ _ _ _ _ _ _ BI) as BN. destruct (bi_seg _ _ _ _ _ _ _ _ BI) as [_ SG].
  destruct (w_kind w).
  - rewrite (BN eq_refl). lia.
  - apply slice_inv in SG. lia.
  - apply slice_inv in SG. lia.
Qed.

Lemma f_window_fine : forall m pl ns ss c data, core_ok ns ss c -> types_ok (d_table c) -> bytes_ok data -> lim m c -> plainc pl c ->
  fine m pl (f_decode_window c data) /\
  match decode_window c data with
  | XOk (c', _) | XEod (c', _) => lim m c' /\ plainc pl c'
  | _ => True
  end.
Proof.
  intros m pl ns ss c data CO TY B [PK LM] PC.
  assert (match decode_window c data with XOk (c', _) | XEod (c', _) => lim m c' | _ => True end) as LIM.
  { pose proof (window_plan ns ss c data CO B PK) as WP.
    pose proof (decode_window_step c ns ss data [] CO B ltac:(constructor)) as ST.
    assert (forall c', cstep c c' -> d_max_file c' = d_max_file c /\ d_dict c' = d_dict c) as CS.
    { intros c' (? & ? & ? & ? & ->). auto. }
    assert (match m with None => True | Some _ => match decode_window c data with XOk (c', _) | XEod (c', _) => plim LP64 c' | _ => True end end) as PL.
    { destruct m; auto. destruct LM as [PL _]. exact (proj2 (p_window_eq LP64 ns ss c data CO B PL)). }
    destruct (decode_window c data) as [[c' r]|[c' r]| | |]; auto; (split; [exact WP|]); destruct m; auto;
      destruct LM as (_ & L1 & L2); (split; [exact PL|]); destruct ST as (_ & ST & _); apply CS in ST as [-> ->]; auto. }
  cut (fine m pl (f_decode_window c data) /\ match decode_window c data with XOk (c', _) | XEod (c', _) => plainc pl c' | _ => True end).
  { intros [X Y]. split; [exact X|]. destruct (decode_window c data) as [[c' r]|[c' r]| | |]; auto. }
  clear LIM. pose proof (co_table _ _ _ CO) as TO.
  unfold f_decode_window, decode_window. pose proof (co_win _ _ _ CO) as CW. destruct (d_win c) as [w|] eqn:DW.
  - destruct (il_inv_more c w [] data CW B) as (prev & seg & hist & T & SE & E0 & BA & _ & BI). cbn [app] in BI.
    assert (pl = true -> near_size (w_cache w) = 4 /\ same_size (w_cache w) = 3) as CA.
    { intros P. destruct (PC P) as (_ & _ & C). auto. }
    split; [|eapply finish_plain; eauto].
    apply (f_body_fine m pl c w prev seg (il_state w (d_target c) data) hist T data 0); auto.
    + split.
      * intros MN. destruct m as [M|]; [|congruence]. destruct LM as (PL & L1 & L2).
        pose proof (pl_win _ _ PL) as PW. rewrite DW in PW. pose proof (pl_total _ _ PL).
        apply (segment_fits c (d_dict c) (d_table c) w prev seg _ hist T M (d_total c) BI); lia.
      * intros P. destruct (PC P) as (A & _). split; [exact A|]. exact (CA P).
    + intros _. cbn. pose proof (zlen_nonneg _ data). destruct (Z.leb_spec (w_expected w) (zlen data)); [rewrite zlen_ztake by lia; lia|].
      rewrite ztake_all by lia. lia.
    + discriminate.
  - destruct (read_header c data) as [[[[w st] after] l]| | |] eqn:RH.
    + destruct (read_header_binv ns ss c data w st after l CO DW B RH) as ((seg & BI) & WE & WL).
      rewrite read_header_eq in RH. destruct (header_fields c data) as [[fd l0]| | |] eqn:HF; cbn [bind] in RH; try discriminate.
      destruct (negb (fields_il c fd) && (zlen l0 <? fields_total fd)) eqn:IT; [discriminate|]. rewrite (co_sizes _ _ _ CO) in RH.
      destruct (cache_init ns ss) as [ca|] eqn:CI; [|discriminate]. cbv zeta in RH.
      assert (l0 = l) as -> by congruence. assert (fields_window c fd ca = w) as EW by congruence.
      assert ((if fields_il c fd then il_state (fields_window c fd ca) (d_target c) l else std_state fd ca (d_target c) l) = st) as ES by congruence.
      clear RH.
      destruct (header_sound c ns ss data fd l B HF) as (hdr & seg' & ED & HR & BL).
      assert (f_sections c data = fields_total fd) as FS.
      { unfold f_sections. unfold header_fields in HF.
        destruct (parse_win_indicator _ _ _ data) as [[[[[ind kd] sl] po] r]| | |]; cbn [bind] in *; try discriminate.
        destruct (parse_size r) as [[dl s0]| | |]; cbn [bind] in *; try discriminate.
        destruct (parse_size s0) as [[tl2 s2]| | |]; cbn [bind] in *; try discriminate.
        destruct (would_exceed c tl2); try discriminate.
        destruct (parse_delta_indicator s2) as [s3| | |]; cbn [bind] in *; try discriminate.
        destruct (parse_section_lengths _ _ _ _) as [[[[[x1 x2] x3] x4] x5]| | |]; cbn [bind] in *; try discriminate.
        injection HF as <- <-. reflexivity. }
      assert (b_cache st = ca) as EC.
      { rewrite <- ES. destruct fd as [[[[[[[[kind seglen] pos] tl] nd] ni] na] cks] has]. destruct (fields_il _ _); reflexivity. }
      assert (b_il st = fields_il c fd) as EI.
      { rewrite <- ES. destruct fd as [[[[[[[[kind seglen] pos] tl] nd] ni] na] cks] has]. destruct (fields_il _ _); reflexivity. }
      assert (pl = true -> near_size (b_cache st) = 4 /\ same_size (b_cache st) = 3) as CA.
      { intros P. destruct (PC P) as (_ & S & _). rewrite (co_sizes _ _ _ CO) in S. injection S as -> ->.
        destruct (cache_init_like 4 3 ca ltac:(lia) ltac:(lia) CI) as (_ & N1 & N2). rewrite EC. auto. }
      split; [|eapply finish_plain; eauto].
      apply fine_first.
      { unfold f_advance. apply fine_if. rewrite ED, zlen_app. pose proof (zlen_nonneg _ hdr). pose proof (zlen_nonneg _ l). lia. }
      apply (f_body_fine m pl c w (d_target c) seg st [] [] l); auto.
      * split.
        -- intros MN. destruct m as [M|]; [|congruence]. destruct LM as (PL & L1 & L2).
           pose proof (pl_win _ _ PL) as PW. rewrite DW in PW. pose proof (pl_total _ _ PL) as PT. pose proof (pl_max _ _ PL) as PM. cbn in PM.
           assert (lim_inv c) as LI.
           { split; [unfold size_max in *; lia|]. split. { destruct (pl_plan _ _ PL) as [-> | [-> _]]; unfold kUnlimitedBytes, size_max; lia. }
             split; [lia|]. intros HP. destruct (pl_plan _ _ PL) as [E|[E1 E2]]; [|lia]. unfold has_planned in HP. rewrite E, Z.eqb_refl in HP. discriminate. }
           destruct (would_exceed_false c (w_len w) WE LI) as (_ & X2 & _); try lia.
           apply (segment_fits c (d_dict c) (d_table c) w (d_target c) seg st [] [] M (d_total c + w_len w) BI); lia.
        -- intros P. destruct (PC P) as (A & _). split; [exact A|]. exact (CA P).
      * rewrite EI. intros I1. rewrite <- ES, I1. cbn. rewrite EW.
        assert (0 <= w_expected w) as E0.
        { rewrite <- EW. pose proof (header_rel_lens _ _ _ _ _ _ HR) as LE. destruct fd as [[[[[[[[kind seglen] pos] tl] nd] ni] na] cks] has].
          cbn [fields_window w_expected]. rewrite I1. lia. }
        destruct (Z.leb_spec (w_expected w) (zlen l)); [rewrite zlen_ztake by lia; lia|]. rewrite ztake_all by lia. lia.
      * rewrite EI. intros I1. rewrite FS. rewrite I1 in IT. cbn [negb andb] in IT. lia.
    + split; [|exact PC]. rewrite (co_sizes _ _ _ CO). destruct (cache_init ns ss) as [ca|] eqn:CI; [apply fine_none|].
      destruct (read_header (set_file c (d_version c) (Some (0, 0)) (d_string c) (d_table c)) data); try apply fine_none. apply fine_some. cbn.
      destruct pl; [|reflexivity]. destruct (PC eq_refl) as (_ & S & _). rewrite (co_sizes _ _ _ CO) in S. injection S as -> ->. discriminate.
    + split; [|exact Logic.I]. rewrite (co_sizes _ _ _ CO). destruct (cache_init ns ss) as [ca|] eqn:CI; [apply fine_none|].
      destruct (read_header (set_file c (d_version c) (Some (0, 0)) (d_string c) (d_table c)) data); try apply fine_none. apply fine_some. cbn.
      destruct pl; [|reflexivity]. destruct (PC eq_refl) as (_ & S & _). rewrite (co_sizes _ _ _ CO) in S. injection S as -> ->. discriminate.
    + split; [|exact Logic.I]. rewrite (co_sizes _ _ _ CO). destruct (cache_init ns ss) as [ca|] eqn:CI; [apply fine_none|].
      destruct (read_header (set_file c (d_version c) (Some (0, 0)) (d_string c) (d_table c)) data); try apply fine_none. apply fine_some. cbn.
      destruct pl; [|reflexivity]. destruct (PC eq_refl) as (_ & S & _). rewrite (co_sizes _ _ _ CO) in S. injection S as -> ->. discriminate.
Qed.

(** ** The loop *)

Lemma lim_flush : forall m c, lim m c -> d_win c = None -> lim m (fst (flush_target c)).
Proof.
  intros m c [[P1 P2] L] WN. split; [split; auto|]. destruct m; auto. destruct L as ([Q1 Q2 Q3 Q4] & L1 & L2).
  split; [|auto]. constructor; cbn; auto. rewrite WN. rewrite zlen_nil. lia.
Qed.

Lemma f_loop_fine : forall m pl f ns ss c data out, core_ok ns ss c -> types_ok (d_table c) -> bytes_ok data -> lim m c -> plainc pl c ->
  fine m pl (f_window_loop f c data) /\
  match fst (window_loop f c data out) with
  | XOk (c', rest) | XEod (c', rest) => core_ok ns ss c' /\ types_ok (d_table c') /\ lim m c' /\ plainc pl c' /\ bytes_ok rest /\ d_started c' = d_started c
  | _ => True
  end.
Proof.
  intros m pl. induction f as [|f IH]; intros ns ss c data out CO TY B LM PC.
  - destruct data; cbn; (split; [apply fine_none|]); auto 10.
  - destruct data as [|b data0]; [cbn; split; [apply fine_none|]; auto 10|]. set (data := b :: data0) in *.
    replace (window_loop (Datatypes.S f) c data out) with
      (match decode_window c data with
          | XOk (c', rest) =>
              if reached_planned c' then (XOk (c', rest), out)
              else if d_allow c' then window_loop f c' rest out
              else let '(c'', o) := flush_target c' in window_loop f c'' rest (out ++ o)
          | r => (r, out)
          end) by reflexivity.
    replace (f_window_loop (Datatypes.S f) c data) with
      (first (f_decode_window c data)
            (match decode_window c data with
             | XOk (c', rest) =>
                 first (f_reached_planned c')
                   (if reached_planned c' then None
                    else if d_allow c' then f_window_loop f c' rest
                    else f_window_loop f (fst (flush_target c')) rest)
             | _ => None
             end)) by reflexivity.
    clearbody data.
    destruct (f_window_fine m pl ns ss c data CO TY B LM PC) as [FW NX].
    pose proof (decode_window_step c ns ss data [] CO B ltac:(constructor)) as ST.
    destruct (decode_window c data) as [[c' rest]|[c' rest]| | |]; try (split; [apply fine_first; [exact FW|apply fine_none]|exact Logic.I]).
    + destruct NX as [LM' PC']. destruct ST as (CO' & CS & WN & BR & _).
      assert (d_table c' = d_table c /\ d_started c' = d_started c) as [ET ES] by (destruct CS as (? & ? & ? & ? & ->); auto).
      rewrite <- ET in TY.
      assert (fine m pl (f_reached_planned c')) as FR by (apply plan_reached; apply LM').
      destruct (reached_planned c').
      { split; [apply fine_first; [exact FW|]; apply fine_first; [exact FR|apply fine_none]|]. cbn [fst]. auto 10. }
      destruct (d_allow c').
      * destruct (IH ns ss c' rest out CO' TY BR LM' PC') as [F1 F2].
        split; [apply fine_first; [exact FW|]; apply fine_first; auto|].
        destruct (fst (window_loop f c' rest out)) as [[? ?]|[? ?]| | |]; auto; rewrite <- ES; exact F2.
      * unfold flush_target. cbn [fst].
        destruct (IH ns ss (set_target_out c' [] 0 0) rest (out ++ zdrop (d_out_pos c') (d_target c'))) as [F1 F2]; auto.
        { exact (core_ok_flush ns ss c' CO' WN). } { exact (lim_flush m c' LM' WN). }
        split; [apply fine_first; [exact FW|]; apply fine_first; auto|].
        destruct (fst (window_loop f (set_target_out c' [] 0 0) rest _)) as [[? ?]|[? ?]| | |]; auto; rewrite <- ES; exact F2.
    + destruct NX as [LM' PC']. destruct ST as (CO' & CS & BR & _).
      assert (d_table c' = d_table c /\ d_started c' = d_started c) as [ET ES] by (destruct CS as (? & ? & ? & ? & ->); auto).
      rewrite <- ET in TY. split; [apply fine_first; [exact FW|apply fine_none]|]. cbn [fst]. auto 10.
Qed.

(** ** DecodeChunk *)

(** The bound leaves room for the default limit and for the table that is the
    dictionary of a code table. *)
Definition bound_ok (m : option Z) : Prop :=
  match m with None => True | Some M => kDefaultMaximumTargetFileSize <= M /\ 1536 + M <= int32_max end.
Definition max_ok (m : option Z) (c : core) : Prop :=
  match m with None => True | Some M => 0 <= d_max_file c <= M end.
Definition dict_ok (m : option Z) (c : core) : Prop :=
  match m with None => True | Some M => zlen (d_dict c) + M <= int32_max end.

Record fbase (m : option Z) (pl : bool) (c : core) : Prop := {
  fb_started : d_started c = true;
  fb_table : table_ok (d_table c);
  fb_types : types_ok (d_table c);
  fb_bytes : bytes_ok (d_dict c);
  fb_target : d_target c = [];
  fb_win : d_win c = None;
  fb_start : d_start c = 0;
  fb_total : d_total c = 0;
  fb_plan : d_planned c = kUnlimitedBytes \/ d_planned c = 1536;
  fb_max : max_ok m c;
  fb_dict : dict_ok m c;
  fb_plain : pl = true -> d_table c = default_table
}.

Inductive finv (m : option Z) (pl : bool) : dec -> Prop :=
| finv_off : forall c n, d_started c = false -> table_ok (d_table c) -> types_ok (d_table c) -> max_ok m c ->
    (pl = true -> d_table c = default_table) -> finv m pl (Dec c n)
| finv_header : forall c, fbase m pl c -> d_sizes c = None -> bytes_ok (d_unparsed c) -> finv m pl (Dec c None)
| finv_nested : forall c nd ns ss an, pl = false -> fbase m pl c -> d_sizes c = Some (ns, ss) -> sizes_ok ns ss ->
    d_unparsed c = [] -> finv m pl nd -> drel (d_string c) nd an -> aok an -> d_planned (acore an) = 1536 ->
    zlen (d_target (acore an)) < 1536 -> finv m pl (Dec c (Some nd))
| finv_core : forall ns ss c, core_ok ns ss c -> types_ok (d_table c) -> lim m c -> plainc pl c -> bytes_ok (d_unparsed c) ->
    d_started c = true -> finv m pl (Dec c None).

Definition core_of (d : dec) : core := let '(Dec c _) := d in c.

Lemma int32_below : forall x M, 1536 + M <= int32_max -> x <= M -> x <= smax LP64.
Proof. intros. cbn. unfold size_max, int32_max in *. lia. Qed.

Lemma fbase_core : forall m pl ns ss c, bound_ok m -> fbase m pl c -> d_sizes c = Some (ns, ss) -> sizes_ok ns ss ->
  (pl = true -> ns = 4 /\ ss = 3) ->
  core_ok ns ss c /\ lim m c /\ plainc pl c.
Proof.
  intros m pl ns ss c BM [F0 F1 F2 F3 F4 F5 F6 F7 F8 F9 F10 F11] S [SO1 SO2] P43. split; [|split].
  - constructor; auto; try lia; rewrite ?F4, ?F5; auto; [constructor|discriminate].
  - assert (plan_ok c) as PK. { split; [lia|]. destruct F8 as [H|H]; [left; exact H|right; split; [exact H|lia]]. }
    split; [exact PK|]. unfold max_ok, dict_ok, bound_ok in *. destruct m as [M|]; [|exact Logic.I]. destruct BM as [B1 B2].
    split; [|split; [lia|exact F10]].
    constructor.
    + split; [lia|]. apply (int32_below _ M); lia.
    + exact (proj2 PK).
    + lia.
    + rewrite F5, F4, F7, zlen_nil. lia.
  - intros P. split; [exact (F11 P)|]. destruct (P43 P) as [-> ->]. split; [exact S|]. rewrite F5. discriminate.
Qed.

Lemma table_decoder_finv : forall m pl, bound_ok m -> finv m pl table_decoder.
Proof.
  intros m pl BM. apply finv_header; [|reflexivity|constructor]. constructor; try reflexivity.
  - apply default_table_ok.
  - apply default_types_ok.
  - apply bytes_okb_ok. vm_compute. reflexivity.
  - right. reflexivity.
  - unfold max_ok, bound_ok in *. destruct m; [|exact Logic.I].
    change (d_max_file (set_limits _ _ _ _ _)) with kDefaultMaximumTargetFileSize. unfold kDefaultMaximumTargetFileSize in *. lia.
  - unfold dict_ok, bound_ok in *. destruct m; [|exact Logic.I].
    assert (zlen (table_bytes default_table) = 1536) as E by (vm_compute; reflexivity).
    change (d_dict (set_limits _ _ _ _ _)) with (table_bytes default_table). lia.
Qed.

Lemma drel_started : forall O d a, drel O d a -> d_started (core_of d) = true.
Proof. intros O d a []; auto. Qed.

Lemma finv_max : forall m pl d, finv m pl d ->
  table_ok (d_table (core_of d)) /\ types_ok (d_table (core_of d)) /\ max_ok m (core_of d) /\ (pl = true -> d_table (core_of d) = default_table).
Proof.
  intros m pl d [c n S T Y M P|c [] S BU|c nd ns ss an P [] S SO U FN DR AO PP ZL|ns ss c CO TY [PK LM] PC BU ST]; cbn; auto.
  split; [apply CO|]. split; [exact TY|]. split; [|intros P; apply (PC P)].
  unfold max_ok. destruct m; auto. destruct LM as (PL & LM & _). pose proof (pl_max _ _ PL). lia.
Qed.

Lemma finv_failed : forall m pl c, table_ok (d_table c) -> types_ok (d_table c) -> max_ok m c -> (pl = true -> d_table c = default_table) ->
  finv m pl (Dec (reset c) None).
Proof. intros. apply finv_off; auto. Qed.

Lemma f_complete_fine : forall m pl d, finv m pl d -> fine m pl (f_finish_decoding d).
Proof.
  intros m pl d [c n S T Y M P|c FB S BU|c nd ns ss an P FB S SO U FN DR AO PP ZL|ns ss c CO TY [PK LM] PC BU ST];
    unfold f_finish_decoding, f_is_decoding_complete.
  - rewrite S. apply fine_none.
  - rewrite S. destruct (d_started c); apply fine_none.
  - rewrite S. destruct (d_started c); apply fine_none.
  - rewrite (co_sizes _ _ _ CO). destruct (d_started c); [|apply fine_none]. destruct (d_win c); [apply fine_none|]. apply plan_reached; auto.
Qed.

(** What a call of DecodeChunk leaves. *)
Definition chunk_post (m : option Z) (pl : bool) (d : dec) (data : list Z) (r : cres) : Prop :=
  match r with
  | CRet d' ok o => finv m pl d' /\ d_started (core_of d') = ok /\
      (ok = true -> d_sizes (core_of d') = None -> d_sizes (core_of d) = None /\ d_unparsed (core_of d') = d_unparsed (core_of d) ++ data)
  | _ => True
  end.

Lemma f_windows_fine : forall m pl ns ss c data d data0, core_ok ns ss c -> types_ok (d_table c) -> lim m c -> plainc pl c -> bytes_ok data ->
  d_started c = true -> max_ok m c ->
  fine m pl (f_window_loop (Datatypes.S (length data)) c data) /\ chunk_post m pl d data0 (chunk_windows c data).
Proof.
  intros m pl ns ss c data d data0 CO TY LM PC B ST MX.
  destruct (f_loop_fine m pl (Datatypes.S (length data)) ns ss c data [] CO TY B LM PC) as [F1 F2]. split; [exact F1|].
  unfold chunk_windows. destruct (window_loop _ c data []) as [[[c' rest]|[c' rest]| | |] out]; cbn [fst] in F2; try exact Logic.I.
  1,2: destruct F2 as (CO' & TY' & [PK' LM'] & PC' & BR & ST'); cbn; split; [|split; [congruence|intros _ X; rewrite (co_sizes _ _ _ CO') in X; discriminate]];
    apply (finv_core m pl ns ss); cbn; auto; [destruct CO'; constructor; auto| |congruence];
    (split; [exact PK'|]); destruct m; auto; destruct LM' as (PL & L1 & L2); (split; [|auto]); destruct PL; constructor; auto.
  cbn. split; [|split; [reflexivity|discriminate]]. apply finv_failed; auto; [apply CO|]. intros P. apply (PC P).
Qed.

(** A file header without its own code table. *)
Definition plain_head (l : list Z) : Prop := forall b, get l 4 = Some b -> Z.testbit b 1 = false.

Lemma check_magic_len : forall l u, check_magic l = Ok u -> 5 <= zlen l.
Proof.
  intros l u H. unfold check_magic in H. cbv zeta in H. destruct (_ && _ && _); [discriminate|]. destruct (_ || _ || _); [discriminate|].
  destruct (Z.ltb_spec (zlen l) 5); [discriminate|lia].
Qed.

Lemma plain_head_nth : forall l u, check_magic l = Ok u -> plain_head l -> Z.testbit (nth 4 l 0) 1 = false.
Proof.
  intros l u H P. apply check_magic_len in H. apply P.
  destruct l as [|a [|b [|c [|d [|e l]]]]]; try (rewrite ?zlen_cons, ?zlen_nil in H; lia).
  change (a :: b :: c :: d :: e :: l) with ([a; b; c; d] ++ e :: l). rewrite get_app_r by (rewrite !zlen_cons, zlen_nil; lia). reflexivity.
Qed.

Lemma f_header_fine : forall m pl c data, bytes_ok data -> (pl = true -> d_sizes c = None -> plain_head data) ->
  fine m pl (f_file_header c data).
Proof.
  intros m pl c data B H. unfold f_file_header. destruct (d_sizes c); [apply fine_none|].
  destruct (check_magic data) as [u| | |] eqn:CM; try apply fine_none. pose proof (check_magic_len _ _ CM) as L5.
  cbv zeta. destruct (Z.testbit (nth 4 data 0) 0); [apply fine_none|].
  destruct (Z.testbit (nth 4 data 0) 1) eqn:T1.
  - assert (pl = false) as ->. { destruct pl; [|reflexivity]. rewrite (plain_head_nth data u CM (H eq_refl eq_refl)) in T1. discriminate. }
    destruct (parse_size (zdrop 5 data)) as [[ns l]| | |] eqn:P1; try apply fine_none.
    destruct (parse_size l) as [[ss l2]| | |] eqn:P2; try apply fine_none.
    destruct (255 <? ns); [apply fine_some; reflexivity|]. destruct (255 <? ss); [apply fine_some; reflexivity|].
    destruct (parse_inv I32 _ ns l type_ok_I32 (bytes_ok_zdrop _ _ B) P1) as (p & E1 & _).
    assert (bytes_ok l) as BL. { apply (bytes_ok_suffix (zdrop 5 data) p l); [apply bytes_ok_zdrop; exact B|exact E1]. }
    destruct (parse_inv I32 l ss l2 type_ok_I32 BL P2) as (q & E2 & _).
    unfold f_advance. apply fine_if. rewrite zlen_zdrop by lia.
    apply (f_equal (@zlen Z)) in E1, E2. rewrite zlen_app in E1, E2. rewrite zlen_zdrop in E1 by lia.
    pose proof (zlen_nonneg _ p). pose proof (zlen_nonneg _ q). pose proof (zlen_nonneg _ l2). lia.
  - unfold f_advance. apply fine_if. lia.
Qed.

Lemma zlen_nat : forall l : list Z, zlen l = Z.of_nat (length l).
Proof. induction l; [reflexivity|]. rewrite zlen_cons, IHl. cbn [length]. lia. Qed.

Lemma f_chunk_fine : forall m, bound_ok m -> forall f pl d data, finv m pl d -> bytes_ok data -> (chunk_fuel d data <= f)%nat ->
  d_started (core_of d) = true ->
  (pl = true -> d_sizes (core_of d) = None -> plain_head (d_unparsed (core_of d) ++ data)) ->
  fine m pl (f_decode_chunk_fuel f d data) /\ chunk_post m pl d data (decode_chunk_fuel f d data).
Proof.
  intros m BM. induction f as [|f IH]; intros pl [c0 n0] data FI B LE ST PH; cbn [core_of] in *.
  { destruct n0; cbn in LE; lia. }
  pose proof (finv_max _ _ _ FI) as (T0 & Y0 & M0 & D0). cbn [core_of] in *.
  assert (forall c data', d_table c = d_table c0 -> d_max_file c = d_max_file c0 -> chunk_post m pl (Dec c0 n0) data' (chunk_failed c [])) as FAIL.
  { intros c data' ET EM. cbn. split; [|split; [reflexivity|discriminate]]. apply finv_failed; rewrite ?ET; auto. unfold max_ok in *. destruct m; auto. rewrite EM. exact M0. }
  cbn [f_decode_chunk_fuel decode_chunk_fuel]. rewrite ST. cbn [negb].
  (* the code table decoder *)
  assert (forall c nd an rest ns ss, pl = false -> fbase m pl c -> d_table c = d_table c0 -> d_max_file c = d_max_file c0 ->
    d_sizes c = Some (ns, ss) -> sizes_ok ns ss -> finv m pl nd -> drel (d_string c) nd an -> aok an -> d_planned (acore an) = 1536 ->
    zlen (d_target (acore an)) < 1536 -> bytes_ok rest -> (chunk_fuel nd rest <= f)%nat ->
    fine m pl
      (first (f_decode_chunk_fuel f nd rest)
                 (match decode_chunk_fuel f nd rest with
                  | CRet nd' true o =>
                      let s := d_string c ++ o in
                      if zlen s <? 1536 then None
                      else
                        first (f_finish_decoding nd')
                          (let '(Dec nc _, fin) := finish_decoding nd' in
                           if negb fin then None
                           else if negb (zlen s =? 1536) then Some TableSizeWrong
                           else
                             first (f_finish_except (zlen (d_unparsed nc)) rest)
                               (let rest' := finish_except (zlen (d_unparsed nc)) rest in
                                match d_sizes c with
                                | None => None
                                | Some (ns, ss) =>
                                    match use_code_table (d_table c) (table_of_bytes s) (last_mode ns ss) with
                                    | None => None
                                    | Some (t, _) =>
                                        f_window_loop (Datatypes.S (length rest')) (set_file c (d_version c) (d_sizes c) [] t) rest'
                                    end
                                end))
                  | _ => None
                  end)) /\
    chunk_post m pl (Dec c0 n0) data
           (match decode_chunk_fuel f nd rest with
            | CUB => CUB
            | CFuel => CFuel
            | CRet _ false _ => chunk_failed c []
            | CRet nd' true o =>
                let s := d_string c ++ o in
                if zlen s <? 1536 then
                  chunk_done (set_file c (d_version c) (d_sizes c) s (d_table c)) (Some nd') [] []
                else
                  let '(Dec nc _, fin) := finish_decoding nd' in
                  if negb fin then chunk_failed c []
                  else if negb (zlen s =? 1536) then chunk_failed c []
                  else
                    let rest' := finish_except (zlen (d_unparsed nc)) rest in
                    match d_sizes c with
                    | None => CUB
                    | Some (ns, ss) =>
                        match use_code_table (d_table c) (table_of_bytes s) (last_mode ns ss) with
                        | None => CUB
                        | Some (t, _) => chunk_windows (set_file c (d_version c) (d_sizes c) [] t) rest'
                        end
                    end
            end)) as NEST.
  { intros c nd an rest ns ss PLF FB ET EM S SO FN DR AO PN TN BR LE'.
    assert (~ stopped (acore an)) as NN by (intros X; apply (aok_stopped an AO PN) in X; lia).
    destruct (IH pl nd rest FN BR LE' (drel_started _ _ _ DR) ltac:(intros; congruence)) as [F1 F2].
    pose proof (decode_chunk_fuel_sim f nd rest (d_string c) an LE' DR AO NN BR) as M.
    destruct (decode_chunk_fuel f nd rest) as [nd' [|] o| |]; try contradiction.
    3:{ split; [apply fine_first; [exact F1|apply fine_none]|exact Logic.I]. }
    2:{ split; [apply fine_first; [exact F1|apply fine_none]|apply FAIL; auto]. }
    destruct M as (an' & AC & DR'). destruct F2 as (FN' & _ & _). cbv zeta.
    pose proof (acr_ok _ _ _ AC AO NN BR) as (AO' & PN' & REST). rewrite PN in PN'.
    pose proof (drel_out _ _ _ DR') as TE. rewrite <- TE.
    destruct (aok_stopped an' AO' PN') as [SI SL].
    destruct (Z.ltb_spec (zlen (d_target (acore an'))) 1536) as [L|L].
    { split; [apply fine_first; [exact F1|apply fine_none]|].
      cbn. split; [|split; [apply FB|intros _ X; congruence]].
      apply (finv_nested m pl _ nd' ns ss an'); auto; [destruct FB; constructor; auto|]. cbn. rewrite TE. exact DR'. }
    pose proof (f_complete_fine m pl nd' FN') as FC.
    destruct (drel_finish _ _ _ DR' AO') as (nc & nn & -> & FNE & UN & _). rewrite FNE.
    destruct (acomplete an'); cbn [negb].
    2:{ split; [apply fine_first; [exact F1|]; apply fine_first; [exact FC|apply fine_none]|apply FAIL; auto]. }
    assert (zlen (d_target (acore an')) = 1536) as L2 by lia.
    destruct (Z.eqb_spec (zlen (d_target (acore an'))) 1536) as [_|]; [|lia]. cbn [negb].
    change (d_unparsed (reset nc)) with (d_unparsed nc). rewrite S, UN.
    specialize (REST (proj2 SI L2)).
    assert (bytes_ok (d_target (acore an'))) as BT by (apply aok_target_bytes; auto).
    destruct (use_code_table_ok (d_table c) (table_of_bytes (d_target (acore an'))) (last_mode ns ss)) as (t & b & U & TO & _).
    { apply FB. } { apply table_of_bytes_ok; auto. } { apply last_mode_range. }
    rewrite U.
    assert (types_ok t) as TYT. { eapply use_types_ok; [apply FB|exact BT|exact L2|apply last_mode_range|exact U]. }
    set (c2 := set_file c (d_version c) (Some (ns, ss)) [] t).
    assert (fbase m pl c2) as FB2. { destruct FB; constructor; auto. intros; congruence. }
    destruct (fbase_core m pl ns ss c2 BM FB2 eq_refl SO ltac:(intros; congruence)) as (CO & LM & PC).
    destruct (f_windows_fine m pl ns ss c2 (finish_except (zlen (arest an')) rest) (Dec c0 n0) data CO TYT LM PC) as [W1 W2].
    { apply bytes_finish_except; [apply zlen_nonneg|exact BR]. } { apply FB2. } { apply FB2. }
    split; [|exact W2]. apply fine_first; [exact F1|]. apply fine_first; [exact FC|].
    apply fine_first; [|exact W1]. unfold f_finish_except. apply fine_if. lia. }
  pose proof (f_header_fine m pl c0 (d_unparsed c0 ++ data)) as FH.
  assert (bytes_ok (d_unparsed c0) -> fine m pl (f_file_header c0 (d_unparsed c0 ++ data))) as FH'.
  { intros BU. apply FH; [apply bytes_ok_app; auto|exact PH]. }
  clear FH. cbn [read_file_header].
  inversion FI as [? ? X|? FB S BU|? nd ns ss an PLF FB S SO U FN DR AO PN TN|ns ss ? CO TY LM PC BU ST']; subst; [congruence| | |].
  - rewrite S in *. specialize (FH' BU). assert (bytes_ok (d_unparsed c0 ++ data)) as BC by (apply bytes_ok_app; auto).
    assert (chunk_post m pl (Dec c0 None) data (chunk_done c0 None (d_unparsed c0 ++ data) [])) as WAIT.
    { cbn. split; [|split; [exact ST|auto]]. apply finv_header; auto. destruct FB; constructor; auto. }
    assert (forall u, check_magic (d_unparsed c0 ++ data) = Ok u -> pl = true -> Z.testbit (nth 4 (d_unparsed c0 ++ data) 0) 1 = false) as PB.
    { intros u CM P. eapply plain_head_nth; eauto. }
    cbn [chunk_fuel] in LE.
    set (chunk := d_unparsed c0 ++ data) in *. clearbody chunk.
    destruct (check_magic chunk) as [u| | |] eqn:CM; cbn [bind].
    2:{ split; [apply fine_first; [exact FH'|apply fine_none]|exact WAIT]. }
    2:{ split; [apply fine_first; [exact FH'|apply fine_none]|apply FAIL; auto]. }
    2:{ split; [apply fine_first; [exact FH'|apply fine_none]|exact Logic.I]. }
    specialize (PB u eq_refl).
    destruct (Z.testbit (nth 4 chunk 0) 0). { split; [apply fine_first; [exact FH'|apply fine_none]|apply FAIL; auto]. }
    destruct (Z.testbit (nth 4 chunk 0) 1).
    + assert (pl = false) as PLF by (destruct pl; [specialize (PB eq_refl); discriminate|reflexivity]).
      destruct (parse_cache_sizes (zdrop 5 chunk)) as [[[ns ss] rest]| | |] eqn:PCS; cbn [bind].
      2:{ split; [apply fine_first; [exact FH'|apply fine_none]|exact WAIT]. }
      2:{ split; [apply fine_first; [exact FH'|apply fine_none]|apply FAIL; auto]. }
      2:{ split; [apply fine_first; [exact FH'|apply fine_none]|exact Logic.I]. }
      destruct (parse_cache_sizes_inv _ ns ss rest (bytes_ok_zdrop _ _ BC) PCS) as (q1 & q2 & E & _ & _ & N1 & N2 & _).
      assert (bytes_ok rest) as BR. { apply (bytes_ok_suffix (zdrop 5 chunk) (q1 ++ q2)); [apply bytes_ok_zdrop; exact BC|]. rewrite <- app_assoc. exact E. }
      destruct a_table_ok as (TO & TP & TT).
      destruct (NEST (set_file c0 (nth 3 chunk 0) (Some (ns, ss)) [] (d_table c0)) table_decoder a_table rest ns ss) as [R1 R2]; auto.
      { destruct FB; constructor; auto. } { split; assumption. } { apply table_decoder_finv; auto. } { exact table_drel. }
      { rewrite TT. reflexivity. }
      { change (chunk_fuel table_decoder rest) with (Datatypes.S (length rest)).
        pose proof (check_magic_len _ _ CM) as L5. apply (f_equal (@zlen Z)) in E. rewrite zlen_zdrop in E by lia. rewrite !zlen_app in E.
        pose proof (zlen_nonneg _ q1). pose proof (zlen_nonneg _ q2). rewrite !zlen_nat in *. lia. }
      split; [|exact R2]. apply fine_first; [exact FH'|exact R1].
    + set (c2 := set_file c0 (nth 3 chunk 0) (Some (kDefaultNearCacheSize, kDefaultSameCacheSize)) (d_string c0) (d_table c0)).
      assert (fbase m pl c2) as FB2. { destruct FB; constructor; auto. }
      destruct (fbase_core m pl 4 3 c2 BM FB2 eq_refl default_sizes_ok ltac:(auto)) as (CO & LM & PC).
      destruct (f_windows_fine m pl 4 3 c2 (zdrop 5 chunk) (Dec c0 None) data CO (fb_types _ _ _ FB2) LM PC) as [W1 W2].
      { apply bytes_ok_zdrop; exact BC. } { exact ST. } { apply FB2. }
      split; [|exact W2]. apply fine_first; [exact FH'|exact W1].
  - rewrite S in *. cbv iota beta. rewrite U in *. cbn [app] in *.
    destruct (NEST c0 nd an data ns ss) as [R1 R2]; auto.
    { cbn [chunk_fuel] in LE. lia. }
    split; [|exact R2]. apply fine_first; [apply FH'; constructor|exact R1].
  - rewrite (co_sizes _ _ _ CO) in *. cbv iota beta.
    destruct (f_windows_fine m pl ns ss c0 (d_unparsed c0 ++ data) (Dec c0 None) data CO TY LM PC) as [W1 W2]; auto.
    { apply bytes_ok_app. auto. }
    split; [|exact W2]. apply fine_first; [apply FH'; exact BU|exact W1].
Qed.

(** ** Sessions *)

(** The first place reached in a sequence of calls; [f_do] for each call, and the state
    after it by [do64]. *)
Fixpoint exits (d : dec) (l : list pcall) : option site :=
  match l with
  | [] => None
  | x :: tl =>
      first (f_do d x)
        (match do64 d x with
         | Some (d', _, _) => exits d' tl
         | None => None
         end)
  end.

(** The documented order of calls (google/vcdecoder.h 39-107): StartDecoding and
    SetAllowVcdTarget before decoding, DecodeChunk after StartDecoding; after a DecodeChunk
    that returned false StartDecoding has to be called again. *)
Fixpoint in_order (d : dec) (started : bool) (l : list pcall) : Prop :=
  match l with
  | [] => True
  | x :: tl =>
      (match x with
       | PStart _ | PAllow _ => started = false
       | PChunk _ => started = true
       | _ => True
       end) /\
      (match do64 d x with
       | Some (d', ok, _) =>
           in_order d' (match x with PStart _ => true | PChunk _ => ok | PFinish => false | _ => started end) tl
       | None => True
       end)
  end.

(** No file has its own code table; [acc] is what the file has so far. *)
Fixpoint plain_session (acc : list Z) (l : list pcall) : Prop :=
  match l with
  | [] => True
  | PStart _ :: tl => plain_session [] tl
  | PChunk x :: tl => plain_head (acc ++ x) /\ plain_session (acc ++ x) tl
  | _ :: tl => plain_session acc tl
  end.

(** No dictionary and target have together more than 2^31-1 bytes. *)
Definition sizes_fit (M : Z) (l : list pcall) : Prop :=
  kDefaultMaximumTargetFileSize <= M /\ 1536 + M <= int32_max /\
  Forall (fun x => match x with PStart dict => zlen dict + M <= int32_max | PMaxFile n => n <= M | _ => True end) l.

Definition fstate (m : option Z) (pl : bool) (started : bool) (acc : list Z) (d : dec) : Prop :=
  finv m pl d /\ d_started (core_of d) = started /\ (started = true -> d_sizes (core_of d) = None -> d_unparsed (core_of d) = acc).

Definition call_fits (m : option Z) (x : pcall) : Prop :=
  match m with
  | None => True
  | Some M => match x with PStart dict => zlen dict + M <= int32_max | PMaxFile n => n <= M | _ => True end
  end.

Lemma exits_fine : forall m pl, bound_ok m -> forall l d started acc, fstate m pl started acc d -> Forall arg_ok l -> Forall (call_fits m) l ->
  (m <> None -> not_lowered started (d_max_file (core_of d)) l) ->
  (pl = true -> plain_session acc l) -> in_order d started l -> fine m pl (exits d l).
Proof.
  intros m pl BM. induction l as [|x l IH]; intros [c n] started acc (FI & STE & UN) FA FC NL PS IO; [apply fine_none|].
  inversion FA as [|? ? AX FA']; subst x0 l0. inversion FC as [|? ? CX FC']; subst x0 l0.
  pose proof (finv_max _ _ _ FI) as (T0 & Y0 & M0 & D0). cbn [core_of] in *.
  cbn [in_order] in IO. destruct IO as [IX IO]. cbn [exits].
  destruct x as [dict|data| |k|k|b]; cbn [arg_ok call_fits] in *.
  - (* StartDecoding *)
    subst started. cbn [do64 f_do start_decoding not_lowered plain_session] in *. rewrite IX in *. cbn [first].
    apply (IH _ true []); auto. split; [|split; [reflexivity|reflexivity]].
    apply finv_header; [|reflexivity|constructor]. constructor; auto.
  - (* DecodeChunk *)
    subst started. cbn [do64 f_do] in *. unfold f_decode_chunk.
    assert (pl = true -> d_sizes c = None -> plain_head (d_unparsed c ++ data)) as PH.
    { intros P S. rewrite (UN IX S). destruct (PS P). auto. }
    destruct (f_chunk_fine m BM (chunk_fuel (Dec c n) data) pl (Dec c n) data FI AX (le_n _) IX PH) as [F1 F2].
    apply fine_first; [exact F1|]. fold (decode_chunk (Dec c n) data) in F2.
    destruct (decode_chunk (Dec c n) data) as [d' ok o| |] eqn:DC; try apply fine_none.
    destruct F2 as (FI' & ST' & UN').
    pose proof (decode_chunk_fuel_max _ _ _ _ _ _ DC) as MX. destruct d' as [c' n']. destruct MX as [MX _]. cbn [core_of] in *.
    apply (IH _ ok (acc ++ data)); auto.
    + split; [exact FI'|]. split; [exact ST'|]. cbn [core_of]. intros O S. destruct (UN' O S) as [S0 ->]. rewrite (UN IX S0). reflexivity.
    + intros MN. specialize (NL MN). cbn [not_lowered] in NL. cbn [core_of]. rewrite MX.
      destruct ok; [rewrite IX in NL; exact NL|]. rewrite IX in NL. clear - NL.
      assert (forall tl cur, not_lowered true cur tl -> not_lowered false cur tl) as W.
      { induction tl as [|y tl IH]; intros cur H; [exact Logic.I|]. destruct y; cbn [not_lowered] in *; auto.
        destruct H as [_ H]. split; [discriminate|auto]. }
      apply W. exact NL.
    + intros P. destruct (PS P). auto.
  - (* FinishDecoding *)
    cbn [do64 f_do finish_decoding not_lowered plain_session] in *. apply fine_first; [apply (f_complete_fine m pl (Dec c n) FI)|].
    apply (IH _ false acc); auto. split; [|split; [reflexivity|discriminate]]. apply finv_failed; auto.
  - (* SetMaximumTargetFileSize *)
    cbn [do64 f_do set_maximum_target_file_size plain_session first] in *.
    apply (IH _ started acc); auto; [|intros MN; specialize (NL MN); cbn [not_lowered] in NL; apply NL].
    split; [|split; auto]. set (c' := set_limits c k (d_max_window c) (d_allow c) (d_planned c)).
    assert (max_ok m c') as MX. { unfold max_ok. destruct m; auto. cbn in CX |- *. lia. }
    inversion FI as [? ? S ? ? ? ?|? FB S BU|? nd ns ss an PLF FB S SO U FN DR AO PN TN|ns ss ? CO TY [PK LM] PC BU ST']; subst.
    + apply finv_off; auto.
    + apply finv_header; auto. destruct FB; constructor; auto.
    + apply (finv_nested m _ c' nd ns ss an); auto. destruct FB; constructor; auto.
    + apply (finv_core m pl ns ss); auto; [destruct CO; constructor; auto|]. split; [exact PK|]. destruct m as [M|]; auto.
      destruct LM as ([Q1 Q2 Q3 Q4] & L1 & L2). specialize (NL ltac:(discriminate)). cbn [not_lowered] in NL. rewrite ST' in NL. destruct NL as [NL _].
      specialize (NL eq_refl). split; [|split; [exact CX|exact L2]]. constructor; cbn [set_limits c' d_max_file d_planned d_total d_win d_target d_start]; auto; [|lia].
      split; [lia|]. apply (int32_below k M); [apply BM|exact CX].
  - (* SetMaximumTargetWindowSize *)
    cbn [do64 f_do set_maximum_target_window_size plain_session first not_lowered] in *.
    destruct (kTargetSizeLimit <? k); [apply (IH _ started acc); auto; split; auto|].
    apply (IH _ started acc); auto. split; [|split; auto].
    inversion FI as [? ? S ? ? ? ?|? FB S BU|? nd ns ss an PLF FB S SO U FN DR AO PN TN|ns ss ? CO TY [PK LM] PC BU ST']; subst.
    + apply finv_off; auto.
    + apply finv_header; auto. destruct FB; constructor; auto.
    + apply (finv_nested m _ _ nd ns ss an); auto. destruct FB; constructor; auto.
    + apply (finv_core m pl ns ss); auto; [destruct CO; constructor; auto|]. split; [exact PK|]. destruct m as [M|]; auto.
      destruct LM as ([Q1 Q2 Q3 Q4] & L1 & L2). split; [constructor; auto|auto].
  - (* SetAllowVcdTarget *)
    subst started. cbn [do64 f_do set_allow_vcd_target plain_session first not_lowered] in *. rewrite IX in *. cbn [first].
    apply (IH _ false acc); auto. split; [|split; [exact IX|discriminate]]. apply finv_off; auto.
Qed.

Lemma new_fstate : forall m pl, bound_ok m -> fstate m pl false [] new_decoder.
Proof.
  intros m pl BM. split; [|split; [reflexivity|discriminate]]. apply finv_off; auto; [apply default_table_ok|apply default_types_ok|].
  unfold max_ok, bound_ok in *. destruct m; auto. change (d_max_file new_core) with kDefaultMaximumTargetFileSize. unfold kDefaultMaximumTargetFileSize in *. lia.
Qed.

(** ** What a build with NDEBUG does at these places *)

Definition by_input (s : site) : Prop := tolerated None false s.

Lemma first_some : forall a b s, first a b = Some s -> a = Some s \/ (a = None /\ b = Some s).
Proof. intros [a|] b s H; cbn in H; auto. Qed.

Lemma f_unget_not : forall p0 i0 p i s, f_unget p0 i0 p i = Some s -> ~ by_input s.
Proof. intros p0 i0 p i s. unfold f_unget. destruct (_ <? _); [injection 1 as <-; auto|]. destruct p, p0; try discriminate. injection 1 as <-. auto. Qed.

Lemma f_advance_not : forall n l s, f_advance n l = Some s -> ~ by_input s.
Proof. intros n l s. unfold f_advance. destruct (_ || _); [injection 1 as <-; auto|discriminate]. Qed.

Lemma f_address_err : forall c here mode l s, f_decode_address c here mode l = Some s -> decode_address c here mode l = Err.
Proof.
  intros c here mode l s. unfold f_decode_address, decode_address. destruct (here <? 0); [reflexivity|].
  destruct l as [|b tl]; [discriminate|]. destruct (is_same_mode c mode); [discriminate|].
  destruct (parse I32 (b :: tl)) as [[e r]| | |]; try discriminate.
  destruct (mode =? 0); [discriminate|]. destruct (mode =? 1); [discriminate|]. destruct (is_near_mode c mode); [discriminate|]. reflexivity.
Qed.

Lemma f_instruction_err : forall dict w start st ty size mode s, f_decode_instruction w start st ty mode = Some s -> by_input s ->
  decode_instruction dict w start st ty size mode = XErr.
Proof.
  intros dict w start st ty size mode s H B. unfold f_decode_instruction, decode_instruction in *.
  destruct (ty =? VCD_ADD); [discriminate|]. destruct (ty =? VCD_RUN); [discriminate|]. destruct (ty =? VCD_COPY); [|reflexivity].
  unfold f_decode_copy, decode_copy in *. cbv zeta in *. apply first_some in H as [H|[_ H]].
  - rewrite (f_address_err _ _ _ _ _ H). reflexivity.
  - destruct (decode_address _ _ _ _) as [[[a r] c]| | |]; try discriminate. destruct (_ || _); [|discriminate]. injection H as <-. contradiction.
Qed.

Lemma f_body_loop_err : forall dict t w start fuel st s, f_body_loop fuel dict t w start st = Some s -> by_input s ->
  body_loop fuel dict t w start st = XErr.
Proof.
  intros dict t w start. induction fuel as [|fuel IH]; intros st s H B; cbn [f_body_loop body_loop] in *; destruct (_ <? _); try discriminate.
  apply first_some in H as [H|[_ H]].
  { unfold f_next_instruction in H. destruct (inst_loop _ _ _) as [[[[[? ?] ?] ?] ?]|]; [|discriminate].
    destruct (_ =? 0); [|discriminate]. destruct (parse _ _); try discriminate. apply f_unget_not in H. contradiction. }
  destruct (get_next_instruction _ _ _) as [ty size mode p rest| |]; try discriminate.
  destruct (_ || _); [discriminate|]. apply first_some in H as [H|[_ H]].
  { rewrite (f_instruction_err dict w start (with_inst st p rest) ty size mode s H B). reflexivity. }
  destruct (decode_instruction _ _ _ _ _ _ _); try discriminate; [eauto|]. apply f_unget_not in H. contradiction.
Qed.

Lemma f_body_err : forall c w st avail sections s total after, f_decode_body c w st avail sections = Some s -> by_input s ->
  finish_window c total w st avail after = XErr.
Proof.
  intros c w st avail sections s total after H B. unfold f_decode_body in H. apply first_some in H as [H|[_ H]].
  - apply f_body_loop_err in H; [|exact B]. unfold finish_window, decode_body. rewrite H. reflexivity.
  - exfalso. destruct (decode_body _ _ _ _ _); try discriminate; (destruct (b_il st); [apply f_advance_not in H; contradiction|]); [|discriminate].
    unfold f_set_position in H. destruct (_ <? _); [|discriminate]. injection H as <-. contradiction.
Qed.

Lemma f_window_err : forall c data s, f_decode_window c data = Some s -> by_input s -> decode_window c data = XErr.
Proof.
  intros c data s H B. unfold f_decode_window, decode_window in *. destruct (d_win c) as [w|]; [eapply f_body_err; eauto|].
  assert (match read_header c data with Ok _ => True | _ => 
     match d_sizes c with
          | Some (ns, ss) =>
              match cache_init ns ss with
              | Some _ => True
              | None =>
                  match read_header (set_file c (d_version c) (Some (0, 0)) (d_string c) (d_table c)) data with
                  | Ok _ => read_header c data = Err
                  | _ => True
                  end
              end
          | None => True end end) as R.
  { rewrite (read_header_eq c data), (read_header_eq (set_file c _ _ _ _) data).
    change (header_fields (set_file c (d_version c) (Some (0, 0)) (d_string c) (d_table c)) data) with (header_fields c data).
    destruct (header_fields c data) as [[fd l]| | |]; cbn [bind];
      try (destruct (d_sizes c) as [[ns ss]|]; auto; destruct (cache_init ns ss); exact Logic.I).
    change (fields_il (set_file c (d_version c) (Some (0, 0)) (d_string c) (d_table c)) fd) with (fields_il c fd).
    destruct (negb _ && _); [destruct (d_sizes c) as [[ns ss]|]; auto; destruct (cache_init ns ss); exact Logic.I|].
    destruct (d_sizes c) as [[ns ss]|]; [|exact Logic.I]. destruct (cache_init ns ss); [exact Logic.I|].
    destruct (d_sizes (set_file c (d_version c) (Some (0, 0)) (d_string c) (d_table c))) as [[? ?]|]; auto. destruct (cache_init _ _); auto. }
  destruct (read_header c data) as [[[[w st] after] l]| | |] eqn:RH.
  { apply first_some in H as [H|[_ H]]; [apply f_advance_not in H; contradiction|]. eapply f_body_err; eauto. }
  all: destruct (d_sizes c) as [[ns ss]|]; [|discriminate]; destruct (cache_init ns ss); [discriminate|];
    destruct (read_header (set_file c (d_version c) (Some (0, 0)) (d_string c) (d_table c)) data); try discriminate; congruence.
Qed.

Lemma f_loop_err : forall f c data s, f_window_loop f c data = Some s -> by_input s -> forall out, exists out', window_loop f c data out = (XErr, out').
Proof.
  induction f as [|f IH]; intros c data s H B out; destruct data as [|b data]; cbn [f_window_loop window_loop] in *; try discriminate.
  apply first_some in H as [H|[_ H]]; [rewrite (f_window_err _ _ _ H B); eauto|].
  destruct (decode_window c (b :: data)) as [[c' r]|[c' r]| | |]; try discriminate.
  apply first_some in H as [H|[_ H]].
  { unfold f_reached_planned in H. destruct (_ && _); [|discriminate]. injection H as <-. contradiction. }
  destruct (reached_planned c'); [discriminate|]. destruct (d_allow c'); [eapply IH; eauto|].
  destruct (flush_target c') as [c'' o]. eapply IH; eauto.
Qed.

Lemma f_chunk_err : forall f d data s, f_decode_chunk_fuel f d data = Some s -> by_input s ->
  exists d' o, decode_chunk_fuel f d data = CRet d' false o.
Proof.
  assert (forall c data s, f_window_loop (Datatypes.S (length data)) c data = Some s -> by_input s -> exists d' o, chunk_windows c data = CRet d' false o) as CW.
  { intros c data s H B. unfold chunk_windows. destruct (f_loop_err _ _ _ _ H B []) as [out ->]. unfold chunk_failed. eauto. }
  induction f as [|f IH]; intros [c0 n0] data s H B; [discriminate|]. cbn [f_decode_chunk_fuel decode_chunk_fuel] in *.
  destruct (negb (d_started c0)); [injection H as <-; contradiction|]. cbv zeta in *.
  apply first_some in H as [H|[_ H]].
  { unfold f_file_header in H. cbn [read_file_header]. destruct (d_sizes c0); [discriminate|].
    destruct (check_magic (d_unparsed c0 ++ data)); try discriminate. cbn [bind]. destruct (Z.testbit _ 0); [discriminate|].
    destruct (Z.testbit _ 1); [|apply f_advance_not in H; contradiction]. unfold parse_cache_sizes.
    destruct (parse_size (zdrop 5 _)) as [[ns l]| | |]; try discriminate. cbn [bind].
    destruct (parse_size l) as [[ss l2]| | |]; try discriminate. cbn [bind].
    destruct (255 <? ns); [cbn; unfold chunk_failed; eauto|]. destruct (255 <? ss); [cbn; unfold chunk_failed; eauto|]. apply f_advance_not in H. contradiction. }
  destruct (read_file_header (Dec c0 n0) (d_unparsed c0 ++ data)) as [[[c [nd|]] rest]| | |]; try discriminate; [|eapply CW; eauto].
  apply first_some in H as [H|[_ H]].
  { destruct (IH _ _ _ H B) as (d' & o & ->). unfold chunk_failed. eauto. }
  destruct (decode_chunk_fuel f nd rest) as [nd' [|] o| |]; try discriminate.
  destruct (zlen (d_string c ++ o) <? 1536); [discriminate|]. apply first_some in H as [H|[_ H]].
  { exfalso. destruct nd' as [nc nn]. unfold f_finish_decoding, f_is_decoding_complete in H. destruct (d_started nc); [|discriminate].
    destruct (d_sizes nc); [|discriminate]. destruct nn; [discriminate|]. destruct (d_win nc); [discriminate|].
    unfold f_reached_planned in H. destruct (_ && _); [|discriminate]. injection H as <-. contradiction. }
  destruct (finish_decoding nd') as [[nc nn] fin]. destruct (negb fin); [discriminate|].
  destruct (negb _); [injection H as <-; contradiction|].
  apply first_some in H as [H|[_ H]].
  { unfold f_finish_except in H. destruct (_ <? _); [|discriminate]. injection H as <-. contradiction. }
  destruct (d_sizes c) as [[ns ss]|]; [|discriminate]. destruct (use_code_table _ _ _) as [[t b]|]; [|discriminate]. eapply CW; eauto.
Qed.
