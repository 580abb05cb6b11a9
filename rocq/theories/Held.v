(** What a decoder keeps of the decoded target between calls. *)

From Verif Require Import Base ListFacts Spec Varint AddrCache CodeTable HeaderParser InstructionMap DecodeTable Decoder BodyFacts WindowExt WindowStep Refine Totals Abstract Chunk Sim Usable Stream Session Reuse Files.
From Coq Require Import ZifyBool ZifyNat.

(** With VCD_TARGET switched off, only the current window is kept. *)
Definition hold (mw : Z) (c : core) : Prop :=
  d_allow c = false /\ has_planned c = false /\ d_max_window c = mw /\
  match d_win c with
  | None => d_target c = [] /\ d_start c = 0
  | Some w => d_start c = 0 /\ w_len w <= mw
  end.

Lemma read_header_len : forall c data w st after l, read_header c data = Ok (w, st, after, l) -> w_len w <= d_max_window c.
Proof.
  intros c data w st after l H. unfold read_header in H.
  destruct (parse_win_indicator _ _ _ _) as [[[[[ind kind] seglen] pos] l0]| | |]; try discriminate. cbn [bind] in H.
  destruct (parse_size l0) as [[delta_len start]| | |]; try discriminate. cbn [bind] in H.
  destruct (parse_size start) as [[target_len l1]| | |]; try discriminate. cbn [bind] in H.
  destruct (would_exceed c target_len) eqn:W; [discriminate|].
  destruct (parse_delta_indicator l1) as [l2| | |]; try discriminate. cbn [bind] in H.
  destruct (parse_section_lengths _ _ _ _) as [[[[[nd ni] na] cks] l3]| | |]; try discriminate. cbn [bind] in H. cbv zeta in H.
  destruct (negb _ && _); [discriminate|]. destruct (d_sizes c) as [[ns ss]|]; [|discriminate].
  destruct (cache_init ns ss) as [ca|]; [|discriminate]. injection H as <- _ _ _. cbn [w_len]. unfold would_exceed in W. lia.
Qed.

Lemma finish_window_hold : forall c total w st avail after mw, hold mw c -> d_start c = 0 -> w_len w <= mw ->
  match finish_window c total w st avail after with
  | XOk (c', _) => d_win c' = None /\ d_allow c' = false /\ has_planned c' = false /\ d_max_window c' = mw
  | XEod (c', _) => hold mw c'
  | _ => True
  end.
Proof.
  intros c total w st avail after mw (A & P & M & _) S L. unfold finish_window.
  destruct (decode_body _ _ _ _ _) as [st'|st'| | |]; try exact Logic.I; cbv zeta.
  - cbn. auto.
  - destruct (b_il st && _); [|exact Logic.I]. unfold hold. cbn. auto.
Qed.

Lemma decode_window_hold : forall c data mw, hold mw c ->
  match decode_window c data with
  | XOk (c', _) => d_win c' = None /\ d_allow c' = false /\ has_planned c' = false /\ d_max_window c' = mw
  | XEod (c', _) => hold mw c'
  | _ => True
  end.
Proof.
  intros c data mw H. pose proof H as (A & P & M & W). unfold decode_window. destruct (d_win c) as [w|] eqn:DW.
  - apply finish_window_hold; tauto.
  - destruct (read_header c data) as [[[[w st] after] l]| | |] eqn:RH; auto. apply finish_window_hold; [exact H|tauto|].
    rewrite <- M. eapply read_header_len. exact RH.
Qed.

Lemma window_loop_hold : forall fuel c data out mw, hold mw c ->
  match fst (window_loop fuel c data out) with XOk (c', _) | XEod (c', _) => hold mw c' | _ => True end.
Proof.
  induction fuel as [|fuel IH]; intros c data out mw H; (destruct data as [|b data]; [exact H|]); cbn [window_loop].
  - exact Logic.I.
  - pose proof (decode_window_hold c (b :: data) mw H) as D.
    destruct (decode_window c (b :: data)) as [[c' rest]|[c' rest]| | |]; try exact D.
    destruct D as (W & A & P & M). unfold reached_planned. rewrite P. cbn [andb]. rewrite A. cbn [flush_target]. apply IH.
    split; [exact A|]. split; [exact P|]. split; [exact M|]. cbn. rewrite W. auto.
Qed.

Lemma chunk_windows_hold : forall c data d' o mw, hold mw c -> chunk_windows c data = CRet d' true o ->
  let '(Dec c' _) := d' in hold mw c'.
Proof.
  intros c data d' o mw H E. unfold chunk_windows in E. pose proof (window_loop_hold (S (length data)) c data [] mw H) as L.
  destruct (window_loop _ _ _ _) as [[[c' rest]|[c' rest]| | |] out]; cbn [fst] in L; try discriminate;
    unfold chunk_done, append_new_output in E; injection E as <- _; exact L.
Qed.

Lemma hold_file : forall mw c v z s t, hold mw (set_file c v z s t) <-> hold mw c.
Proof. intros. reflexivity. Qed.

Lemma decode_chunk_hold : forall f d data d' o mw, (let '(Dec c _) := d in hold mw c) ->
  decode_chunk_fuel f d data = CRet d' true o -> let '(Dec c' _) := d' in hold mw c'.
Proof.
  intros [|f] [c n] data d' o mw H E; cbn [decode_chunk_fuel] in E; [discriminate|].
  destruct (d_started c); cbn [negb] in E; [|discriminate]. cbv zeta in E.
  assert (forall c' n' rest, read_file_header (Dec c n) (d_unparsed c ++ data) = Ok (Dec c' n', rest) -> hold mw c') as RF.
  { intros c' n' rest X. unfold read_file_header in X. destruct (d_sizes c); [injection X as <- _ _; exact H|].
    destruct (check_magic _); try discriminate. cbn [bind] in X. cbv zeta in X.
    destruct (Z.testbit _ 0); [discriminate|]. destruct (Z.testbit _ 1).
    - destruct (parse_cache_sizes _) as [[[ns ss] r]| | |]; try discriminate. cbn [bind] in X. injection X as <- _ _. exact H.
    - injection X as <- _ _. exact H. }
  destruct (read_file_header (Dec c n) (d_unparsed c ++ data)) as [[[c1 [nd|]] rest]| | |]; try discriminate.
  - specialize (RF _ _ _ eq_refl). destruct (decode_chunk_fuel f nd rest) as [nd' [|] o1| |]; try discriminate. cbv zeta in E.
    destruct (zlen (d_string c1 ++ o1) <? 1536).
    + unfold chunk_done, append_new_output in E. injection E as <- _. exact RF.
    + destruct (finish_decoding nd') as [[nc nn] fin]. destruct (negb fin); [discriminate|].
      destruct (negb _); [discriminate|]. destruct (d_sizes c1) as [[ns ss]|]; [|discriminate].
      destruct (use_code_table _ _ _) as [[t b]|]; [|discriminate]. eapply chunk_windows_hold; [|exact E]. exact RF.
  - eapply chunk_windows_hold; [|exact E]. eapply RF. reflexivity.
  - unfold chunk_done, append_new_output in E. injection E as <- _. exact H.
Qed.

Lemma decode_chunks_hold : forall chunks d out d' o mw, (let '(Dec c _) := d in hold mw c) ->
  decode_chunks d chunks out = Some (d', true, o) -> let '(Dec c' _) := d' in hold mw c'.
Proof.
  induction chunks as [|x chunks IH]; intros d out d' o mw H E; cbn [decode_chunks] in E; [injection E as <- _; exact H|].
  destruct (decode_chunk d x) as [d1 [|] o1| |] eqn:DC; try discriminate. eapply IH; [|exact E].
  unfold decode_chunk in DC. eapply decode_chunk_hold; eauto.
Qed.

(** Decoding changes no settings. *)
Definition setting (c : core) : Z * bool := (d_max_window c, d_allow c).
Definition dec_setting (d : dec) : Z * bool := let '(Dec c _) := d in setting c.

Lemma decode_window_setting : forall c data, match decode_window c data with XOk (c', _) | XEod (c', _) => setting c' = setting c | _ => True end.
Proof.
  intros c data. assert (forall total w st avail after,
    match finish_window c total w st avail after with XOk (c', _) | XEod (c', _) => setting c' = setting c | _ => True end) as FW.
  { intros. unfold finish_window. destruct (decode_body _ _ _ _ _) as [st'|st'| | |]; try exact Logic.I; cbv zeta; [reflexivity|].
    destruct (b_il st && _); [reflexivity|exact Logic.I]. }
  unfold decode_window. destruct (d_win c); [apply FW|]. destruct (read_header c data) as [[[[w st] after] l]| | |]; try exact Logic.I; [apply FW|reflexivity].
Qed.
Lemma window_loop_setting : forall fuel c data out,
  match fst (window_loop fuel c data out) with XOk (c', _) | XEod (c', _) => setting c' = setting c | _ => True end.
Proof.
  induction fuel as [|fuel IH]; intros c data out; (destruct data as [|b data]; [reflexivity|]); cbn [window_loop]; [exact Logic.I|].
  pose proof (decode_window_setting c (b :: data)) as D.
  destruct (decode_window c (b :: data)) as [[c' rest]|[c' rest]| | |]; try exact D. rewrite <- D.
  destruct (reached_planned c'); [reflexivity|]. destruct (d_allow c'); [apply IH|]. cbn [flush_target].
  specialize (IH (set_target_out c' [] 0 0) rest (out ++ zdrop (d_out_pos c') (d_target c'))). exact IH.
Qed.
Lemma chunk_windows_setting : forall c data d' r o, chunk_windows c data = CRet d' r o -> dec_setting d' = setting c.
Proof.
  intros c data d' r o E. unfold chunk_windows in E. pose proof (window_loop_setting (S (length data)) c data []) as L.
  destruct (window_loop _ _ _ _) as [[[c' rest]|[c' rest]| | |] out]; cbn [fst] in L; try discriminate;
    unfold chunk_failed, chunk_done, append_new_output in E; injection E as <- _ _; cbn [dec_setting]; rewrite <- ?L; reflexivity.
Qed.
Lemma decode_chunk_setting : forall f d data d' r o, decode_chunk_fuel f d data = CRet d' r o -> dec_setting d' = dec_setting d.
Proof.
  intros [|f] [c n] data d' r o E; cbn [decode_chunk_fuel] in E; [discriminate|]. cbn [dec_setting].
  destruct (d_started c); cbn [negb] in E; [|injection E as <- _ _; reflexivity]. cbv zeta in E.
  assert (forall c' n' rest, read_file_header (Dec c n) (d_unparsed c ++ data) = Ok (Dec c' n', rest) -> setting c' = setting c) as RF.
  { intros c' n' rest X. unfold read_file_header in X. destruct (d_sizes c); [injection X as <- _ _; reflexivity|].
    destruct (check_magic _); try discriminate. cbn [bind] in X. cbv zeta in X.
    destruct (Z.testbit _ 0); [discriminate|]. destruct (Z.testbit _ 1).
    - destruct (parse_cache_sizes _) as [[[ns ss] r0]| | |]; try discriminate. cbn [bind] in X. injection X as <- _ _. reflexivity.
    - injection X as <- _ _. reflexivity. }
  destruct (read_file_header (Dec c n) (d_unparsed c ++ data)) as [[[c1 [nd|]] rest]| | |]; try discriminate.
  - specialize (RF _ _ _ eq_refl). rewrite <- RF. destruct (decode_chunk_fuel f nd rest) as [nd' [|] o1| |]; try discriminate; cbv zeta in E.
    + destruct (zlen (d_string c1 ++ o1) <? 1536).
      * unfold chunk_done, append_new_output in E. injection E as <- _ _. reflexivity.
      * destruct (finish_decoding nd') as [[nc nn] fin]. destruct (negb fin); [injection E as <- _ _; reflexivity|].
        destruct (negb _); [injection E as <- _ _; reflexivity|]. destruct (d_sizes c1) as [[ns ss]|]; [|discriminate].
        destruct (use_code_table _ _ _) as [[t b]|]; [|discriminate]. rewrite (chunk_windows_setting _ _ _ _ _ E). reflexivity.
    + injection E as <- _ _. reflexivity.
  - rewrite (chunk_windows_setting _ _ _ _ _ E). eapply RF. reflexivity.
  - unfold chunk_done, append_new_output in E. injection E as <- _ _. reflexivity.
  - injection E as <- _ _. reflexivity.
Qed.
Lemma decode_chunks_setting : forall chunks d out d' r o, decode_chunks d chunks out = Some (d', r, o) -> dec_setting d' = dec_setting d.
Proof.
  induction chunks as [|x chunks IH]; intros d out d' r o E; cbn [decode_chunks] in E; [injection E as <- _ _; reflexivity|].
  destruct (decode_chunk d x) as [d1 [|] o1| |] eqn:DC; try discriminate; unfold decode_chunk in DC; apply decode_chunk_setting in DC; rewrite <- DC.
  - eapply IH; exact E.
  - injection E as <- _ _. reflexivity.
Qed.
Lemma start_setting : forall d dict, dec_setting (start_decoding d dict) = dec_setting d.
Proof. intros [c n] dict. cbn. destruct (d_started c); reflexivity. Qed.

Lemma idle_max_window_nonneg : forall d, idle d -> 0 <= max_window d.
Proof.
  intros d H. induction H as [|[c n0] n H IH L|[c n0] n H IH L|[c n0] b H IH|d dict chunks d' ok out H IH BD F E].
  - vm_compute. discriminate.
  - exact IH.
  - cbn. destruct (_ <? _); [exact IH|cbn; lia].
  - cbn. destruct (d_started c); exact IH.
  - apply decode_chunks_setting in E. rewrite start_setting in E. destruct d as [c n], d' as [c' n']. cbn in *. unfold setting in E. injection E as E1 _. lia.
Qed.
