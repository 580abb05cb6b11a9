(** C47: what a decoder keeps in memory between calls. *)

From Verif Require Import Base ListFacts Spec Varint VarintFacts CodeTable HeaderParser InstructionMap DecodeTable Decoder BodyFacts WindowExt WindowStep Refine Totals Abstract Chunk Sim Usable Stream Session Reuse Files Held
  Properties_Varint Properties_Stream.
From Coq Require Import ZifyBool ZifyNat.

(** decoded_target_, unparsed_bytes_; is a window waiting for more data? *)
Definition held (d : dec) : list Z := let '(Dec c _) := d in d_target c.
Definition unparsed (d : dec) : list Z := let '(Dec c _) := d in d_unparsed c.
Definition in_window (d : dec) : Prop := let '(Dec c _) := d in d_win c <> None.

(** After any calls that succeeded, the decoder has kept the end of the output
    [out]: all of it if VCD_TARGET is allowed; otherwise nothing except the part of
    a window that is not complete yet.  So it keeps at most the maximum size of a
    file, or of a window. *)
Theorem C47_target_held_partial : forall d dict chunks d' out,
  idle d -> bytes_ok dict -> Forall bytes_ok chunks ->
  decode_chunks (start_decoding d dict) chunks [] = Some (d', true, out) ->
  exists before, out = before ++ held d' /\
    (target_allowed d = true -> before = [] /\ zlen (held d') <= max_file d) /\
    (target_allowed d = false -> (~ in_window d' -> held d' = []) /\ zlen (held d') <= max_window d).
Proof.
  intros d dict chunks d' out ID BD F H. pose proof (decode_limit d dict chunks d' true out ID BD F H) as ML.
  destruct (stream_start d dict chunks (idle_ready d ID) BD F) as (R & A & M). rewrite H in M. destruct M as (a & -> & DR & OK & UP).
  pose proof (idle_start d dict ID) as IS. destruct d as [c n]. rewrite IS in H. cbn [target_allowed max_file max_window] in *.
  assert (0 <= d_max_window c) as MW by (apply (idle_max_window_nonneg _ ID)).
  assert (d_allow c = false -> let '(Dec c' _) := d' in hold (d_max_window c) c') as HO.
  { intros AL. eapply decode_chunks_hold; [|exact H]. unfold hold. cbn. auto. }
  assert (target_allowed d' = d_allow c) as AL.
  { apply decode_chunks_setting in H. destruct d' as [c' n']. cbn in *. unfold setting in H. cbn in H. congruence. }
  inversion DR as [c0 ST S T OP E1 E2 E3|c0 nd an ST S T OP U DN E1 E2 E3|ns ss pre c0 CO SH ST OP E1 E2 E3]; subst; cbn [held in_window target_allowed] in *.
  - exists []. rewrite T. split; [reflexivity|]. rewrite zlen_nil in *. auto.
  - exists []. rewrite T. split; [reflexivity|]. rewrite zlen_nil in *. auto.
  - exists pre. split; [reflexivity|]. rewrite zlen_app in ML. pose proof (zlen_nonneg _ pre). split.
    + intros X. rewrite X in AL. destruct SH as [-> | [SH _]]; [|congruence]. split; [reflexivity|lia].
    + intros X. specialize (HO X) as (_ & _ & _ & W). destruct (d_win c0) as [w|] eqn:DW.
      * destruct W as [S L]. split; [intros N; destruct N; discriminate|]. pose proof (co_win _ _ _ CO) as IL. rewrite DW in IL.
        destruct IL as (prev & seg & hist & T & E & _ & _ & _ & BI). rewrite S in E. symmetry in E. apply zlen_0_nil in E. subst prev.
        pose proof (bi_target _ _ _ _ _ _ _ _ BI) as BT. cbn [il_state b_target app] in BT. rewrite BT.
        pose proof (bi_len _ _ _ _ _ _ _ _ BI). lia.
      * destruct W as [-> S]. split; [reflexivity|]. rewrite zlen_nil. lia.
Qed.
Print Assumptions C47_target_held_partial.

(** Missing: a bound on the input that is kept.  There is none, whatever the
    limits: a number in a window header can be padded with bytes 128, and all of
    them are kept until the header is complete. *)
Definition small_decoder : dec := fst (set_maximum_target_window_size (fst (set_maximum_target_file_size new_decoder 1)) 1).
Theorem C47_input_held_refuted : forall n : nat, exists dict delta d',
  bytes_ok dict /\ bytes_ok delta /\ decode_chunks (start_decoding small_decoder dict) [delta] [] = Some (d', true, []) /\
  (n <= length (unparsed d'))%nat.
Proof.
  intros n. set (pad := repeat 128 n).
  assert (bytes_ok pad) as BP by (apply Forall_forall; intros x X; apply repeat_spec in X; subst x; unfold byte_ok; lia).
  assert (parse I32 pad = Eod) as PE.
  { apply (C18_varint_parse_exact I32 2147483647 5); [left; auto|exact BP|]. split.
    - intros p rest E (q & b & -> & _ & B). assert (In b pad) as X by (rewrite E; apply in_or_app; left; apply in_or_app; right; left; reflexivity).
      apply repeat_spec in X. subst b. lia.
    - exists [0], 0. split; [apply bytes_okb_ok; reflexivity|]. split; [|lia]. split.
      + exists pad, 0. split; [reflexivity|]. split; [|lia]. apply Forall_forall. intros x X. apply repeat_spec in X. subst x. lia.
      + unfold varint_value, pad. clear. rewrite fold_left_app. cbn [fold_left]. replace (fold_left _ (repeat 128 n) 0) with 0; [reflexivity|].
        induction n as [|n IH]; [reflexivity|]. cbn [repeat fold_left]. exact IH. }
  set (u := 1 :: pad).
  assert (decode_chunk (start_decoding small_decoder [7]) ([214;195;196;0;0] ++ u) =
    CRet (Dec (set_unparsed (set_file (start_core (let '(Dec c _) := small_decoder in c) [7]) 0 (Some (4, 3)) [] default_table) u) None) true []) as D.
  { set (c0 := start_core (let '(Dec c _) := small_decoder in c) [7]).
    change (start_decoding small_decoder [7]) with (Dec c0 None). unfold decode_chunk. cbn [chunk_fuel decode_chunk_fuel].
    change (d_started c0) with true. cbn [negb]. change (d_unparsed c0) with (@nil Z). cbn [app].
    assert (read_file_header (Dec c0 None) (214 :: 195 :: 196 :: 0 :: 0 :: u) = Ok (Dec (set_file c0 0 (Some (4, 3)) [] default_table) None, u)) as RF.
    { unfold read_file_header. change (d_sizes c0) with (@None (Z * Z)). cbv iota. unfold check_magic. rewrite !zlen_cons.
      pose proof (zlen_nonneg _ u). cbn [nth]. destruct (Z.ltb_spec (1 + (1 + (1 + (1 + (1 + zlen u))))) 5); [lia|]. 
      rewrite !andb_false_r. cbn. change (214 :: 195 :: 196 :: 0 :: 0 :: u) with ([214;195;196;0;0] ++ u). rewrite zdrop_app_eq by reflexivity. reflexivity. }
    rewrite RF. unfold chunk_windows. cbn [length window_loop]. change (1 :: pad) with u.
    assert (decode_window (set_file c0 0 (Some (4, 3)) [] default_table) u = XEod (set_file c0 0 (Some (4, 3)) [] default_table, u)) as DW.
    { unfold decode_window. change (d_win _) with (@None Decoder.window). cbv iota. unfold read_header, parse_win_indicator, u.
      cbn [parse_byte bind]. change (Z.testbit 1 0) with true. change (Z.testbit 1 1) with false. cbv iota.
      unfold parse_source_segment, parse_size. rewrite PE. reflexivity. }
    unfold u at 1. rewrite DW. reflexivity. }
  exists [7], ([214;195;196;0;0] ++ u). eexists. split; [apply bytes_okb_ok; reflexivity|]. split.
  { apply Forall_app. split; [apply bytes_okb_ok; reflexivity|constructor; [unfold byte_ok; lia|exact BP]]. }
  cbn [decode_chunks]. rewrite D. split; [reflexivity|]. cbn. unfold pad. rewrite repeat_length. lia.
Qed.
Print Assumptions C47_input_held_refuted.

(** A delta of two windows, the last byte of the second missing: the first
    window, 5 6 7, is not kept if VCD_TARGET is off; the second begins with a copy
    of the dictionary. *)
Definition ten : list Z := [0;1;2;3;4;5;6;7;8;9].
Definition two_windows : list Z :=
  [214;195;196;83;0] ++ [0;9;3;0;0;4;0;4;5;6;7] ++ [1;10;0;10;12;0;0;5;0;26;0;3;7].
Example C47_case :
  match decode_chunks (start_decoding (set_allow_vcd_target new_decoder false) ten) [two_windows] [] with
  | Some (d', true, out) => out = [5;6;7] ++ ten /\ held d' = ten /\ in_window d'
  | _ => False
  end /\
  match decode_chunks (start_decoding new_decoder ten) [two_windows] [] with
  | Some (d', true, out) => out = [5;6;7] ++ ten /\ held d' = [5;6;7] ++ ten /\ in_window d'
  | _ => False
  end.
Proof. vm_compute. split; (split; [reflexivity|split; [reflexivity|discriminate]]). Qed.
