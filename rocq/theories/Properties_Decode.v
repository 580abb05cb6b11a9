(** Properties of the decoder with respect to the specification of VCDIFF in
    [Spec]: C04, C05, C10 (windows), C13, C15, C16 (decoder), C23, C31, C33, C40. *)

From Verif Require Import Base Spec Varint VarintFacts AddrCache CodeTable InstructionMap DecodeTable HeaderParser Adler AdlerFacts
  Decoder CopyFacts Usable Stream Session Reuse Files Chunked Unique Fields Standard NoTarget Properties_Stream.
From Coq Require Import ZifyBool ZifyNat.

(** ** C04 *)

(** Whatever the format and the pieces in which the delta arrives: if all calls
    succeed then the delta is a well-formed file and the output is the target
    it denotes.  "Well-formed" grants two tolerances of this decoder (see
    [tolerance]); without them the statement is false (below). *)
Theorem C04_decoder_sound_partial : forall d dict chunks out,
  idle_plain d -> bytes_ok dict -> Forall bytes_ok chunks ->
  decode_stream d dict chunks = Some (true, out) ->
  vcd_file (tol true) (tol true) (target_allowed d) (admits d) dict (concat chunks) out.
Proof. exact stream_sound. Qed.
Print Assumptions C04_decoder_sound_partial.

(** In one call only the last window may be shorter than declared. *)
Theorem C04_one_call_partial : forall d dict delta out,
  idle_plain d -> bytes_ok dict -> bytes_ok delta ->
  decode_stream d dict [delta] = Some (true, out) ->
  vcd_file (tol false) (tol true) (target_allowed d) (admits d) dict delta out.
Proof. exact file_sound. Qed.
Print Assumptions C04_one_call_partial.

(** In the standard format the only tolerance is the one about the second
    instruction of the last opcode of a window. *)
Theorem C04_standard_partial : forall d dict chunks out,
  idle_plain d -> bytes_ok dict -> Forall bytes_ok chunks -> ~ s_version (concat chunks) ->
  decode_stream d dict chunks = Some (true, out) ->
  vcd_file (tol false) (tol false) (target_allowed d) (admits d) dict (concat chunks) out.
Proof.
  intros d dict chunks out IP BD F NS H. apply file_standard; [|exact NS]. apply stream_sound; auto.
Qed.
Print Assumptions C04_standard_partial.

(** "The target it denotes": a file denotes at most one target, whatever
    tolerances are granted. *)
Theorem C04_denotation_unique : forall t tl allow ok t' tl' allow' ok' dict delta out out',
  vcd_file t tl allow ok dict delta out -> vcd_file t' tl' allow' ok' dict delta out' -> out = out'.
Proof. intros. eapply file_unique; eauto. Qed.
Print Assumptions C04_denotation_unique.

Lemma v1 : forall b, 0 <= b < 128 -> varint [b] b.
Proof.
  intros b B. split; [exists [], b; split; [reflexivity|]; split; [constructor|exact B]|].
  unfold varint_value. cbn [fold_left]. rewrite Z.mod_small by lia. lia.
Qed.

Lemma varint_head : forall p v r b l, varint p v -> p ++ r = b :: l -> 0 <= b < 128 -> p = [b] /\ v = b /\ r = l.
Proof. intros p v r b l V E B. apply (varint_inj p [b] v b r l V (v1 b B) E). Qed.

(** Without the first tolerance: a window of one byte, whose only opcode stands
    for ADD of size 1 and COPY of size 4; the COPY is ignored. *)
Definition dropped : list Z := [214;195;196;0;0] ++ [0;7;1;0;1;1;0;65;163].
Theorem C04_strict_refuted : exists delta out,
  decode_stream new_decoder [] [delta] = Some (true, out) /\
  ~ exists out', vcd_file strict strict true (fun _ _ => True) [] delta out'.
Proof.
  exists dropped, [65]. split; [vm_compute; reflexivity|]. intros [out V].
  inversion V as [E1 E2|h v tbl ns ss ws o HD MF WS E1 E2].
  assert (head strict strict h v tbl ns ss) as HD' by (destruct ws; exact HD). clear HD. rename HD' into HD.
  assert (head strict strict (file_header 0 0) 0 rfc_table 4 3) as HD0 by (constructor; auto; unfold byte_ok; lia).
  destruct (head_inj _ _ _ _ _ _ _ HD _ _ _ _ _ _ _ ws [0;7;1;0;1;1;0;65;163] HD0) as (-> & -> & -> & -> & -> & ->); [exact E1|].
  clear V HD HD0 E1 E2 MF. remember [0;7;1;0;1;1;0;65;163] as x. destruct WS as [|prev w T rest out W _ _]; [discriminate|].
  inversion W as [ind sb seg bd dl bt di bnd nd bni ni bna na bcks items body hist T1 BI SG VD VT BDI DI VND VNI VNA CF LA DL IM EW ET].
  subst w T1. rewrite <- !app_assoc in Heqx. cbn [app] in Heqx. injection Heqx as -> E.
  assert (sb = []) as -> by (inversion SG as [|? ? ? ? ? Z0 Z1|? ? ? ? ? Z0 Z1]; [reflexivity|vm_compute in Z0; discriminate|vm_compute in Z1; discriminate]). cbn [app] in E.
  destruct (varint_head _ _ _ _ _ VD E ltac:(lia)) as (-> & -> & E1). clear E.
  destruct (varint_head _ _ _ _ _ VT E1 ltac:(lia)) as (-> & TL & E). clear E1. injection E as -> E.
  destruct (varint_head _ _ _ _ _ VND E ltac:(lia)) as (-> & -> & E1). clear E.
  destruct (varint_head _ _ _ _ _ VNI E1 ltac:(lia)) as (-> & -> & E). clear E1.
  destruct (varint_head _ _ _ _ _ VNA E ltac:(lia)) as (-> & -> & E1). clear E.
  unfold checksum_field in CF. cbn in CF. subst bcks. cbn [app] in E1.
  destruct LA as [[[X _] _]|(_ & L1 & L2 & L3 & BB)]; [discriminate|].
  assert (items <> [] /\ concat (map item_inst items) = [163]) as [NI EI].
  { subst body. rewrite <- !app_assoc in E1. split; [intros ->; rewrite zlen_nil in L1; lia|].
    destruct (concat (map item_data items)) as [|a [|b l]]; [rewrite zlen_nil in L1; lia| |rewrite !zlen_cons in L1; pose proof (zlen_nonneg _ l); lia].
    cbn in E1. injection E1 as -> E1.
    destruct (concat (map item_inst items)) as [|b [|c l]]; [rewrite zlen_nil in L2; lia| |rewrite !zlen_cons in L2; pose proof (zlen_nonneg _ l); lia].
    cbn in E1. injection E1 as -> E1. reflexivity. }
  inversion IM as [s E2|i l s s1 s2 s3 BO LT H1 H2 H3|i s s1 D]; [congruence| |destruct rest; discriminate]. subst items s s3.
  unfold item_inst in EI. cbn [map concat app] in EI. injection EI as OP EI. cbn [file_format f_table] in *. rewrite OP in H1, H2.
  change (fst (rfc_table 163)) with (HAdd 1) in H1. change (snd (rfc_table 163)) with (HCopy 4 0) in H2.
  inversion H1 as [|k ps n d hist0 T0 LT0 SC DLN|k ps n x hist0 T0 LT0 SC|]; subst.
  inversion H2; subst. destruct SC as [(_ & _ & SC)|[SC _]]; [|lia]. cbn [app] in *. lia.
Qed.
Print Assumptions C04_strict_refuted.

(** Without the second one: an interleaved window that declares one byte more than
    there is. *)
Definition slack_delta : list Z := [214;195;196;83;0] ++ [0;8;1;0;0;3;0;2;65].
Example C04_slack_case : decode_stream new_decoder [] [slack_delta] = Some (true, [65]).
Proof. vm_compute. reflexivity. Qed.

(** A file that meets the definition, without any tolerance. *)
Lemma hello_file : forall (ok : list Z -> list Z -> Prop) allow, ok [] [104;101;108;108;111;33] ->
  vcd_file strict strict allow ok ex_dict hello_delta [104;101;108;108;111;33].
Proof.
  intros ok allow OK.
  change hello_delta with (file_header 0 0 ++
    (([1] ++ ([5] ++ [0]) ++ [9] ++ [6] ++ [0] ++ [1] ++ [2] ++ [1] ++ [] ++ [33; 21; 2; 0]) ++ [])).
  apply file_intro with (version := 0) (tbl := rfc_table) (ns := 4) (ss := 3).
  - constructor; auto. unfold byte_ok; lia.
  - right. lia.
  - apply ws_cons with (T := [104;101;108;108;111;33]); [|exact OK|constructor].
    eapply (window_intro _ _ _ _ 1 _ ex_dict _ 9 _ 0 _ 1 _ 2 _ 1 _
      [{| i_op := 21; i_first := {| p_size := []; p_data := []; p_addr := [0] |}; i_second := no_piece |};
       {| i_op := 2; i_first := {| p_size := []; p_data := [33]; p_addr := [] |}; i_second := no_piece |}]
      [33;21;2;0] [0]); try (apply v1; lia); try reflexivity; try (unfold byte_ok; lia).
    + apply seg_dict with (len := 5) (pos := 0); try reflexivity; apply v1; lia.
    + change (zlen [104;101;108;108;111;33]) with 6. apply v1. lia.
    + right. split; [intros [X _]; discriminate|]. repeat split; reflexivity.
    + change (zlen [104;101;108;108;111;33]) with 6.
      apply im_cons with (s1 := ([0], ex_dict)) (s2 := ([0], ex_dict)); [unfold byte_ok; cbn; lia|reflexivity| |constructor|].
      * cbn [file_format f_table i_op i_first]. change (fst (rfc_table 21)) with (HCopy 5 0).
        apply hm_copy with (n := 5); [reflexivity|left; repeat split; lia| |reflexivity].
        change (zlen ex_dict + zlen []) with 5. constructor; [apply v1; lia|lia].
      * apply im_cons with (s1 := ([0], [104;101;108;108;111;33])) (s2 := ([0], [104;101;108;108;111;33])); [unfold byte_ok; cbn; lia|reflexivity| |constructor|constructor].
        cbn [file_format f_table i_op i_first]. change (fst (rfc_table 2)) with (HAdd 1).
        change ([104;101;108;108;111;33]) with (ex_dict ++ [33]). apply hm_add with (n := 1); [reflexivity|left; repeat split; lia|reflexivity].
Qed.

Example C04_case : idle_plain new_decoder /\ bytes_ok ex_dict /\ Forall bytes_ok [hello_delta] /\
  decode_stream new_decoder ex_dict [hello_delta] = Some (true, [104;101;108;108;111;33]).
Proof.
  destruct hello_checks as (_ & B1 & B2 & N1 & _). split; [constructor|]. split; [exact B1|]. split; [constructor; [exact B2|constructor]|exact hello_decodes].
Qed.

(** ** C05 *)

(** A file that is well-formed without the tolerance about interleaved windows (so
    in particular one that needs no tolerance at all), whose windows respect
    the decoder's limits, is accepted in any pieces and yields the target it
    denotes.  The default code table is not needed.  [sizes_fit]: the
    implementation's 31-bit integers; [bad_cache]: finding about cache
    sizes 254 and 0. *)
Theorem C05_decoder_complete : forall t d dict chunks out,
  idle_plain d -> bytes_ok dict -> Forall bytes_ok chunks -> ~ bad_cache (concat chunks) ->
  t_slack t = false ->
  vcd_file t t (target_allowed d) (within (max_window d) (max_file d)) dict (concat chunks) out ->
  zlen (concat chunks) <= int32_max -> zlen dict <= int32_max -> zlen out <= int32_max -> zlen dict + zlen out <= int32_max + 1 ->
  decode_stream d dict chunks = Some (true, out).
Proof. intros. eapply file_complete; eauto. unfold sizes_fit. auto. Qed.
Print Assumptions C05_decoder_complete.

Example C05_case : idle_plain new_decoder /\ ~ bad_cache hello_delta /\
  vcd_file strict strict (target_allowed new_decoder) (within (max_window new_decoder) (max_file new_decoder)) ex_dict hello_delta [104;101;108;108;111;33] /\
  decode_stream new_decoder ex_dict [hello_delta] = Some (true, [104;101;108;108;111;33]).
Proof.
  split; [constructor|]. split; [apply hello_checks|]. split; [|exact hello_decodes].
  apply hello_file. split; vm_compute; discriminate.
Qed.

(** ** C10, second half *)

(** When the stream is accepted, the data is a sequence of windows none of which is
    longer than the limit for windows and which together stay below the limit for files. *)
Theorem C10_window_limit : forall d dict chunks out,
  idle_plain d -> bytes_ok dict -> Forall bytes_ok chunks ->
  decode_stream d dict chunks = Some (true, out) ->
  vcd_file (tol true) (tol true) (target_allowed d) (within (max_window d) (max_file d)) dict (concat chunks) out.
Proof. exact stream_sound. Qed.
Print Assumptions C10_window_limit.

(** A window that follows a well-formed beginning is not accepted when it declares
    more than the limit. *)
Theorem C10_long_window_rejected : forall d dict chunks t tl allow ok h v tbl ns ss ws prev wh H rest out,
  idle_plain d -> bytes_ok dict -> Forall bytes_ok chunks ->
  concat chunks = h ++ ws ++ wh ++ rest ->
  head t tl h v tbl ns ss -> windows t tl (file_format v tbl ns ss allow) dict ok [] ws prev ->
  declares (v =? 83) wh H ->
  h_target_len H > max_window d \/ zlen prev + h_target_len H > max_file d ->
  decode_stream d dict chunks <> Some (true, out).
Proof.
  intros d dict chunks t tl allow ok h v tbl ns ss ws prev wh H rest out IP BD F E HD WS D BIG DS.
  pose proof (stream_sound _ _ _ _ IP BD F DS) as V.
  assert (wh ++ rest <> []) as NE by (destruct D; discriminate).
  destruct (window_at _ _ _ _ _ _ _ _ _ _ _ _ _ _ _ _ _ _ _ _ _ V E NE HD WS) as (t0 & wb & T & r & E1 & W & [K1 K2] & _).
  destruct (window_declares _ _ _ _ _ _ _ _ _ _ W (eq_sym E1) D) as (TL & _). lia.
Qed.
Print Assumptions C10_long_window_rejected.

Example C10_window_case :
  declares false ([1] ++ ([5] ++ [0]) ++ [9] ++ [6] ++ [0] ++ [1] ++ [2] ++ [1] ++ [])
    {| h_ind := 1; h_delta_len := 9; h_counted := 5; h_target_len := 6; h_data_len := 1; h_inst_len := 2; h_addr_len := 1; h_checksum := None |} /\
  decode_stream (fst (set_maximum_target_window_size new_decoder 5)) ex_dict [hello_delta] = Some (false, []).
Proof.
  split; [|vm_compute; reflexivity].
  eapply (declares_intro false 1 ([5] ++ [0]) [9] 9 [6] 6 0 [1] 1 [2] 2 [1] 1 [] None); try (apply v1; lia).
  - cbn. exists [5], 5, [0], 0. split; [reflexivity|]. split; apply v1; lia.
  - cbn. auto.
Qed.

(** ** C13 *)

(** A well-formed file h ++ ws, cut after the bytes in [chunks]: no call fails, and
    FinishDecoding succeeds exactly when the cut is at the beginning of the file,
    after its header or after a window; then the output is the target of the
    windows so far. *)
Theorem C13_truncation : forall t d dict h v tbl ns ss ws out chunks q,
  idle_plain d -> bytes_ok dict -> t_slack t = false ->
  head t t h v tbl ns ss -> modes_fit ns ss ws ->
  let f := file_format v tbl ns ss (target_allowed d) in
  windows t t f dict (admits d) [] ws out ->
  bytes_ok (h ++ ws) -> ~ bad_cache (h ++ ws) -> sizes_fit dict (h ++ ws) out ->
  Forall bytes_ok chunks -> h ++ ws = concat chunks ++ q ->
  exists d' o, decode_chunks (start_decoding d dict) chunks [] = Some (d', true, o) /\
    (snd (finish_decoding d') = true <->
     concat chunks = [] \/
     exists ws1, concat chunks = h ++ ws1 /\ windows t t f dict (admits d) [] ws1 o /\
                 windows t t f dict (admits d) o q out).
Proof. exact file_cut. Qed.
Print Assumptions C13_truncation.

Example C13_case :
  decode_stream new_decoder ex_dict [ztake 17 hello_delta] = Some (false, []) /\
  decode_stream new_decoder ex_dict [ztake 5 hello_delta] = Some (true, []) /\
  decode_stream new_decoder ex_dict [ztake 3 hello_delta] = Some (false, []) /\
  decode_stream new_decoder ex_dict [hello_delta ++ zdrop 5 hello_delta] = Some (true, [104;101;108;108;111;33;104;101;108;108;111;33]) /\
  decode_stream new_decoder ex_dict [hello_delta; ztake 4 (zdrop 5 hello_delta)] = Some (false, [104;101;108;108;111;33]).
Proof. repeat split; vm_compute; reflexivity. Qed.

(** ** C15 *)

(** With SetAllowVcdTarget(false), a delta in which a window with the VCD_TARGET flag
    (bit 1 of its first byte) follows a well-formed beginning is not accepted. *)
Theorem C15_vcd_target_rejected : forall d dict chunks t tl allow ok h v tbl ns ss ws prev ind rest out,
  idle_plain d -> bytes_ok dict -> Forall bytes_ok chunks ->
  target_allowed d = false ->
  concat chunks = h ++ ws ++ ind :: rest ->
  head t tl h v tbl ns ss -> windows t tl (file_format v tbl ns ss allow) dict ok [] ws prev ->
  Z.testbit ind 1 = true ->
  decode_stream d dict chunks <> Some (true, out).
Proof.
  intros d dict chunks t tl allow ok h v tbl ns ss ws prev ind rest out IP BD F TA E HD WS FL DS.
  pose proof (stream_sound _ _ _ _ IP BD F DS) as V.
  destruct (window_at _ _ _ _ _ _ _ _ _ _ _ _ _ _ _ _ _ _ _ _ _ V E ltac:(discriminate) HD WS) as (t0 & wb & T & r & E1 & W & _).
  inversion W as [ind' sb seg bd dl bt di bnd nd bni ni bna na bcks items body hist T1 BI SG VD VT BDI DI VND VNI VNA CF LA DL IM EW ET].
  subst wb. cbn in E1. injection E1 as <- _.
  inversion SG; subst; try congruence. cbn [file_format f_target] in *. congruence.
Qed.
Print Assumptions C15_vcd_target_rejected.

(** Two windows, the second copies from the target. *)
Definition target_window : list Z := [214;195;196;0;0] ++ [0;8;2;0;2;1;0;65;66;3] ++ [2;2;0;7;4;0;0;1;1;20;0].
Example C15_case :
  decode_stream new_decoder [] [target_window] = Some (true, [65;66;65;66;65;66]) /\
  decode_stream (set_allow_vcd_target new_decoder false) [] [target_window] = Some (false, [65;66]).
Proof. split; vm_compute; reflexivity. Qed.

(** Allowing the flag never turns an accepted delta into another result. *)
Theorem C15_allowing_more : forall d dict chunks out,
  idle_plain d -> bytes_ok dict -> Forall bytes_ok chunks ->
  decode_stream (set_allow_vcd_target d false) dict chunks = Some (true, out) ->
  decode_stream (set_allow_vcd_target d true) dict chunks = Some (true, out).
Proof. exact allowing_more. Qed.
Print Assumptions C15_allowing_more.

(** The delta contains, after a well-formed beginning, a window with the flag. *)
Definition has_target_window (dict X : list Z) : Prop :=
  exists h v tbl ns ss ws prev ind rest, X = h ++ ws ++ ind :: rest /\ head (tol true) (tol true) h v tbl ns ss /\
    windows (tol true) (tol true) (file_format v tbl ns ss true) dict (fun _ _ => True) [] ws prev /\ Z.testbit ind 1 = true.

(** Without such a window the setting makes no difference for the success of a decoding, nor for
    the output of an accepted delta.  What has been output before a failure may
    be different (below). *)
Theorem C15_same_results_partial : forall d dict chunks out,
  idle_plain d -> bytes_ok dict -> Forall bytes_ok chunks -> ~ has_target_window dict (concat chunks) ->
  decode_stream (set_allow_vcd_target d true) dict chunks = Some (true, out) <->
  decode_stream (set_allow_vcd_target d false) dict chunks = Some (true, out).
Proof.
  intros d dict chunks out IP BD F NT. split; [|apply allowing_more; auto].
  intros E. apply same_without_target; auto. intros h v tbl ns ss ws prev ind rest EX HD WS.
  destruct (Z.testbit ind 1) eqn:T; [|reflexivity]. destruct NT. exists h, v, tbl, ns, ss, ws, prev, ind, rest. auto.
Qed.
Print Assumptions C15_same_results_partial.

(** A window that adds "@@@@"; in no byte after the file header bit 1 is set. *)
Definition no_flags : list Z := [214;195;196;0;0] ++ [0;12;128;128;4;0;4;1;0;64;64;64;64;5].
Lemma no_flags_none : forall dict X, Forall (fun b => Z.testbit b 1 = false) (skipn 5 X) -> ~ has_target_window dict X.
Proof.
  intros dict X F (h & v & tbl & ns & ss & ws & prev & ind & rest & -> & HD & _ & T).
  assert (exists a b c d e h', h = a :: b :: c :: d :: e :: h') as (a & b & c & d & e & h' & ->) by (inversion HD; subst; cbn [file_header app]; do 6 eexists; reflexivity).
  cbn [app skipn] in F. apply Forall_app in F as [_ F]. apply Forall_app in F as [_ F]. inversion F. congruence.
Qed.
Example C15_same_case : bytes_ok no_flags /\ ~ has_target_window [] no_flags /\
  decode_stream (set_allow_vcd_target new_decoder false) [] [no_flags] = Some (true, [64;64;64;64]).
Proof.
  split; [apply bytes_okb_ok; reflexivity|]. split; [|vm_compute; reflexivity].
  apply no_flags_none. cbn. repeat constructor.
Qed.

Theorem C15_failed_output_refuted : exists delta o1 o2, bytes_ok delta /\ ~ has_target_window [] delta /\
  decode_stream (set_allow_vcd_target new_decoder true) [] [delta] = Some (false, o1) /\
  decode_stream (set_allow_vcd_target new_decoder false) [] [delta] = Some (false, o2) /\ o1 <> o2.
Proof.
  exists (no_flags ++ [0;12;4;1]), [], [64;64;64;64]. split; [apply bytes_okb_ok; reflexivity|].
  split; [apply no_flags_none; cbn; repeat constructor|]. split; [vm_compute; reflexivity|]. split; [vm_compute; reflexivity|discriminate].
Qed.
Print Assumptions C15_failed_output_refuted.

(** ** C16, decoder *)

(** A window with a checksum field is accepted only when the stored value is the
    checksum of the data decoded from it. *)
Theorem C16_checksum_verified : forall d dict chunks t tl allow ok h tbl ns ss ws prev wh H c rest out,
  idle_plain d -> bytes_ok dict -> Forall bytes_ok chunks ->
  concat chunks = h ++ ws ++ wh ++ rest ->
  head t tl h 83 tbl ns ss -> windows t tl (file_format 83 tbl ns ss allow) dict ok [] ws prev ->
  declares true wh H -> h_checksum H = Some c ->
  decode_stream d dict chunks = Some (true, out) ->
  exists T more, out = prev ++ T ++ more /\ zlen T = h_target_len H /\ c = adler_sum 0 T.
Proof.
  intros d dict chunks t tl allow ok h tbl ns ss ws prev wh H c rest out IP BD F E HD WS D CK DS.
  pose proof (stream_sound _ _ _ _ IP BD F DS) as V.
  assert (wh ++ rest <> []) as NE by (destruct D; discriminate).
  destruct (window_at _ _ _ _ _ _ _ _ _ _ _ _ _ _ _ _ _ _ _ _ _ V E NE HD WS) as (t0 & wb & T & r & E1 & W & _ & (more & EO) & _).
  destruct (window_declares _ _ _ _ _ _ _ _ _ _ W (eq_sym E1) D) as (TL & _ & C & _).
  exists T, more. auto.
Qed.
Print Assumptions C16_checksum_verified.

(** ADD "AB" with checksum 0x00c40083 = (65+131) * 65536 + 131. *)
Definition checked (c1 c2 c3 c4 : Z) : list Z := [214;195;196;83;0] ++ [4;12;2;0;0;3;0;c1;c2;c3;c4;3;65;66].
Example C16_case : adler_sum 0 [65;66] = 12845187 /\ varint [134;144;129;3] 12845187 /\
  decode_stream new_decoder [] [checked 134 144 129 3] = Some (true, [65;66]) /\
  decode_stream new_decoder [] [checked 134 144 129 2] = Some (false, []).
Proof.
  split; [reflexivity|]. split; [|split; vm_compute; reflexivity]. split; [|reflexivity].
  exists [134;144;129], 3. split; [reflexivity|]. split; [repeat constructor; lia|lia].
Qed.

(** ** C33 *)

(** An accepted window of a standard format file: the declared length of the delta
    encoding is what follows that field; the three sections have the declared
    lengths; the instructions use up all three of them; and they produce exactly
    the declared number of bytes. *)
Theorem C33_lengths_consistent : forall d dict chunks t tl allow ok h tbl ns ss ws prev wh H rest out,
  idle_plain d -> bytes_ok dict -> Forall bytes_ok chunks ->
  concat chunks = h ++ ws ++ wh ++ rest ->
  head t tl h 0 tbl ns ss -> windows t tl (file_format 0 tbl ns ss allow) dict ok [] ws prev ->
  declares false wh H ->
  decode_stream d dict chunks = Some (true, out) ->
  h_delta_len H = h_counted H + h_data_len H + h_inst_len H + h_addr_len H /\
  exists data inst addr more items seg hist T out_more,
    rest = data ++ inst ++ addr ++ more /\
    zlen data = h_data_len H /\ zlen inst = h_inst_len H /\ zlen addr = h_addr_len H /\
    data = concat (map item_data items) /\ inst = concat (map item_inst items) /\ addr = concat (map item_addr items) /\
    items_mean true tbl ns ss (h_target_len H) seg items ([], []) (hist, T) /\
    zlen T = h_target_len H /\ out = prev ++ T ++ out_more.
Proof.
  intros d dict chunks t tl allow ok h tbl ns ss ws prev wh H rest out IP BD F E HD WS D DS.
  pose proof (stream_sound _ _ _ _ IP BD F DS) as V.
  assert (wh ++ rest <> []) as NE by (destruct D; discriminate).
  destruct (window_at _ _ _ _ _ _ _ _ _ _ _ _ _ _ _ _ _ _ _ _ _ V E NE HD WS) as (t0 & wb & T & r & E1 & W & _ & (more & EO) & _).
  destruct (window_declares _ _ _ _ _ _ _ _ _ _ W (eq_sym E1) D) as (TL & DL & _ & _ & seg & items & hist & body & EB & LA & IM).
  split; [exact DL|]. destruct LA as [[[X _] _]|(_ & L1 & L2 & L3 & BB)]; [discriminate|].
  exists (concat (map item_data items)), (concat (map item_inst items)), (concat (map item_addr items)), r, items, seg, hist, T, more.
  split; [rewrite EB, BB, <- !app_assoc; reflexivity|]. do 6 (split; [solve [auto]|]). rewrite <- TL.
  destruct (t_drop t0) eqn:DR.
  - split; [exact IM|]. auto.
  - split; [|auto]. clear - IM. cbn [file_format f_table f_near f_same] in IM. induction IM.
    + constructor.
    + eapply im_cons; eauto.
    + eapply im_drop; eauto.
Qed.
Print Assumptions C33_lengths_consistent.

(** Wrong lengths in an otherwise correct window: total, data section, target size. *)
Example C33_case :
  decode_stream new_decoder ex_dict [[214;195;196;0;0; 1;5;0; 10;6;0;1;2;1; 33; 21;2; 0]] = Some (false, []) /\
  decode_stream new_decoder ex_dict [[214;195;196;0;0; 1;5;0; 10;6;0;2;2;1; 33;33; 21;2; 0]] = Some (false, []) /\
  decode_stream new_decoder ex_dict [[214;195;196;0;0; 1;5;0; 9;7;0;1;2;1; 33; 21;2; 0]] = Some (false, []) /\
  decode_stream new_decoder ex_dict [[214;195;196;0;0; 1;5;0; 9;5;0;1;2;1; 33; 21;2; 0]] = Some (false, []).
Proof. repeat split; vm_compute; reflexivity. Qed.

(** ** C23 *)

(** The source segment of a window, as a string. *)
Definition is_segment (dict prev : list Z) (w : window) (seg : list Z) : Prop :=
  match w_kind w with
  | SegNone => w_seglen w = 0 /\ seg = []
  | SegDict => slice dict (w_pos w) (w_seglen w) = Some seg
  | SegTarget => slice prev (w_pos w) (w_seglen w) = Some seg
  end.

(** The block copies that DecodeCopy performs on the decoded target prev ++ T append what
    copying one byte at a time from segment and target window produces. *)
Theorem C23_copy_is_bytewise : forall dict prev w seg T address size,
  is_segment dict prev w seg -> 0 <= address < zlen seg + zlen T -> 0 <= size -> zlen T + size <= w_len w ->
  exists T', copy_bytes dict w (zlen prev) (prev ++ T) address size = XOk (prev ++ T') /\
    copy_bytewise (Z.to_nat size) seg T address = Some T'.
Proof.
  intros dict prev w seg T address size SG A S L.
  assert (seg_ok dict w prev seg /\ (w_kind w = SegNone -> w_seglen w = 0)) as [SO SN].
  { unfold is_segment in SG. unfold seg_ok. destruct (w_kind w).
    - destruct SG as [SG ->]. rewrite zlen_nil. auto.
    - split; [|discriminate]. split; [|exact SG]. eapply slice_inv; eauto.
    - split; [|discriminate]. split; [|exact SG]. eapply slice_inv; eauto. }
  destruct SO as [SL SO]. destruct (copy_bytes_ok dict w (zlen prev) prev seg T address size (conj SL SO) SN eq_refl ltac:(lia) S L) as (bs & _ & E1 & E2).
  exists (T ++ bs). auto.
Qed.
Print Assumptions C23_copy_is_bytewise.

(** A COPY of 7 from address 3 of a segment of 4 bytes followed by 2 target bytes. *)
Example C23_case : copy_bytewise 7 [1;2;3;4] [5;6] 3 = Some [5;6;4;5;6;4;5;6;4].
Proof. reflexivity. Qed.

Example C23_model_case : forall ca,
  let w := {| w_kind := SegDict; w_seglen := 4; w_pos := 1; w_len := 9; w_has_cks := false; w_cks := 0;
              w_expected := 0; w_pending := None; w_cache := ca |} in
  is_segment [9;1;2;3;4;9] [7] w [1;2;3;4] /\
  copy_bytes [9;1;2;3;4;9] w 1 [7;5;6] 3 7 = XOk [7;5;6;4;5;6;4;5;6;4].
Proof. intros ca. split; vm_compute; reflexivity. Qed.

(** ** C31 *)

(** Validate accepts a code table string exactly when it is usable. *)
Theorem C31_validate_exact : forall s m, bytes_ok s -> zlen s = 1536 -> 0 <= m <= 255 ->
  exists b, validate (table_of_bytes s) m = Some b /\ (b = true <-> usable_table m s).
Proof. exact validate_usable. Qed.
Print Assumptions C31_validate_exact.

(** The decoder switches to a usable table only; otherwise the table in use stays. *)
Theorem C31_unusable_table_not_used : forall cur s m, bytes_ok s -> zlen s = 1536 -> 0 <= m <= 255 ->
  exists t b, use_code_table cur (table_of_bytes s) m = Some (t, b) /\
    ((b = true /\ usable_table m s /\ t = table_of_bytes s) \/ (b = false /\ ~ usable_table m s /\ t = cur)).
Proof. exact use_code_table_usable. Qed.
Print Assumptions C31_unusable_table_not_used.

(** What the bytes of a table mean for the decoder is what RFC section 7 says. *)
Theorem C31_table_string_meaning : forall s op, byte_ok op -> BodyFacts.entry (table_of_bytes s) op = table_of_string s op.
Proof. exact entry_of_bytes. Qed.
Print Assumptions C31_table_string_meaning.

Example C31_case : let s := table_bytes default_table in
  zlen s = 1536 /\ validate (table_of_bytes s) 8 = Some true /\
  validate (table_of_bytes (4 :: zdrop 1 s)) 8 = Some false /\ validate (table_of_bytes s) 9 = Some false.
Proof. cbv zeta. split; [reflexivity|]. repeat split; vm_compute; reflexivity. Qed.

(** ** C40 *)

(** The model computes with 32-bit sums that wrap; the result is nevertheless
    that of the mathematical sums, for every buffer, started from any value of
    the first sum (1 in RFC 1950, 0 in this project). *)
Theorem C40_adler_exact : forall a0 l, bytes_ok l -> 0 <= a0 < 65521 -> adler32 a0 l = Some (adler_sum a0 l).
Proof.
  intros a0 l B A. pose proof (adler32_ok a0 0 l B A ltac:(unfold BASE; lia)) as E.
  replace (0 * 65536 + a0) with a0 in E by lia. rewrite E. unfold adler_sum, sum_a, sum_s, BASE. do 4 f_equal.
Qed.
Print Assumptions C40_adler_exact.

Theorem C40_adler_pieces : forall a0 x y, bytes_ok x -> bytes_ok y -> 0 <= a0 < 65521 ->
  adler32 (adler_sum a0 x) y = Some (adler_sum a0 (x ++ y)).
Proof.
  intros a0 x y BX BY A.
  assert (forall l, adler_sum a0 l = sum_s a0 0 l * 65536 + sum_a a0 l) as S.
  { intros l. unfold adler_sum, sum_a, sum_s, BASE. do 3 f_equal. }
  rewrite !S. rewrite (adler32_ok _ _ y BY (sum_a_range a0 x) (sum_s_range a0 0 x)).
  rewrite sum_a_app, sum_s_app. reflexivity.
Qed.
Print Assumptions C40_adler_pieces.

Theorem C40_checksum_exact : forall l, bytes_ok l -> compute_adler32 l = adler_sum 0 l.
Proof. exact compute_adler32_ok. Qed.
Print Assumptions C40_checksum_exact.

Example C40_case : adler32 1 [87;105;107;105;112;101;100;105;97] = Some 300286872 /\
  adler32 1 (repeat 255 (Z.to_nat 6000)) = Some (adler_sum 1 (repeat 255 (Z.to_nat 6000))).
Proof.
  split; [vm_compute; reflexivity|]. apply C40_adler_exact; [|lia].
  apply Forall_forall. intros b I. apply repeat_spec in I. subst. split; lia.
Qed.
