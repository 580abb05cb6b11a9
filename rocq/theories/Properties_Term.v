(** C37: every call comes to an end, and a bound on the work. *)

From Verif Require Import Base ListFacts Spec SpecEncode Varint CodeTable HeaderParser Adler Decoder Session Engine EngineFacts BlockHash JsonWriter
  EncodeTable Encoder EncoderFacts EncoderCalls Properties_Stream Properties_Decode Properties_Encode Count.
From Coq Require Import ZifyBool ZifyNat.

(** ** The decoder *)

(** [chunk_steps d data] (Count.v) counts, for the call DecodeChunk(data) in the state [d]: the decoders
    entered (the code table decoders inside), the windows begun or
    resumed, and the opcodes and instructions taken.  The bytes available to the
    call are those kept from earlier calls, [waiting d], and the new ones.
    No hypothesis on the state or on the data is needed. *)
Theorem C37_decode_linear : forall d data,
  chunk_steps d data <= 3 * (waiting d + zlen data) + 5 * depth d + 5.
Proof. exact decode_steps_linear. Qed.
Print Assumptions C37_decode_linear.

(** One decoder, one window, two instructions. *)
Example C37_linear_case :
  let d := start_decoding new_decoder ex_dict in
  waiting d = 0 /\ depth d = 0 /\ zlen hello_delta = 18 /\ chunk_steps d hello_delta = 4.
Proof. vm_compute. repeat split. Qed.

(** The recursion bounds of the model are never reached ([CFuel]): a call ends, also on
    data that is not a delta.  (Undefined behaviour is only possible if the data declares
    cache sizes 254 and 0, see C09_cache_254_refuted.)  The calls
    after a failed one are covered by C12. *)
Theorem C37_decode_terminates : forall d dict before data d1 out,
  idle d -> bytes_ok dict -> Forall bytes_ok before -> bytes_ok data ->
  decode_chunks (start_decoding d dict) before [] = Some (d1, true, out) ->
  match decode_chunk d1 data with
  | CRet d2 ok o => True
  | CUB => bad_cache (concat before ++ data)
  | CFuel => False
  end.
Proof.
  intros d dict before data d1 out ID BD BB B E. pose proof (idle_ready d ID) as RD.
  destruct (Session.stream_start d dict before RD BD BB) as (R & A & M). rewrite E in M. destruct M as (a & -> & DR & OK & UP).
  pose proof (Sim.decode_chunk_sim d1 data out a DR OK (Chunk.unplanned_stopped a UP) B) as S.
  destruct (decode_chunk d1 data) as [d2 ok o| |] eqn:DC; [exact I| |exact S].
  assert (decode_chunks (start_decoding d dict) (before ++ [data]) [] = None) as N.
  { rewrite decode_chunks_app, E. cbn [decode_chunks]. rewrite DC. reflexivity. }
  destruct (Session.stream_start d dict (before ++ [data]) RD BD) as (R2 & A2 & M2).
  { apply Forall_app. split; [exact BB|]. constructor; [exact B|constructor]. }
  rewrite N in M2. destruct M2 as [_ M2]. rewrite concat_app in M2. cbn [concat] in M2. rewrite app_nil_r in M2. exact M2.
Qed.
Print Assumptions C37_decode_terminates.

Example C37_terminates_case :
  match decode_chunks (start_decoding new_decoder ex_dict) [ztake 7 hello_delta] [] with
  | Some (d1, true, []) => match decode_chunk d1 (zdrop 7 hello_delta) with CRet _ true o => o = [104;101;108;108;111;33] | _ => False end
  | _ => False
  end.
Proof. vm_compute. reflexivity. Qed.

(** ** The encoder *)

Lemma json_calls_total : forall l e j dict, engine_ok (ec_engine e) dict -> ec_coder e = Json j -> Forall (call_fits dict) l ->
  exists r, do_ecalls e l = Some r.
Proof.
  induction l as [|c l IH]; intros e j dict K J F; cbn [do_ecalls]; [eauto|]. inversion F as [|? ? CF F']; subst.
  assert (exists r, do_ecall e c = Some r) as ([[e1 r] o] & E).
  { destruct c as [|data|]; cbn [do_ecall call_fits] in *.
    - rewrite (JsonFacts.json_start e dict j K J). destruct (is_ascii dict); eauto.
    - unfold encode_chunk. rewrite J. destruct (negb _); [eauto|]. destruct (negb _); [eauto|].
      assert ((if fl_checksum (ec_flags e) then coder_checksum (Json j) (compute_adler32 data) else Json j) = Json j) as ->
        by (destruct (fl_checksum (ec_flags e)); reflexivity).
      destruct data as [|b tl] eqn:ED.
      + assert (engine_encode (ec_engine e) (ec_look e) [] = Some None) as ->; [|eauto].
        unfold engine_encode. pose proof K as (_ & _ & dh & dhs & EH & _). rewrite EH. rewrite zlen_nil. reflexivity.
      + rewrite <- ED in *. destruct CF as (B & L & _). destruct (engine_encode_ok _ dict (ec_look e) data K B) as (l0 & -> & _); [subst; discriminate|exact L|].
        cbn. eauto.
    - eauto. }
  rewrite E. destruct (json_kept _ _ _ _ _ _ J E) as (KE & j1 & J1). rewrite <- KE in K. destruct (IH e1 j1 dict K J1 F') as ([e2 rs] & ->). eauto.
Qed.

(** Every sequence of calls, in whatever order and with whatever format, comes to
    an end without undefined behaviour. *)
Theorem C37_encode_terminates : forall dict fl look l,
  bytes_ok dict -> zlen dict <= int32_max -> Forall (call_fits dict) l ->
  exists e e' rs, streaming_encoder dict fl look = Some e /\ do_ecalls e l = Some (e', rs) /\ length rs = length l.
Proof.
  intros dict fl look l B L F. destruct (streaming_encoder_ok dict fl look B L) as (en & EN & SE). exists (new_encoder en fl look).
  assert (exists e' rs, do_ecalls (new_encoder en fl look) l = Some (e', rs)) as (e' & rs & E).
  { destruct (fl_json fl) eqn:J.
    - destruct (json_calls_total l (new_encoder en fl look) new_json_writer dict EN) as ([e' rs] & E); [|exact F|eauto].
      cbn. unfold create_writer. rewrite J. reflexivity.
    - destruct (new_encoder_inv en dict fl look true EN L J) as (im & EI).
      destruct (do_ecalls_ok _ _ _ _ _ _ EI F) as (w' & a & rs & E & _). eauto. }
  exists e', rs. split; [exact SE|]. split; [exact E|]. clear -E. revert E. generalize (new_encoder en fl look). revert e' rs.
  induction l as [|c l IH]; intros e' rs e E; cbn [do_ecalls] in E; [injection E as <- <-; reflexivity|].
  destruct (do_ecall e c) as [[[e1 r] o]|]; [|discriminate]. destruct (do_ecalls e1 l) as [[e2 rs2]|] eqn:E2; [|discriminate].
  injection E as _ <-. cbn [length]. f_equal. exact (IH e2 rs2 e1 E2).
Qed.
Print Assumptions C37_encode_terminates.

Example C37_encode_case :
  let l := [EChunk [1;2]; EStart; EChunk c01_target; EStart; EFinish; EFinish; EChunk [3]] in
  Forall (call_fits c01_dict) l.
Proof.
  cbv zeta. assert (call_fits c01_dict (EChunk c01_target)).
  { cbn [call_fits]. split; [apply bytes_okb_ok; vm_compute; reflexivity|]. split; vm_compute; discriminate. }
  repeat constructor; try assumption; try lia; vm_compute; discriminate.
Qed.
