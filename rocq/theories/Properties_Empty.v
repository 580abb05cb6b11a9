(** C48: calls without data are harmless. *)

From Verif Require Import Base ListFacts Spec SpecEncode Varint CodeTable Adler Decoder Usable Stream Session Reuse Files Chunk Sim Empty EmptyFailed Engine Encoder EncodeTable JsonWriter
  Properties_Stream.
From Coq Require Import ZifyBool ZifyNat.

(** A call of DecodeChunk without data, after calls that succeeded, returns true and
    appends nothing to the output. *)
Theorem C48_decode_nothing : forall d dict chunks d' out, idle d -> bytes_ok dict -> Forall bytes_ok chunks ->
  decode_chunks (start_decoding d dict) chunks [] = Some (d', true, out) ->
  exists d'', decode_chunk d' [] = CRet d'' true [].
Proof.
  intros d dict chunks d' out ID BD F H. pose proof (idle_ready d ID) as RD.
  destruct (stream_start d dict chunks RD BD F) as (R & A & M). rewrite H in M. destruct M as (a & -> & DR & OK & UP).
  pose proof (decode_chunk_fuel_sim (chunk_fuel d' []) d' [] out a ltac:(lia) DR OK (unplanned_stopped a UP) ltac:(constructor)) as S.
  change (decode_chunk_fuel (chunk_fuel d' []) d' []) with (decode_chunk d' []) in S.
  destruct (decode_chunk d' []) as [d2 [|] o| |].
  - destruct S as (a' & AC & DR'). destruct (acr_empty a OK (unplanned_stopped a UP) _ AC) as (a1 & E & AR). injection E as ->.
    pose proof (acr_ok _ _ _ AC OK (unplanned_stopped a UP) ltac:(constructor)) as (O1 & _).
    destruct (arel_acore _ _ AR O1) as (TE & _). rewrite (drel_out _ _ _ DR), (drel_out _ _ _ DR') in TE.
    assert (o = []) as ->. { apply (app_inv_head out). rewrite app_nil_r. symmetry. exact TE. } eauto.
  - destruct S as (AC & _). destruct (acr_empty a OK (unplanned_stopped a UP) _ AC) as (a1 & E & _). discriminate.
  - destruct (acr_empty a OK (unplanned_stopped a UP) _ S) as (a1 & E & _). discriminate.
  - contradiction.
Qed.
Print Assumptions C48_decode_nothing.

(** Nor does it change what follows: the result and the output are those of the calls
    without it, also when one of them fails. *)
Theorem C48_decode_same : forall d dict a b, idle d -> bytes_ok dict -> Forall bytes_ok (a ++ b) ->
  decode_stream d dict (a ++ [] :: b) = decode_stream d dict (a ++ b).
Proof. intros d dict a b ID. apply stream_empty, idle_ready, ID. Qed.
Print Assumptions C48_decode_same.

(** EncodeChunk without data returns true, appends nothing, and every later call
    behaves as if it had not been made. *)
Theorem C48_encode_nothing : forall e, ec_allowed e = true ->
  exists e', encode_chunk e [] = Some (e', true, []) /\ ec_allowed e' = true /\
    (forall data, encode_chunk e' data = encode_chunk e data) /\
    snd (finish_encoding e') = snd (finish_encoding e).
Proof.
  intros e AL.
  assert (engine_encode (ec_engine e) (ec_look e) [] = Some None) as EE by (unfold engine_encode; destruct (en_hash (ec_engine e)); reflexivity).
  assert (coder_verify (ec_coder e) [] = true) as CV by (destruct (ec_coder e); reflexivity).
  set (c0 := if fl_checksum (ec_flags e) then coder_checksum (ec_coder e) (compute_adler32 []) else ec_coder e).
  assert (encode_chunk e [] = Some (set_coder e c0 true, true, [])) as E0 by (unfold encode_chunk; rewrite AL, CV, EE; reflexivity).
  exists (set_coder e c0 true). split; [exact E0|]. split; [reflexivity|]. split.
  - intros data. assert (forall j, ec_coder e = Json j -> set_coder e c0 true = e) as JE.
    { intros j J. unfold c0, set_coder. rewrite J. cbn [coder_checksum]. destruct (fl_checksum _); rewrite <- J, <- AL; destruct e; reflexivity. }
    destruct (ec_coder e) as [w|j] eqn:EC; [|rewrite (JE j eq_refl); reflexivity].
    unfold encode_chunk. cbn [set_coder ec_allowed ec_coder ec_flags ec_engine ec_look]. rewrite AL, EC. cbn [negb].
    assert (coder_verify c0 data = coder_verify (Binary w) data) as -> by (unfold c0; destruct (fl_checksum _); reflexivity). cbn [coder_verify negb].
    assert ((if fl_checksum (ec_flags e) then coder_checksum c0 (compute_adler32 data) else c0) =
            (if fl_checksum (ec_flags e) then coder_checksum (Binary w) (compute_adler32 data) else Binary w)) as -> by (unfold c0; destruct (fl_checksum _); reflexivity).
    clear EE E0 JE. clearbody c0. destruct (engine_encode (ec_engine e) (ec_look e) data) as [[calls|]|]; [|reflexivity|reflexivity]. destruct (coder_calls _ calls) as [c1|]; [|reflexivity].
    destruct (coder_output c1) as [[c2 out]|]; reflexivity.
  - unfold finish_encoding. cbn [set_coder ec_allowed ec_coder]. rewrite AL. cbn [negb snd].
    unfold c0. destruct (ec_coder e); destruct (fl_checksum _); reflexivity.
Qed.
Print Assumptions C48_encode_nothing.

(** So a whole encoding is the same with and without such a call. *)
Theorem C48_encode_same : forall e a b,
  match encode_stream e (a ++ [] :: b), encode_stream e (a ++ b) with
  | Some (_, r1, o1), Some (_, r2, o2) => r1 = r2 /\ o1 = o2
  | None, None => True
  | _, _ => False
  end.
Proof.
  intros e a b. unfold encode_stream. destruct (start_encoding e) as [[[e1 [|]] o]|] eqn:ST; [|auto|exact Logic.I].
  assert (ec_allowed e1 = true) as AL.
  { unfold start_encoding in ST. destruct (coder_init _ _) as [[c [|]]|]; try discriminate. destruct (negb _); [discriminate|]. injection ST as <- _. reflexivity. }
  assert (forall l e1 o, ec_allowed e1 = true -> forall e2 o2, encode_chunks e1 l o = Some (e2, true, o2) -> ec_allowed e2 = true) as KA.
  { clear. induction l as [|x l IH]; intros e1 o AL e2 o2 E; cbn [encode_chunks] in E; [congruence|].
    destruct (encode_chunk e1 x) as [[[e3 [|]] o3]|] eqn:EC; try discriminate. eapply IH; [|exact E]. clear - EC AL.
    unfold encode_chunk in EC. rewrite AL in EC. cbn [negb] in EC. destruct (negb _); [discriminate|].
    cbv zeta in EC. destruct (engine_encode _ _ _) as [[calls|]|]; try discriminate; [|injection EC as <- _; reflexivity].
    destruct (coder_calls _ calls) as [c1|]; [|discriminate]. destruct (coder_output c1) as [[c2 out]|]; [|discriminate]. injection EC as <- _. reflexivity. }
  assert (forall l e1 o, encode_chunks e1 (a ++ l) o = match encode_chunks e1 a o with Some (e2, true, o2) => encode_chunks e2 l o2 | r => r end) as AP.
  { clear. induction a as [|x a IH]; intros l e1 o; cbn [app encode_chunks]; [reflexivity|].
    destruct (encode_chunk e1 x) as [[[e3 [|]] o3]|]; auto. }
  rewrite !AP. destruct (encode_chunks e1 a o) as [[[e2 [|]] o2]|] eqn:EA; [|auto|exact Logic.I].
  pose proof (KA a e1 o AL e2 o2 EA) as AL2. destruct (C48_encode_nothing e2 AL2) as (e3 & E3 & AL3 & K & FN).
  cbn [encode_chunks]. rewrite E3, app_nil_r.
  assert (forall l e3 e2 o, (forall data, encode_chunk e3 data = encode_chunk e2 data) -> snd (finish_encoding e3) = snd (finish_encoding e2) ->
    snd (fst (finish_encoding e3)) = snd (fst (finish_encoding e2)) ->
    match (match encode_chunks e3 l o with Some (x, true, p) => let '(y, r, q) := finish_encoding x in Some (y, r, p ++ q) | r => r end),
          (match encode_chunks e2 l o with Some (x, true, p) => let '(y, r, q) := finish_encoding x in Some (y, r, p ++ q) | r => r end) with
    | Some (_, r1, o1), Some (_, r2, o2) => r1 = r2 /\ o1 = o2 | None, None => True | _, _ => False end) as G.
  { clear. intros [|x l] e3 e2 o K F1 F2; cbn [encode_chunks].
    - destruct (finish_encoding e3) as [[y r] q], (finish_encoding e2) as [[y' r'] q']. cbn in *. split; congruence.
    - rewrite K. destruct (encode_chunk e2 x) as [[[e4 [|]] o4]|]; auto.
      destruct (encode_chunks e4 l (o ++ o4)) as [[[e5 [|]] o5]|]; auto. destruct (finish_encoding e5) as [[y r] q]. auto. }
  assert (snd (fst (finish_encoding e3)) = snd (fst (finish_encoding e2))) as F2 by (unfold finish_encoding; rewrite AL2, AL3; reflexivity).
  specialize (G b e3 e2 o2 K FN F2).
  destruct (encode_chunks e3 b o2) as [[[e5 [|]] o5]|]; destruct (encode_chunks e2 b o2) as [[[e6 [|]] o6]|]; cbn in *; auto.
Qed.
Print Assumptions C48_encode_same.

Example C48_case :
  match streaming_encoder ex_dict {| fl_interleaved := true; fl_checksum := true; fl_json := false |} true with
  | Some e =>
      match encode_stream e [[1;2;3]; []; [4;5]], encode_stream e [[1;2;3]; [4;5]] with
      | Some (_, true, o1), Some (_, true, o2) =>
          o1 = o2 /\ 20 < zlen o1 /\
          decode_stream new_decoder ex_dict [ztake 7 o1; []; zdrop 7 o1; []] = Some (true, [1;2;3;4;5]) /\
          decode_stream new_decoder ex_dict [ztake 7 o1; []; [255]] = Some (false, [])
      | _, _ => False
      end
  | None => False
  end.
Proof. vm_compute. auto. Qed.

(** A second window that fails, in the middle of which the call is made: the first one
    is output, by the call that fails. *)
Example C48_case_failing : let h := file_header 0 0 in let w1 := [0;9;3;0;3;1;0;97;98;99;4] in let w2 := [0;7;3;0;1;1;0;100;4] in
  let d := set_allow_vcd_target new_decoder false in
  idle d /\
  decode_stream d [] [h ++ ztake 7 w1; []; zdrop 7 w1 ++ w2] = Some (false, [97;98;99]) /\
  decode_stream d [] [h ++ ztake 7 w1; zdrop 7 w1 ++ w2] = Some (false, [97;98;99]).
Proof. cbv zeta. split; [apply idle_allow, idle_new|]. split; vm_compute; reflexivity. Qed.
