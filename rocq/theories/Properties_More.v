(** C54: decoding is monotone in the limits and in the dictionary.
    C55: the windows of a delta are independent of one another. *)

From Verif Require Import Base ListFacts Spec SpecEncode Varint CodeTable Decoder Usable Stream Session Reuse Files Sound Unique Chunked Engine EngineFacts Encoder EncodeTable EncoderFacts
  NoTarget Properties_Stream Properties_Decode Properties_Encode More Windows.
From Coq Require Import ZifyBool ZifyNat.

(** ** C54 *)

(** A delta that is accepted is also accepted, with the same result, by a decoder
    with larger limits that allows VCD_TARGET at least as often, and with a
    dictionary that has more bytes at its end. *)
Theorem C54_monotone : forall d d' dict extra chunks out, idle_plain d -> idle_plain d' ->
  bytes_ok dict -> bytes_ok extra -> Forall bytes_ok chunks ->
  max_window d <= max_window d' -> max_file d <= max_file d' -> (target_allowed d = true -> target_allowed d' = true) ->
  decode_stream d dict chunks = Some (true, out) -> decode_stream d' (dict ++ extra) chunks = Some (true, out).
Proof. exact more_same. Qed.
Print Assumptions C54_monotone.

(** So a delta made with a dictionary can still be decoded when the dictionary has
    grown at its end. *)
Theorem C54_grown_dictionary : forall dict extra chunks fl look d,
  bytes_ok dict -> bytes_ok extra -> Forall bytes_ok chunks -> fl_json fl = false ->
  zlen dict + zlen (concat chunks) <= int32_max -> zlen (concat chunks) + 53 * zlen chunks + 5 <= int32_max ->
  idle_plain d -> Forall (fun c => zlen c <= max_window d) chunks -> zlen (concat chunks) <= max_file d ->
  exists e e' delta, streaming_encoder dict fl look = Some e /\ encode_stream e chunks = Some (e', true, delta) /\
    forall pieces, concat pieces = delta -> decode_stream d (dict ++ extra) pieces = Some (true, concat chunks).
Proof.
  intros dict extra chunks fl look d BD BE F J L L2 IP MW MF.
  destruct (C02_streaming_round_trip dict chunks fl look d BD F J L L2 IP MW MF) as (e & e' & delta & SE & ES & H).
  exists e, e', delta. split; [exact SE|]. split; [exact ES|]. intros pieces EP.
  assert (Forall bytes_ok pieces) as FP.
  { pose proof (zlen_nonneg _ dict). pose proof (zlen_nonneg _ (concat chunks)).
    destruct (streaming_encoder_ok dict fl look BD) as (en & EN & SE2); [lia|].
    destruct (new_encoder_inv en dict fl look true EN) as (im & EI); [lia|exact J|].
    destruct (stream_file _ dict im _ fl true (fun _ _ => True) chunks EI eq_refl J) as (w' & delta2 & ES2 & _ & BO & _);
      [apply fitting; auto|auto|].
    assert (new_encoder en fl look = e) as X by congruence. rewrite X in ES2. assert (delta2 = delta) as -> by congruence.
    apply bytes_ok_concat. rewrite EP. exact BO. }
  apply (more_same d d dict extra pieces (concat chunks)); auto; lia.
Qed.
Print Assumptions C54_grown_dictionary.

(** The target is the dictionary and one more letter: one COPY, one ADD.  The delta is
    decoded with a longer dictionary, but not with bytes added in front of it. *)
Definition c54_dict : list Z := [1;2;3;4;5;6;7;8;9;10;11;12;13;14;15;16;17;18;19;20;21;22;23;24;25;26;27;28;29;30;31;32].
Definition c54_delta : list Z :=
  match streaming_encoder c54_dict (flags_of false false) false with
  | Some e => match encode_stream e [c54_dict ++ [65]] with Some (_, true, delta) => delta | _ => [] end
  | None => []
  end.
Example C54_case :
  decode_stream new_decoder c54_dict [c54_delta] = Some (true, c54_dict ++ [65]) /\
  decode_stream new_decoder (c54_dict ++ [9;9;9]) [c54_delta] = Some (true, c54_dict ++ [65]) /\
  decode_stream new_decoder ([9;9;9] ++ c54_dict) [c54_delta] <> Some (true, c54_dict ++ [65]) /\
  decode_stream (fst (set_maximum_target_file_size new_decoder 32)) c54_dict [c54_delta] <> Some (true, c54_dict ++ [65]).
Proof.
  split; [vm_compute; reflexivity|]. split; [vm_compute; reflexivity|]. split; vm_compute; discriminate.
Qed.

(** ** C55 *)

(** There is one function that says which bytes a chunk becomes: after any history of
    calls, EncodeChunk appends the bytes it gives for the chunk, and a delta is the
    header followed by what it gives for each chunk. *)
Theorem C55_windows : forall dict fl look, bytes_ok dict -> zlen dict <= int32_max -> fl_json fl = false ->
  exists win : list Z -> list Z,
    forall e l e1 rs, streaming_encoder dict fl look = Some e -> Forall (call_fits dict) l -> do_ecalls e l = Some (e1, rs) ->
      (forall data e2 out, chunk_fits dict data -> encode_chunk e1 data = Some (e2, true, out) -> out = win data) /\
      (forall chunks, Forall (chunk_fits dict) chunks ->
         exists e2, encode_stream e1 chunks = Some (e2, true, write_header fl ++ concat (map win chunks))).
Proof.
  intros dict fl look B L J. exists (piece dict fl look). intros e l e1 rs SE F DC. split.
  - intros data e2 out CF EC. exact (piece_of dict fl look e l e1 rs data e2 out B L J SE F DC CF EC).
  - intros chunks FC. exact (stream_pieces dict fl look e l e1 rs chunks B L J SE F DC FC).
Qed.
Print Assumptions C55_windows.

(** So two deltas made with the same dictionary and flags can be joined: the first,
    and the second without its header of five bytes, are the delta of all the chunks. *)
Theorem C55_joined : forall dict fl look e c1 c2 e1 e2 delta1 delta2, bytes_ok dict -> zlen dict <= int32_max -> fl_json fl = false ->
  streaming_encoder dict fl look = Some e -> Forall (chunk_fits dict) c1 -> Forall (chunk_fits dict) c2 ->
  encode_stream e c1 = Some (e1, true, delta1) -> encode_stream e c2 = Some (e2, true, delta2) ->
  exists e3, encode_stream e (c1 ++ c2) = Some (e3, true, delta1 ++ skipn 5 delta2).
Proof.
  intros dict fl look e c1 c2 e1 e2 delta1 delta2 B L J SE F1 F2 H1 H2.
  destruct (C55_windows dict fl look B L J) as (win & W). destruct (W e [] e [] SE ltac:(constructor) eq_refl) as [_ S].
  destruct (S c1 F1) as (x1 & E1). destruct (S c2 F2) as (x2 & E2).
  destruct (S (c1 ++ c2)) as (x3 & E3); [apply Forall_app; auto|]. exists x3. rewrite E3, map_app, concat_app, app_assoc.
  assert (delta1 = write_header fl ++ concat (map win c1)) as -> by congruence.
  assert (delta2 = write_header fl ++ concat (map win c2)) as -> by congruence.
  do 2 f_equal. unfold write_header. destruct (_ || _); reflexivity.
Qed.
Print Assumptions C55_joined.

(** The same chunk twice: the same window twice. *)
Example C55_case :
  match streaming_encoder [] (flags_of true true) true with
  | Some e => match encode_stream e [[65;66]; [67]; [65;66]], encode_stream e [[65;66]], encode_stream e [[67]; [65;66]] with
              | Some (_, true, delta), Some (_, true, delta1), Some (_, true, delta2) =>
                  delta = delta1 ++ skipn 5 delta2 /\
                  delta = [214;195;196;83;0] ++ ([5;0;0;12;2;0;0;3;0] ++ [134;144;129;3] ++ [3;65;66]) ++ skipn 5 delta2
              | _, _, _ => False
              end
  | None => False
  end.
Proof. vm_compute. split; reflexivity. Qed.
