(** C46: chunks arrive without delay. *)

From Verif Require Import Base ListFacts Spec SpecEncode Varint CodeTable Decoder Usable Stream Session Reuse Files Sound Engine EngineFacts Encoder EncodeTable EncoderFacts
  Properties_Stream Properties_Decode Properties_Encode.
From Coq Require Import ZifyBool ZifyNat.

(** What the successive calls of EncodeChunk append to the output; [None] if one fails. *)
Fixpoint packets (e : encoder) (chunks : list (list Z)) : option (list (list Z)) :=
  match chunks with
  | [] => Some []
  | c :: tl =>
      match encode_chunk e c with
      | Some (e', true, o) => match packets e' tl with Some os => Some (o :: os) | None => None end
      | _ => None
      end
  end.

Lemma packets_exist : forall chunks e out e' out', encode_chunks e chunks out = Some (e', true, out') ->
  exists os, packets e chunks = Some os /\ length os = length chunks /\
    forall k, exists ek, encode_chunks e (firstn k chunks) out = Some (ek, true, out ++ concat (firstn k os)).
Proof.
  induction chunks as [|c chunks IH]; intros e out e' out' E; cbn [encode_chunks packets] in *.
  - exists []. split; [reflexivity|]. split; [reflexivity|]. intros k. rewrite !firstn_nil. cbn [encode_chunks concat]. rewrite app_nil_r. eauto.
  - destruct (encode_chunk e c) as [[[e1 [|]] o]|] eqn:EC; try discriminate.
    destruct (IH _ _ _ _ E) as (os & -> & L & K). exists (o :: os). split; [reflexivity|]. split; [cbn [length]; lia|].
    intros [|k]; cbn [firstn encode_chunks concat]; [rewrite app_nil_r; eauto|]. rewrite EC. destruct (K k) as (ek & X). exists ek. rewrite X, app_assoc. reflexivity.
Qed.

Lemma Forall_firstn : forall A (P : A -> Prop) k l, Forall P l -> Forall P (firstn k l).
Proof. intros A P k. induction k as [|k IH]; intros [|x l] F; cbn [firstn]; constructor; inversion F; auto. Qed.
Lemma concat_firstn_len : forall (l : list (list Z)) k, zlen (concat (firstn k l)) <= zlen (concat l) /\ zlen (firstn k l) <= zlen l.
Proof.
  induction l as [|x l IH]; intros k; [rewrite firstn_nil; lia|]. destruct k as [|k]; cbn [firstn concat].
  - rewrite !zlen_nil. split; [apply zlen_nonneg|]. apply zlen_nonneg.
  - rewrite !zlen_app, !zlen_cons. specialize (IH k). lia.
Qed.

Definition is_binary (c : coder) : Prop := match c with Binary _ => True | Json _ => False end.
Lemma start_binary : forall e e1 r o, is_binary (ec_coder e) -> start_encoding e = Some (e1, r, o) -> is_binary (ec_coder e1).
Proof.
  intros e e1 r o B E. unfold start_encoding in E. destruct (ec_coder e) as [w|j]; [|destruct B]. unfold coder_init in E.
  destruct (writer_init w _) as [[w' [|]]|]; try discriminate; [|injection E as <- _ _; exact Logic.I].
  destruct (negb _); injection E as <- _ _; exact Logic.I.
Qed.
Lemma chunk_binary : forall e c e1 r o, is_binary (ec_coder e) -> encode_chunk e c = Some (e1, r, o) -> is_binary (ec_coder e1).
Proof.
  intros e c e1 r o B E. unfold encode_chunk in E. destruct (negb (ec_allowed e)); [injection E as <- _ _; exact B|].
  destruct (negb (coder_verify _ _)); [injection E as <- _ _; exact B|]. cbv zeta in E.
  set (c0 := if fl_checksum (ec_flags e) then _ else _) in E.
  assert (is_binary c0) as B0. { unfold c0. destruct (ec_coder e) as [w|j]; [|destruct B]. destruct (fl_checksum _); exact Logic.I. }
  clearbody c0. destruct c0 as [w|j]; [|destruct B0].
  destruct (engine_encode _ _ _) as [[calls|]|]; try discriminate; [|injection E as <- _ _; exact Logic.I].
  cbn [coder_calls] in E. destruct (writer_calls w calls) as [w1|]; [|discriminate]. cbn [coder_output] in E.
  destruct (writer_output w1) as [[w2 out]|]; [|discriminate]. injection E as <- _ _. exact Logic.I.
Qed.
Lemma chunks_binary : forall chunks e out e1 r o, is_binary (ec_coder e) -> encode_chunks e chunks out = Some (e1, r, o) -> is_binary (ec_coder e1).
Proof.
  induction chunks as [|c chunks IH]; intros e out e1 r o B E; cbn [encode_chunks] in E; [injection E as <- _ _; exact B|].
  destruct (encode_chunk e c) as [[[e2 [|]] o2]|] eqn:EC; try discriminate.
  - eapply IH; [|exact E]. eapply chunk_binary; eauto.
  - injection E as <- _ _. eapply chunk_binary; eauto.
Qed.

(** The sender calls StartEncoding and EncodeChunk and sends what each call appends;
    the receiver gives each packet to DecodeChunk.  After packet number k the
    receiver has written exactly the first k chunks, and FinishDecoding would return true. *)
Theorem C46_no_lag : forall dict chunks fl look d,
  bytes_ok dict -> Forall bytes_ok chunks -> fl_json fl = false ->
  zlen dict + zlen (concat chunks) <= int32_max -> zlen (concat chunks) + 53 * zlen chunks + 5 <= int32_max ->
  idle_plain d -> Forall (fun c => zlen c <= max_window d) chunks -> zlen (concat chunks) <= max_file d ->
  exists e e1 header sent, streaming_encoder dict fl look = Some e /\ start_encoding e = Some (e1, true, header) /\
    packets e1 chunks = Some sent /\ length sent = length chunks /\
    forall k, exists dk, decode_chunks (start_decoding d dict) (header :: firstn k sent) [] = Some (dk, true, concat (firstn k chunks)) /\
      snd (finish_decoding dk) = true.
Proof.
  intros dict chunks fl look d BD F J L L2 IP MW MF.
  assert (forall k, exists e e' delta, streaming_encoder dict fl look = Some e /\ encode_stream e (firstn k chunks) = Some (e', true, delta) /\
    forall pieces, concat pieces = delta -> decode_stream d dict pieces = Some (true, concat (firstn k chunks))) as RT.
  { intros k. destruct (concat_firstn_len chunks k). apply C02_streaming_round_trip; auto; try (apply Forall_firstn; assumption); lia. }
  destruct (RT (length chunks)) as (e & e' & delta & SE & ES & _). rewrite firstn_all in ES.
  unfold encode_stream in ES. destruct (start_encoding e) as [[[e1 [|]] header]|] eqn:ST; try discriminate.
  destruct (encode_chunks e1 chunks header) as [[[e2 [|]] o2]|] eqn:EC; try discriminate.
  destruct (packets_exist _ _ _ _ _ EC) as (sent & PK & LEN & K).
  exists e, e1, header, sent. split; [exact SE|]. split; [exact ST|]. split; [exact PK|]. split; [exact LEN|]. intros k.
  destruct (RT k) as (e0 & e0' & delta0 & SE0 & ES0 & DS). rewrite SE in SE0. injection SE0 as <-.
  unfold encode_stream in ES0. rewrite ST in ES0. destruct (K k) as (ek & EK). rewrite EK in ES0.
  destruct (finish_encoding ek) as [[e3 r] o3] eqn:FE. injection ES0 as <- -> <-.
  assert (o3 = []) as ->.
  { unfold finish_encoding in FE. destruct (negb (ec_allowed ek)); [congruence|]. injection FE as _ FO. rewrite <- FO.
    assert (is_binary (ec_coder ek)) as B.
    { eapply chunks_binary; [|exact EK]. eapply start_binary; [|exact ST]. unfold streaming_encoder in SE.
      destruct (engine_init (new_engine dict)) as [[en [|]]|]; try discriminate. injection SE as <-. cbn [new_encoder new_custom_encoder ec_coder].
      unfold new_encoder, new_custom_encoder, create_writer. cbn [ec_coder]. rewrite J. exact Logic.I. }
    destruct (ec_coder ek); [reflexivity|destruct B]. }
  rewrite app_nil_r in DS. specialize (DS (header :: firstn k sent) eq_refl). unfold decode_stream in DS.
  destruct (decode_chunks _ _ _) as [[[dk [|]] o]|]; try discriminate. injection DS as FD <-. eauto.
Qed.

Example C46_case :
  match streaming_encoder [1;2;3] {| fl_interleaved := true; fl_checksum := true; fl_json := false |} true with
  | Some e =>
      match start_encoding e with
      | Some (e1, true, header) =>
          match packets e1 [[5;6;7;8]; []; [1;1;1;1;1;1]] with
          | Some sent => (length sent, map (fun k =>
              match decode_chunks (start_decoding new_decoder [1;2;3]) (header :: firstn k sent) [] with
              | Some (dk, r, o) => (r, o, snd (finish_decoding dk)) | None => (false, [], false) end) [0; 1; 2; 3]%nat)
          | None => (O, [])
          end
      | _ => (O, [])
      end
  | None => (O, [])
  end = (3%nat, [(true, [], true); (true, [5;6;7;8], true); (true, [5;6;7;8], true); (true, [5;6;7;8;1;1;1;1;1;1], true)]).
Proof. vm_compute. reflexivity. Qed.
Print Assumptions C46_no_lag.
