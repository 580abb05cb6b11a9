(** The windows of a stream that the encoder writes, each within 31 bits. *)

From Verif Require Import Base Spec SpecLong CopyFacts Varint AddrCache CodeTable InstructionMap CodeTableFacts Adler AdlerFacts BodyFacts InstructionMapFacts
  EncodeTable WriterFacts RollingHash BlockHash Index Engine EngineFacts JsonWriter Encoder EncoderFacts Sound.
From Coq Require Import ZifyBool ZifyNat.

Lemma encode_chunks_long : forall chunks e dict im w f (ok : list Z -> list Z -> list Z -> Prop) prev out, einv e dict im w f -> ec_allowed e = true ->
  Forall (chunk_fits dict) chunks ->
  (forall pre c post w1, chunks = pre ++ c :: post -> c <> [] -> zlen w1 <= zlen c + 53 -> ok (prev ++ concat pre) w1 c) ->
  exists w' ws, encode_chunks e chunks out = Some (set_coder e (Binary w') true, true, out ++ ws) /\
    einv (set_coder e (Binary w') true) dict im w' f /\ bytes_ok ws /\
    windows_each strict strict f dict ok prev ws (prev ++ concat chunks).
Proof.
  induction chunks as [|c chunks IH]; intros e dict im w f ok prev out E AL F OK; cbn [encode_chunks].
  - exists w, []. assert (set_coder e (Binary w) true = e) as ->
      by (pose proof (ei_coder _ _ _ _ _ E) as CO; destruct e; cbn in *; subst; reflexivity).
    rewrite !app_nil_r. split; [reflexivity|]. split; [exact E|]. split; [constructor|]. cbn [concat] in *. rewrite ?app_nil_r. constructor.
  - inversion F as [|? ? (B & L & L2) F']; subst.
    destruct (encode_chunk_ok e dict im w f c prev E AL B L L2) as (w1 & o1 & -> & E1 & _ & BO & C).
    destruct (IH (set_coder e (Binary w1) true) dict im w1 f ok (prev ++ c) (out ++ o1) E1 eq_refl F') as (w2 & ws & -> & E2 & BW & WS).
    { intros pre c' post w3 EQ NE LN. rewrite <- app_assoc. change (c ++ concat pre) with (concat (c :: pre)).
      apply (OK (c :: pre) c' post); [rewrite EQ; reflexivity|exact NE|exact LN]. }
    exists w2, (o1 ++ ws). split; [rewrite <- app_assoc; reflexivity|]. split; [exact E2|]. split; [apply bytes_ok_app; auto|].
    cbn [concat]. rewrite <- app_assoc in WS. destruct C as [[-> ->]|(NE & WN & LN & _)].
    + cbn [app] in *. rewrite app_nil_r in WS. exact WS.
    + apply we_cons with (T := c); [destruct ws; exact WN| |exact WS].
      specialize (OK [] c chunks o1 eq_refl NE LN). cbn [concat] in OK. rewrite app_nil_r in OK. exact OK.
Qed.

Lemma encode_stream_long : forall e dict im w f (ok : list Z -> list Z -> list Z -> Prop) chunks, einv e dict im w f ->
  Forall (chunk_fits dict) chunks ->
  (forall pre c post w1, chunks = pre ++ c :: post -> c <> [] -> zlen w1 <= zlen c + 53 -> ok (concat pre) w1 c) ->
  exists e' ws, encode_stream e chunks = Some (e', true, write_header (ec_flags e) ++ ws) /\ bytes_ok ws /\
    windows_each strict strict f dict ok [] ws (concat chunks).
Proof.
  intros e dict im w f ok chunks E F OK. unfold encode_stream.
  destruct (start_encoding_ok e dict im w f E) as (c & _ & -> & E1).
  destruct (encode_chunks_long chunks _ dict im _ f ok [] (write_header (ec_flags e)) E1 eq_refl F) as (w2 & ws & -> & E2 & BW & WS).
  { exact OK. }
  eexists _, ws. unfold finish_encoding. cbn [set_coder ec_allowed negb ec_coder coder_finish]. rewrite app_nil_r. split; [reflexivity|].
  split; [exact BW|exact WS].
Qed.
