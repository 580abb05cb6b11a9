(** C26 for the JSON format. *)

From Verif Require Import Base ListFacts Spec SpecEncode SpecJson CopyFacts Varint AddrCache CodeTable InstructionMap CodeTableFacts
  Adler AdlerFacts BodyFacts InstructionMapFacts EncodeTable WriterFacts RollingHash RollingHashFacts BlockHash BlockHashFacts Index
  Engine EngineFacts JsonWriter JsonFacts Encoder EncoderFacts EncoderCalls Sound Decoder Usable Stream Session Reuse Files
  Properties_Stream Properties_Decode Properties_Encode.
From Coq Require Import ZifyBool ZifyNat.

(** ** Lengths of texts *)

Lemma digits_short : forall k fuel x acc, 0 <= x < 10 ^ (Z.of_nat k + 1) -> zlen (digits fuel x acc) <= zlen acc + Z.of_nat k + 1.
Proof.
  induction k as [|k IH]; intros fuel x acc X; destruct fuel as [|fuel]; cbn [digits]; cbv zeta; try lia.
  - change (10 ^ (Z.of_nat 0 + 1)) with 10 in X. destruct (Z.ltb_spec x 10); [|lia]. rewrite zlen_cons. lia.
  - destruct (Z.ltb_spec x 10); [rewrite zlen_cons; lia|]. eapply Z.le_trans; [apply IH|rewrite zlen_cons; lia].
    replace (Z.of_nat (S k) + 1) with (Z.succ (Z.of_nat k + 1)) in X by lia. rewrite Z.pow_succ_r in X by lia.
    split; [apply Z.div_pos; lia|]. apply Z.div_lt_upper_bound; lia.
Qed.
Lemma decimal_short : forall x, 0 <= x <= int32_max -> zlen (decimal x) <= 10.
Proof.
  intros x X. unfold decimal. destruct (Z.ltb_spec x 0); [lia|]. pose proof (digits_short 9 20 x []) as D. rewrite zlen_nil in D.
  change (10 ^ (Z.of_nat 9 + 1)) with 10000000000 in D. unfold int32_max in *. lia.
Qed.
Lemma escape_short : forall d, zlen (json_escape d) <= 6 * zlen d.
Proof.
  induction d as [|c d IH]; [cbn; rewrite zlen_nil; lia|]. unfold json_escape in *. cbn [flat_map]. rewrite zlen_app, zlen_cons.
  assert (zlen (json_escape_byte c) <= 6) as B.
  { unfold json_escape_byte. destruct (c =? 34), (c =? 92), (c =? 8), (c =? 12), (c =? 10), (c =? 13), (c =? 9), ((c <? 32) || (127 <=? c)); cbv; discriminate. }
  lia.
Qed.
Lemma append_short : forall j l, zlen (jw_out (json_append j l)) <= zlen (jw_out j) + 1 + zlen l.
Proof.
  intros j l. unfold json_append. cbn [jw_out]. rewrite !zlen_app. assert (zlen (json_comma j) <= 1) by (unfold json_comma; destruct (jw_added j); cbv; discriminate). lia.
Qed.

Lemma plan_text : forall look dict T b l T', genuine_plan look dict T b l T' -> zlen dict + zlen T' <= int32_max ->
  forall j, zlen (jw_out (fold_left json_call l j)) <= zlen (jw_out j) + 6 * (zlen T' - zlen T) + (if b then 0 else 3).
Proof.
  intros look dict T b l T' H L. pose proof (zlen_nonneg _ dict) as ZD.
  induction H as [T b|T d l T' ND G IH|T b a n T1 l T' N C X G IH]; intros j; cbn [fold_left].
  - destruct b; lia.
  - specialize (IH L (json_call j (Add d))). rewrite zlen_app in IH. cbn [json_call] in *. unfold json_add in *.
    pose proof (append_short j ([34] ++ json_escape d ++ [34])) as A. rewrite !zlen_app in A. change (zlen [34]) with 1 in A. pose proof (escape_short d). lia.
  - specialize (IH L (json_call j (Copy a n))). cbn [json_call] in *. unfold json_copy in *.
    destruct (genuine_plan_grows _ _ _ _ _ _ G) as (m & EM). destruct (copy_bytewise_length _ _ _ _ _ X) as (bs & EB & LB).
    pose proof (zlen_nonneg _ m). pose proof (zlen_nonneg _ bs). pose proof (zlen_nonneg _ T).
    assert (zlen T' = zlen T + n + zlen m) as LT by (rewrite EM, EB, !zlen_app; lia).
    assert (zlen T1 = zlen T + n) as LT1 by (rewrite EB, zlen_app; lia).
    assert (0 <= a <= int32_max /\ 0 <= n <= int32_max) as [QA QN] by lia.
    pose proof (append_short j (decimal (to_int32 a) ++ [44] ++ decimal (to_size n))) as A. rewrite !zlen_app in A. change (zlen [44]) with 1 in A.
    rewrite to_int32_id in A by (unfold int32_max in *; lia). rewrite to_size_id in A by (unfold size_max, int32_max in *; lia).
    pose proof (decimal_short a QA). pose proof (decimal_short n QN).
    rewrite to_int32_id in IH by (unfold int32_max in *; lia). rewrite to_size_id in IH by (unfold size_max, int32_max in *; lia).
    rewrite to_int32_id by (unfold int32_max in *; lia). rewrite to_size_id by (unfold size_max, int32_max in *; lia). destruct b; lia.
Qed.

(** ** What the writer holds back: at most the bracket *)

Definition json_short (e : encoder) (en : engine) : Prop :=
  ec_engine e = en /\ exists j, ec_coder e = Json j /\ zlen (jw_out j) <= 1.

Lemma json_chunk_short : forall e en dict data e' r out, json_short e en -> engine_ok en dict -> encode_chunk e data = Some (e', r, out) ->
  json_short e' en /\ (bytes_ok data -> zlen dict + zlen data <= int32_max -> zlen out <= 6 * zlen data + 4).
Proof.
  intros e en dict data e' r out (EN & j & CO & SH) OK H. pose proof (zlen_nonneg _ data) as ZD. unfold encode_chunk in H. rewrite CO in H.
  assert ((if fl_checksum (ec_flags e) then coder_checksum (Json j) (compute_adler32 data) else Json j) = Json j) as EC by (destruct (fl_checksum (ec_flags e)); reflexivity).
  rewrite EC in H. clear EC.
  assert (json_short e en) as K by (split; [exact EN|]; exists j; auto).
  destruct (negb (ec_allowed e)); [injection H as <- _ <-; split; [exact K|rewrite zlen_nil; lia]|].
  destruct (negb (coder_verify (Json j) data)); [injection H as <- _ <-; split; [exact K|rewrite zlen_nil; lia]|].
  destruct (engine_encode (ec_engine e) (ec_look e) data) as [[l|]|] eqn:EE; [| |discriminate H].
  - cbn [coder_calls coder_output] in H. destruct (json_output (fold_left json_call l j)) as [j' o] eqn:JO.
    unfold json_output in JO. injection JO as <- <-. injection H as <- _ <-. split.
    + split; [exact EN|]. eexists. split; [reflexivity|]. cbv. discriminate.
    + intros B L. assert (data <> []) as NE.
      { intros ->. assert (engine_encode (ec_engine e) (ec_look e) [] = Some None) as E0 by (unfold engine_encode; destruct (en_hash (ec_engine e)); reflexivity).
        rewrite E0 in EE. discriminate EE. }
      rewrite EN in EE. destruct (engine_encode_ok en dict (ec_look e) data OK B NE L) as (l' & EE' & GP).
      assert (l' = l) as -> by congruence. pose proof (plan_text _ _ _ _ _ _ GP L j) as PT. rewrite zlen_nil in PT. lia.
  - injection H as <- _ <-. split; [|rewrite zlen_nil; lia]. split; [exact EN|]. exists j. auto.
Qed.

Lemma json_call_short : forall e en dict c e' r o, json_short e en -> engine_ok en dict -> do_ecall e c = Some (e', r, o) -> json_short e' en.
Proof.
  intros e en dict c e' r o K OK H. destruct c as [|data|]; cbn [do_ecall] in H.
  - destruct K as (EN & j & CO & SH). unfold start_encoding in H. rewrite CO in H. cbn [coder_init] in H.
    destruct (negb _); injection H as <- _ _; (split; [exact EN|]; eexists; split; [reflexivity|]; cbv; discriminate).
  - eapply json_chunk_short; eauto.
  - destruct K as (EN & j & CO & SH). unfold finish_encoding in H. destruct (negb _); injection H as <- _ _.
    + split; [exact EN|]. exists j. auto.
    + split; [exact EN|]. exists j. auto.
Qed.

Lemma json_calls_short : forall l e en dict e' rs, json_short e en -> engine_ok en dict -> do_ecalls e l = Some (e', rs) -> json_short e' en.
Proof.
  induction l as [|c l IH]; intros e en dict e' rs K OK H; cbn [do_ecalls] in H; [injection H as <- _; exact K|].
  destruct (do_ecall e c) as [[[e1 r] o]|] eqn:E; [|discriminate H]. destruct (do_ecalls e1 l) as [[e2 rs2]|] eqn:E2; [|discriminate H].
  injection H as <- _. eapply IH; [|exact OK|exact E2]. eapply json_call_short; eauto.
Qed.

Lemma new_json_short : forall en fl look, fl_json fl = true -> json_short (new_encoder en fl look) en.
Proof. intros en fl look J. split; [reflexivity|]. exists new_json_writer. split; [cbn; unfold create_writer; rewrite J; reflexivity|]. cbv. discriminate. Qed.

(** ** The theorems *)

(** A chunk in JSON takes at most six characters for each of its bytes, and four more. *)
Theorem C26_json_chunk_partial : forall dict fl look e l e1 rs data e2 r out,
  bytes_ok dict -> zlen dict <= int32_max -> fl_json fl = true ->
  streaming_encoder dict fl look = Some e -> do_ecalls e l = Some (e1, rs) ->
  bytes_ok data -> zlen dict + zlen data <= int32_max -> encode_chunk e1 data = Some (e2, r, out) -> zlen out <= 6 * zlen data + 4.
Proof.
  intros dict fl look e l e1 rs data e2 r out B L J SE DC BD LD EC.
  destruct (streaming_encoder_ok dict fl look B L) as (en & EN & SE'). rewrite SE in SE'. injection SE' as ->.
  pose proof (json_calls_short l _ en dict e1 rs (new_json_short en fl look J) EN DC) as K.
  destruct (json_chunk_short e1 en dict data e2 r out K EN EC) as [_ A]. auto.
Qed.
Print Assumptions C26_json_chunk_partial.

Lemma json_chunks_short : forall chunks e en dict out e' r out', json_short e en -> engine_ok en dict ->
  Forall bytes_ok chunks -> Forall (fun c => zlen dict + zlen c <= int32_max) chunks ->
  encode_chunks e chunks out = Some (e', r, out') ->
  json_short e' en /\ zlen out' <= zlen out + 6 * zlen (concat chunks) + 4 * zlen chunks.
Proof.
  induction chunks as [|c chunks IH]; intros e en dict out e' r out' K OK B L H; cbn [encode_chunks] in H.
  - injection H as <- _ <-. split; [exact K|]. cbn [concat]. rewrite !zlen_nil. lia.
  - inversion B as [|x y B1 B2]; subst. inversion L as [|x y L1 L2]; subst.
    destruct (encode_chunk e c) as [[[e1 r1] o1]|] eqn:E1; [|discriminate H].
    destruct (json_chunk_short e en dict c e1 r1 o1 K OK E1) as [K1 A1]. specialize (A1 B1 L1).
    cbn [concat]. rewrite zlen_app, zlen_cons. pose proof (zlen_nonneg _ chunks). pose proof (zlen_nonneg _ (concat chunks)). destruct r1.
    + destruct (IH e1 en dict (out ++ o1) e' r out' K1 OK B2 L2 H) as [K2 A2]. split; [exact K2|]. rewrite zlen_app in A2. lia.
    + injection H as <- _ <-. split; [exact K1|]. rewrite zlen_app. lia.
Qed.

(** A whole encoding. *)
Theorem C26_json_stream_partial : forall dict fl look e chunks e' r out,
  bytes_ok dict -> zlen dict <= int32_max -> fl_json fl = true -> streaming_encoder dict fl look = Some e ->
  Forall bytes_ok chunks -> Forall (fun c => zlen dict + zlen c <= int32_max) chunks ->
  encode_stream e chunks = Some (e', r, out) -> zlen out <= 6 * zlen (concat chunks) + 4 * zlen chunks + 1.
Proof.
  intros dict fl look e chunks e' r out B L J SE BC LC H.
  destruct (streaming_encoder_ok dict fl look B L) as (en & EN & SE'). rewrite SE in SE'. injection SE' as ->. clear SE.
  pose proof (zlen_nonneg _ chunks). pose proof (zlen_nonneg _ (concat chunks)).
  unfold encode_stream in H. destruct (start_encoding (new_encoder en fl look)) as [[[e1 r1] o1]|] eqn:E1; [|discriminate H].
  pose proof (json_call_short _ en dict EStart e1 r1 o1 (new_json_short en fl look J) EN E1) as K1.
  assert (o1 = []) as ->.
  { destruct (new_json_short en fl look J) as (_ & j & CO & _). unfold start_encoding in E1. rewrite CO in E1. cbn [coder_init] in E1.
    destruct (negb _); injection E1 as _ _ <-; reflexivity. }
  destruct r1; [|injection H as _ _ <-; rewrite zlen_nil; lia].
  destruct (encode_chunks e1 chunks []) as [[[e2 r2] o2]|] eqn:E2; [|discriminate H].
  destruct (json_chunks_short chunks e1 en dict [] e2 r2 o2 K1 EN BC LC E2) as [(_ & j2 & C2 & _) A2]. rewrite zlen_nil in A2.
  destruct r2; [|injection H as _ _ <-; lia].
  unfold finish_encoding in H. rewrite C2 in H. cbn [coder_finish] in H.
  assert (zlen (json_finish j2) <= 1) as FJ by (unfold json_finish; destruct (jw_called j2); cbv; discriminate).
  destruct (negb (ec_allowed e2)); injection H as _ _ <-; rewrite zlen_app; [rewrite zlen_nil; lia|lia].
Qed.
Print Assumptions C26_json_stream_partial.

(** The bound of the binary formats does not hold for it, nor any other fixed overhead: a
    control character takes six. *)
Lemma plan_no_dict : forall T b l T', genuine_plan false [] T b l T' -> T = T' \/ exists d, l = [Add d] /\ T' = T ++ d.
Proof.
  intros T b l T' H. induction H as [T b|T d l T' ND G IH|T b a n T1 l T' N C X G IH].
  - left. reflexivity.
  - right. exists d. inversion G as [? ?|? ? ? ? ? ?|? ? a n T1 l1 T2 N C X G']; subst; [auto|]. exfalso. rewrite zlen_nil in C. destruct C as [C|[C _]]; [lia|discriminate C].
  - exfalso. rewrite zlen_nil in C. destruct C as [C|[C _]]; [lia|discriminate C].
Qed.

Lemma escape_ones : forall n, zlen (json_escape (repeat 1 n)) = 6 * Z.of_nat n.
Proof.
  induction n as [|n IH]; [reflexivity|]. cbn [repeat]. unfold json_escape in *. cbn [flat_map]. rewrite zlen_app, IH.
  change (zlen (json_escape_byte 1)) with 6. lia.
Qed.

Theorem C26_json_refuted : forall k, 0 <= k <= 100000000 -> exists data e e' out,
  ascii data /\ zlen data = k + 1 /\
  streaming_encoder [] {| fl_interleaved := false; fl_checksum := false; fl_json := true |} false = Some e /\
  encode_stream e [data] = Some (e', true, out) /\ zlen out = 6 * zlen data + 4 /\ zlen data + k < zlen out.
Proof.
  intros k K. set (n := Z.to_nat (k + 1)). exists (repeat 1 n).
  set (fl := {| fl_interleaved := false; fl_checksum := false; fl_json := true |}).
  destruct (streaming_encoder_ok [] fl false) as (en & EN & SE); [constructor|rewrite zlen_nil; cbv; discriminate|].
  assert (ascii (repeat 1 n)) as A by (apply Forall_forall; intros x X; apply repeat_spec in X; subst x; lia).
  assert (zlen (repeat 1 n) = k + 1) as LN.
  { change (repeat 1 n) with (zrepeat 1 (k + 1)). apply zlen_zrepeat. lia. }
  exists (new_encoder en fl false).
  assert (repeat 1 n <> []) as NE by (intros E; rewrite E, zlen_nil in LN; lia).
  destruct (engine_encode_ok en [] false (repeat 1 n) EN (ascii_bytes _ A) NE) as (l & EE & GP); [rewrite zlen_nil; unfold int32_max; lia|].
  destruct (plan_no_dict _ _ _ _ GP) as [E|(d & -> & E)]; [congruence|]. cbn [app] in E. subst d.
  unfold encode_stream. rewrite (json_start (new_encoder en fl false) [] new_json_writer EN eq_refl). cbn [is_ascii forallb].
  cbn [encode_chunks]. unfold encode_chunk. cbn [set_coder ec_allowed ec_coder ec_flags ec_engine ec_look new_encoder new_custom_encoder negb fl_checksum fl].
  cbn [coder_verify]. rewrite (proj2 (is_ascii_ok _ (ascii_bytes _ A)) A). cbn [negb]. rewrite EE.
  cbn [coder_calls coder_output fold_left json_call]. unfold json_output, json_add, json_append.
  unfold finish_encoding. cbn [set_coder ec_allowed ec_coder coder_finish negb json_init jw_out jw_called jw_added json_comma].
  unfold json_finish, json_comma. cbn [jw_called jw_added].
  do 2 eexists. split; [exact A|]. split; [exact LN|]. split; [exact SE|]. split; [reflexivity|].
  rewrite !zlen_app, escape_ones. change (zlen [91]) with 1. change (zlen [34]) with 1. change (zlen [93]) with 1. rewrite zlen_nil.
  assert (Z.of_nat n = k + 1) as -> by (unfold n; lia). rewrite LN. lia.
Qed.
Print Assumptions C26_json_refuted.

(** A chunk after other calls: two control characters, a quote, and what matches. *)
Definition c26_text : list Z := map (fun k => 65 + Z.of_nat k) (seq 0 40).
Example C26_json_case :
  match streaming_encoder c26_text {| fl_interleaved := false; fl_checksum := false; fl_json := true |} true with
  | Some e => match do_ecalls e [EStart; EChunk [65]] with
      | Some (e1, _) => match encode_chunk e1 ([1; 2; 34] ++ c26_text) with
          | Some (_, true, out) => zlen out = 22
          | _ => False end
      | None => False end
  | None => False end.
Proof. vm_compute. reflexivity. Qed.
