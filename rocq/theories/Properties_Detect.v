(** C49: what checksums detect. *)

From Verif Require Import Base ListFacts Spec SpecEncode Varint CodeTable Decoder Usable Stream Session Reuse Files Sound Unique Chunked Engine EngineFacts Encoder EncodeTable EncoderFacts
  Properties_Stream Properties_Decode Properties_Encode Properties_Long Detect.
From Coq Require Import ZifyBool ZifyNat.

(** Two strings of bytes of the same length that differ, but only at one or two
    positions less than 65521 apart, have different checksums. *)
Theorem C49_small_errors : forall l l', bytes_ok l -> bytes_ok l' ->
  zlen l = zlen l' -> l <> l' ->
  (exists i j, i <= j < i + 65521 /\ forall k, get l k <> get l' k -> k = i \/ k = j) ->
  adler_sum 0 l <> adler_sum 0 l'.
Proof. intros l l' B B' L N X. apply adler_small_error; auto. split; auto. Qed.
Print Assumptions C49_small_errors.

(** The length of the output does not depend on the dictionary: when a delta is
    accepted with two dictionaries, in whatever pieces and with whatever settings of
    the decoder, both results have the same length. *)
Theorem C49_same_length : forall d dict pieces out d' dict' pieces' out',
  idle_plain d -> idle_plain d' -> bytes_ok dict -> bytes_ok dict' -> Forall bytes_ok pieces -> Forall bytes_ok pieces' ->
  concat pieces = concat pieces' ->
  decode_stream d dict pieces = Some (true, out) -> decode_stream d' dict' pieces' = Some (true, out') ->
  zlen out = zlen out'.
Proof.
  intros d dict pieces out d' dict' pieces' out' IP IP' BD BD' F F' E A B.
  apply stream_sound in A; auto. apply stream_sound in B; auto. rewrite <- E in B. eapply file_like; eauto.
Qed.
Print Assumptions C49_same_length.

(** Chunks and what a wrong dictionary makes of them. *)
Definition undetected (fl : flags) (c o : list Z) : Prop :=
  zlen o = zlen c /\ (fl_checksum fl = true -> adler_sum 0 o = adler_sum 0 c /\ ~ small_error c o).

Lemma windows_grow_app : forall t tl f dict ok prev ws out, windows t tl f dict ok prev ws out -> exists more, out = prev ++ more.
Proof. induction 1 as [prev|prev w T rest out W K R [m ->]]; [exists []; rewrite app_nil_r; reflexivity|]. exists (T ++ m). rewrite app_assoc. reflexivity. Qed.

Lemma chunks_match : forall chunks e dict im w f out, einv e dict im w f -> ec_allowed e = true -> Forall (chunk_fits dict) chunks ->
  exists w' ws, encode_chunks e chunks out = Some (set_coder e (Binary w') true, true, out ++ ws) /\ bytes_ok ws /\
    forall t tl f' dict' ok prev out', same_format f f' -> (fl_checksum (ec_flags e) = true -> f_ext f = true) ->
      bytes_ok dict' -> bytes_ok prev -> windows t tl f' dict' ok prev ws out' ->
      exists outs, out' = prev ++ concat outs /\ Forall2 (undetected (ec_flags e)) chunks outs.
Proof.
  induction chunks as [|c chunks IH]; intros e dict im w f out E AL F; cbn [encode_chunks].
  - exists w, []. assert (set_coder e (Binary w) true = e) as -> 
      by (pose proof (ei_coder _ _ _ _ _ E) as CO; destruct e; cbn in *; subst; reflexivity).
    rewrite app_nil_r. split; [reflexivity|]. split; [constructor|]. intros t tl f' dict' ok prev out' SF X BD BP H.
    apply windows_nil in H. subst. exists []. cbn [concat]. rewrite app_nil_r. split; [reflexivity|constructor].
  - inversion F as [|? ? (B & L & L2) F']; subst.
    destruct (encode_chunk_ok e dict im w f c [] E AL B L L2) as (w1 & o1 & -> & E1 & _ & BO & C).
    destruct (IH (set_coder e (Binary w1) true) dict im w1 f (out ++ o1) E1 eq_refl F') as (w2 & ws & -> & BW & M).
    exists w2, (o1 ++ ws). split; [rewrite <- app_assoc; reflexivity|]. split; [apply bytes_ok_app; auto|].
    cbn [set_coder ec_flags] in M. intros t tl f' dict' ok prev out' SF X BD BP H. destruct C as [[-> ->]|(NE & WN & _ & HB & _)].
    + cbn [app] in H. destruct (M _ _ _ _ _ _ _ SF X BD BP H) as (outs & -> & F2). exists ([] :: outs). split; [reflexivity|]. constructor; [|exact F2].
      split; [reflexivity|]. intros _. split; [reflexivity|]. intros (_ & N & _). congruence.
    + remember (o1 ++ ws) as x. destruct H as [prev|prev w' T' rest' out' W' K' R'].
      * symmetry in Heqx. apply app_eq_nil in Heqx as [-> _]. apply window_ne in WN. congruence.
      * destruct (window_like _ _ _ _ _ _ _ _ _ _ _ _ _ _ SF WN W' (eq_sym Heqx)) as (-> & -> & LT & CK).
        pose proof (window_bytes _ _ _ _ _ _ W' BO BD BP) as BT.
        destruct (M _ _ _ _ _ _ _ SF X BD (proj2 (bytes_ok_app prev T') (conj BP BT)) R') as (outs & -> & F2).
        exists (T' :: outs). split; [cbn [concat]; rewrite app_assoc; reflexivity|]. constructor; [|exact F2].
        split; [lia|]. intros FC. specialize (CK (X FC)). rewrite HB, FC in CK. specialize (CK eq_refl).
        split; [congruence|]. intros SE. exact (adler_small_error _ _ B BT SE CK).
Qed.

(** A delta decoded with a wrong dictionary.  The encoder had [dict], the decoder has
    [dict'].  If all calls succeed, the output is divided into parts that correspond to the
    chunks given to EncodeChunk; each has the length of its chunk, and, when the
    encoder wrote checksums, the same checksum, so that it does not differ from the
    chunk in just one byte, or in just two bytes less than 65521 apart. *)
Theorem C49_wrong_dictionary : forall dict dict' chunks fl look d,
  bytes_ok dict -> bytes_ok dict' -> Forall bytes_ok chunks -> fl_json fl = false ->
  zlen dict <= 2147483647 -> Forall (chunk_size_ok dict) chunks ->
  idle_plain d ->
  exists e e' delta, streaming_encoder dict fl look = Some e /\ encode_stream e chunks = Some (e', true, delta) /\
    forall pieces out, concat pieces = delta -> decode_stream d dict' pieces = Some (true, out) ->
    exists outs, out = concat outs /\ Forall2 (fun c o => zlen o = zlen c /\
      (fl_checksum fl = true -> adler_sum 0 o = adler_sum 0 c /\ ~ small_error c o)) chunks outs.
Proof.
  intros dict dict' chunks fl look d BD BD' F J L L2 IP. pose proof (zlen_nonneg _ dict). pose proof (zlen_nonneg _ (concat chunks)).
  destruct (streaming_encoder_ok dict fl look BD) as (en & EN & SE); [exact L|].
  destruct (new_encoder_inv en dict fl look (target_allowed d) EN) as (im & EI); [exact L|exact J|].
  assert (Forall (chunk_fits dict) chunks) as FI by (apply chunks_size_ok; auto).
  unfold encode_stream. destruct (start_encoding_ok _ dict im _ _ EI) as (c & _ & ST & E1).
  destruct (chunks_match chunks _ dict im _ _ (write_header fl) E1 eq_refl FI) as (w2 & ws & EC & BW & M).
  do 3 eexists. split; [exact SE|]. rewrite ST. cbn [new_encoder new_custom_encoder ec_flags set_coder] in *.
  rewrite EC. unfold finish_encoding. cbn [set_coder ec_allowed negb ec_coder coder_finish]. rewrite app_nil_r. split; [reflexivity|].
  intros pieces out EP DS. destruct (write_header_bytes fl) as [HB _].
  assert (Forall bytes_ok pieces) as FP. { apply bytes_ok_concat. rewrite EP. apply bytes_ok_app. auto. }
  apply stream_sound in DS; auto. rewrite EP, header_of in DS by exact J.
  assert (head strict strict (file_header (version_of fl) 0) (version_of fl) rfc_table 4 3) as HD.
  { constructor; auto; [|unfold byte_ok; lia]. unfold version_of. destruct (_ || _); auto. }
  remember (file_header (version_of fl) 0 ++ ws) as x. destruct DS as [|h v tbl ns ss ws' out HD' MF WS]; [discriminate|].
  destruct (head_inj _ _ _ _ _ _ _ HD _ _ _ _ _ _ _ _ _ HD' (eq_sym Heqx)) as (<- & <- & <- & <- & <- & <-).
  refine (M _ _ _ dict' _ [] out _ _ BD' _ WS).
  - unfold same_format. cbn. repeat split; auto; lia.
  - cbn [file_format f_ext]. unfold version_of. intros ->. rewrite orb_true_r. reflexivity.
  - constructor.
Qed.
Print Assumptions C49_wrong_dictionary.

(** Three bytes are enough to go unnoticed: [1;2;3] and [2;0;4] have the same sums, so
    the checksum does not tell dictionaries apart that differ in this way. *)
Definition plain_dict : list Z := map Z.of_nat (seq 0 40).
Definition wrong_by (d1 d2 d3 : Z) : list Z := map (fun k => k + if k =? 11 then d1 else if k =? 12 then d2 else if k =? 13 then d3 else 0) plain_dict.
Definition with_checksum : flags := {| fl_interleaved := false; fl_checksum := true; fl_json := false |}.
Definition decoded_with (dict : list Z) : option (bool * list Z) :=
  match streaming_encoder plain_dict with_checksum true with
  | Some e => match encode_stream e [plain_dict] with Some (_, true, delta) => decode_stream new_decoder dict [delta] | _ => None end
  | None => None
  end.
Theorem C49_always_refuted : exists dict dict' chunk fl out,
  bytes_ok dict /\ bytes_ok dict' /\ bytes_ok chunk /\ fl_checksum fl = true /\
  match streaming_encoder dict fl true with
  | Some e => match encode_stream e [chunk] with Some (_, true, delta) => decode_stream new_decoder dict' [delta] = Some (true, out) | _ => False end
  | None => False
  end /\ out <> chunk.
Proof.
  exists plain_dict, (wrong_by 1 (-2) 1), plain_dict, with_checksum, (wrong_by 1 (-2) 1).
  split; [apply bytes_okb_ok; reflexivity|]. split; [apply bytes_okb_ok; reflexivity|]. split; [apply bytes_okb_ok; reflexivity|]. split; [reflexivity|].
  split; [vm_compute; reflexivity|]. vm_compute. discriminate.
Qed.
Print Assumptions C49_always_refuted.

(** One wrong byte, two wrong bytes with opposite errors, and none. *)
Example C49_case :
  decoded_with (wrong_by 1 0 0) = Some (false, []) /\ decoded_with (wrong_by 1 (-1) 0) = Some (false, []) /\ decoded_with (wrong_by 0 0 0) = Some (true, plain_dict) /\
  small_error plain_dict (wrong_by 1 (-1) 0) /\ adler_sum 0 plain_dict <> adler_sum 0 (wrong_by 1 (-1) 0).
Proof.
  assert (small_error plain_dict (wrong_by 1 (-1) 0)) as SE.
  { split; [vm_compute; reflexivity|]. split; [vm_compute; discriminate|]. exists 11, 12. split; [lia|]. intros k G.
    destruct (Z.eq_dec k 11); [auto|]. destruct (Z.eq_dec k 12); [auto|]. exfalso. apply G.
    destruct (Z_lt_le_dec k 0) as [K|K]; [transitivity (@None Z); [apply get_none; lia|symmetry; apply get_none; lia]|].
    destruct (Z_lt_le_dec k 40) as [K'|K'].
    - assert (forallb (fun i => (i =? 11) || (i =? 12) || match get plain_dict i, get (wrong_by 1 (-1) 0) i with Some a, Some b => a =? b | _, _ => false end) (map Z.of_nat (seq 0 40)) = true) as C by (vm_compute; reflexivity).
      rewrite forallb_forall in C. specialize (C k).
      assert (In k (map Z.of_nat (seq 0 40))) as I. { apply in_map_iff. exists (Z.to_nat k). split; [lia|]. apply in_seq. lia. }
      specialize (C I). destruct (get plain_dict k), (get (wrong_by 1 (-1) 0) k); try lia. f_equal. lia.
    - transitivity (@None Z); [apply get_none; change (zlen plain_dict) with 40; lia|symmetry; apply get_none; change (zlen (wrong_by 1 (-1) 0)) with 40; lia]. }
  split; [vm_compute; reflexivity|]. split; [vm_compute; reflexivity|]. split; [vm_compute; reflexivity|]. split; [exact SE|].
  apply adler_small_error; [apply bytes_okb_ok; reflexivity|apply bytes_okb_ok; reflexivity|exact SE].
Qed.
