(** C76: What a delta does depends on the length of the dictionary; the content of the
    dictionary only fills in the copied bytes.

    The specification is SpecTemplate.v: a list of [origin]s says, for each byte of the
    target, that the delta gives it or at which position of the dictionary it stands. *)

From Verif Require Import Base ListFacts Spec SpecEncode SpecTemplate CopyFacts Varint AddrCache CodeTable InstructionMap CodeTableFacts BodyFacts
  EncodeTable WriterFacts Engine EngineFacts JsonWriter Encoder EncoderFacts Sound Decoder Usable Stream Session Reuse Files
  Template TemplateSpec Properties_Stream Properties_Decode Properties_Encode.
From Coq Require Import ZifyBool ZifyNat.

(** ** Any bytes, any decoder *)

(** For every decoder, every length of the dictionary and every sequence of calls there
    is one outcome: undefined, or a result and the origins of the bytes that are
    delivered. It is the outcome for every dictionary of that length when the delta is
    not of the SDCH format. When it is, the only other possibility is that the delta is
    refused, with the first few of those bytes delivered (C16 says that a checksum is the
    reason; see also C76_checked). *)
Theorem C76_template : forall d n chunks, 0 <= n -> Forall bytes_ok chunks ->
  exists r : option (bool * list origin),
    match r with Some (_, t) => Forall (fun o => match o with At p => 0 <= p < n | Given _ => True end) t | None => True end /\
    forall dict, zlen dict = n ->
      (~ sdch (concat chunks) -> decode_stream d dict chunks = match r with Some (ok, t) => Some (ok, filled dict t) | None => None end) /\
      (decode_stream d dict chunks = match r with Some (ok, t) => Some (ok, filled dict t) | None => None end \/
       exists t, decode_stream d dict chunks = Some (false, filled dict t) /\
         match r with Some (_, t') => exists u, t' = t ++ u | None => True end).
Proof.
  intros [c k] n chunks N F. destruct (d_started c) eqn:ST.
  { (* a decoder that has started ignores the dictionary *)
    exists (match decode_stream (Dec c k) [] chunks with Some (ok, o) => Some (ok, map Given o) | None => None end).
    assert (forall dict o, filled dict (map Given o) = o) as FG.
    { intros dict o. unfold filled. rewrite map_map. apply map_id. }
    split; [destruct (decode_stream _ _ _) as [[ok o]|]; [|exact Logic.I]; apply Forall_map, Forall_forall; intros; exact Logic.I|].
    intros dict _. assert (decode_stream (Dec c k) dict chunks = decode_stream (Dec c k) [] chunks) as ->.
    { unfold decode_stream. cbn [start_decoding]. rewrite ST. reflexivity. }
    destruct (decode_stream (Dec c k) [] chunks) as [[ok o]|]; [rewrite FG|]; auto. }
  set (R := decode_stream_nc (Dec c k) (codes n) chunks).
  assert (forall f, keeps_bytes f -> decode_stream_nc (Dec c k) (map f (codes n)) chunks =
            match R with Some (ok, o) => Some (ok, map f o) | None => None end) as NAT.
  { intros f KF. apply decode_stream_nc_map; [exact ST|]. eapply Forall_impl; [|exact F]. intros l B. apply keeps_fixed; assumption. }
  exists (match R with Some (ok, o) => Some (ok, map origin_of o) | None => None end). split.
  - set (f := fun x => if (x <? 0) || (256 + n <=? x) then 0 else x).
    assert (map f (codes n) = codes n) as EF.
    { rewrite <- map_id. apply map_ext_in. intros x IN. pose proof (codes_valid n N) as V. rewrite Forall_forall in V. specialize (V x IN).
      unfold valid in V. unfold f. destruct (Z.ltb_spec x 0); [lia|]. destruct (Z.leb_spec (256 + n) x); [lia|reflexivity]. }
    specialize (NAT f). rewrite EF in NAT. fold R in NAT. destruct R as [[ok o]|]; [|exact Logic.I].
    assert (map f o = o) as EO.
    { assert (Some (ok, o) = Some (ok, map f o)) as E; [|congruence]. apply NAT. intros b B. unfold byte_ok in B. unfold f.
      destruct (Z.ltb_spec b 0); [lia|]. destruct (Z.leb_spec (256 + n) b); [lia|reflexivity]. }
    clear NAT. apply Forall_map. rewrite <- EO. apply Forall_map, Forall_forall. intros x _. unfold f, origin_of.
    destruct (Z.ltb_spec x 0); cbn [orb]; [exact Logic.I|]. destruct (Z.leb_spec (256 + n) x); [exact Logic.I|]. destruct (Z.ltb_spec x 256); [exact Logic.I|lia].
  - intros dict L. specialize (NAT (value dict) (value_keeps dict)). rewrite (value_codes dict n L) in NAT.
    assert (match (match R with Some (ok, o) => Some (ok, map origin_of o) | None => None end) with Some (ok, t) => Some (ok, filled dict t) | None => None end =
            decode_stream_nc (Dec c k) dict chunks) as ->.
    { rewrite NAT. destruct R as [[ok o]|]; [|reflexivity]. rewrite filled_value. reflexivity. }
    split.
    + intros NS. apply decode_stream_calm; [exact ST|]. intros ind tl E. apply NS. exists ind, tl. exact E.
    + destruct (decode_stream_either (Dec c k) dict chunks) as [E|(o & E & B)]; [left; exact E|right].
      rewrite NAT in B. destruct R as [[ok o']|].
      * destruct B as (x & B). apply map_eq_app in B as (l1 & l2 & -> & E1 & E2). exists (map origin_of l1).
        split; [rewrite filled_value, E1; exact E|]. exists (map origin_of l2). apply map_app.
      * exists (map Given o). split; [|exact Logic.I]. unfold filled. rewrite map_map, map_id. exact E.
Qed.
Print Assumptions C76_template.

(** ** Deltas in a format with checksums *)

(** A file that is valid for one dictionary, and that the decoder takes, is taken with
    every dictionary of the same length for which the windows with a checksum have the
    sums that they have with the first one. The windows without one are not compared
    with anything. *)
Theorem C76_checked : forall t d dict delta parts,
  idle_plain d -> bytes_ok dict -> bytes_ok delta -> ~ bad_cache delta -> t_slack t = false ->
  vcd_file_marked t t (target_allowed d) (within (max_window d) (max_file d)) dict delta parts ->
  zlen delta <= int32_max -> zlen dict <= int32_max -> zlen (concat (map snd parts)) <= int32_max ->
  zlen dict + zlen (concat (map snd parts)) <= int32_max + 1 ->
  exists ts : list (bool * list origin),
    Forall (fun m => Forall (origin_ok (zlen dict)) (snd m)) ts /\
    parts = map (fun m => (fst m, filled dict (snd m))) ts /\
    forall dict' pieces, bytes_ok dict' -> zlen dict' = zlen dict -> concat pieces = delta ->
      Forall (fun m => fst m = true -> adler_sum 0 (filled dict' (snd m)) = adler_sum 0 (filled dict (snd m))) ts ->
      decode_stream d dict' pieces = Some (true, concat (map (fun m => filled dict' (snd m)) ts)).
Proof.
  intros t d dict delta parts IP BD BX NB SL VF L1 L2 L3 L4. pose proof (zlen_nonneg _ dict) as ZD.
  assert (exists tts, Forall (fun p => Forall (valid (zlen dict)) (snd p)) tts /\
      parts = map (fun p => (fst p, map (value dict) (snd p))) tts /\
      forall dict', zlen dict' = zlen dict ->
        Forall (fun p => fst p = true -> adler_sum 0 (map (value dict') (snd p)) = adler_sum 0 (map (value dict) (snd p))) tts ->
        vcd_file_marked t t (target_allowed d) (within (max_window d) (max_file d)) dict' delta (map (fun p => (fst p, map (value dict') (snd p))) tts))
    as (tts & V & EP & A).
  { inversion VF as [E1 E2|h v tbl ns ss ws parts' HD MF WS E1 E2].
    - exists []. split; [constructor|]. split; [reflexivity|]. intros dict' _ _. constructor.
    - assert (bytes_ok ws) as BW. { rewrite <- E1 in BX. apply bytes_ok_app in BX. tauto. }
      rewrite <- (value_codes dict (zlen dict) eq_refl) in WS.
      destruct (windows_lift (value dict) (value_keeps dict) (valid (zlen dict)) (fun b => bytes_valid (zlen dict) b ZD) t t (file_format v tbl ns ss (target_allowed d)) (codes (zlen dict))
                  (within (max_window d) (max_file d))) with (prev0 := @nil Z) (ws := ws) (parts := parts) (prev := @nil Z) as (tts & EP & V & A); auto.
      + intros p T p' T' Q1 Q2 [W1 W2]. unfold within. rewrite <- Q1, <- Q2. auto.
      + apply codes_valid. exact ZD.
      + exists tts. split; [exact V|]. split; [exact EP|]. intros dict' LE FA. econstructor; [exact HD|exact MF|].
        rewrite <- (value_codes dict' (zlen dict) LE) at 1. apply (A (value dict')); [apply value_keeps|exact FA]. }
  assert (forall D, map (fun p => map (value D) (snd p)) tts = map (fun m => filled D (snd m)) (map (fun p => (fst p, map origin_of (snd p))) tts)) as MF.
  { intros D. rewrite map_map. apply map_ext. intros [b l]. cbn [fst snd]. rewrite filled_value. reflexivity. }
  exists (map (fun p => (fst p, map origin_of (snd p))) tts). split; [|split].
  - apply Forall_map. eapply Forall_impl; [|exact V]. intros [b l] VV. cbn [fst snd] in *. apply valid_origin. exact VV.
  - rewrite EP, map_map. apply map_ext. intros [b l]. cbn [fst snd]. rewrite filled_value. reflexivity.
  - intros dict' pieces BD' LE CP FA. subst delta. rewrite <- MF.
    assert (zlen (concat (map (fun p => map (value dict') (snd p)) tts)) = zlen (concat (map snd parts))) as LC.
    { rewrite EP, map_map. cbn [snd]. clear. induction tts as [|p l IH]; [reflexivity|]. cbn [map concat]. rewrite !zlen_app, !zlen_map. lia. }
    apply C05_decoder_complete with (t := t); auto; rewrite ?LC, ?LE; auto.
    + apply bytes_ok_concat. exact BX.
    + rewrite Forall_map in FA. assert (map (fun p => map (value dict') (snd p)) tts = map snd (map (fun p => (fst p, map (value dict') (snd p))) tts)) as ->
        by (rewrite map_map; apply map_ext; intros; reflexivity).
      apply file_marked_plain. apply A; [exact LE|]. eapply Forall_impl; [|exact FA]. intros [b l] Q. cbn [fst snd] in *. rewrite !filled_value in Q. exact Q.
Qed.
Print Assumptions C76_checked.

(** ** The deltas that the encoder writes *)

Lemma encode_chunks_marked : forall chunks e dict im w f (ok : list Z -> list Z -> Prop) prev out, einv e dict im w f -> ec_allowed e = true ->
  (fl_checksum (ec_flags e) = true -> f_ext f = true) ->
  Forall (chunk_fits dict) chunks ->
  (forall pre c post, chunks = pre ++ c :: post -> c <> [] -> ok (prev ++ concat pre) c) ->
  exists w' ws, encode_chunks e chunks out = Some (set_coder e (Binary w') true, true, out ++ ws) /\
    windows_marked strict strict f dict ok prev ws
      (map (fun c => (fl_checksum (ec_flags e), c)) (filter (fun c => match c with [] => false | _ => true end) chunks)).
Proof.
  induction chunks as [|c chunks IH]; intros e dict im w f ok prev out E AL FX F OK; cbn [encode_chunks].
  - exists w, []. assert (set_coder e (Binary w) true = e) as ->
      by (pose proof (ei_coder _ _ _ _ _ E) as CO; destruct e; cbn in *; subst; reflexivity).
    rewrite app_nil_r. split; [reflexivity|]. constructor.
  - inversion F as [|? ? (B & L & L2) F']; subst.
    destruct (encode_chunk_ok e dict im w f c prev E AL B L L2) as (w1 & o1 & -> & E1 & _ & BO & C).
    destruct (IH (set_coder e (Binary w1) true) dict im w1 f ok (prev ++ c) (out ++ o1) E1 eq_refl FX F') as (w2 & ws & -> & WS).
    { intros pre c' post EQ NE. rewrite <- app_assoc. change (c ++ concat pre) with (concat (c :: pre)). apply (OK (c :: pre) c' post); [rewrite EQ; reflexivity|exact NE]. }
    change (ec_flags (set_coder e (Binary w1) true)) with (ec_flags e) in WS.
    exists w2, (o1 ++ ws). split; [rewrite <- app_assoc; reflexivity|]. destruct C as [[-> ->]|(NE & WN & LN & HH & _)].
    + cbn [app filter] in *. rewrite app_nil_r in WS. exact WS.
    + assert (filter (fun c => match c with [] => false | _ => true end) (c :: chunks) = c :: filter (fun c => match c with [] => false | _ => true end) chunks) as ->
        by (destruct c; [congruence|reflexivity]).
      cbn [map]. assert (fl_checksum (ec_flags e) = f_ext f && Z.testbit (hd 0 o1) 2) as MK.
      { rewrite HH. destruct (fl_checksum (ec_flags e)) eqn:K; [rewrite (FX eq_refl); reflexivity|]. destruct (f_ext f); reflexivity. }
      rewrite MK at 1. apply wm_cons; [destruct ws; exact WN| |exact WS].
      specialize (OK [] c chunks eq_refl NE). cbn [concat] in OK. rewrite app_nil_r in OK. exact OK.
Qed.

Lemma encode_stream_marked : forall e dict im w fl allow (ok : list Z -> list Z -> Prop) chunks, einv e dict im w (file_format (version_of fl) rfc_table 4 3 allow) ->
  ec_flags e = fl -> fl_json fl = false -> Forall (chunk_fits dict) chunks ->
  (forall pre c post, chunks = pre ++ c :: post -> c <> [] -> ok (concat pre) c) ->
  exists e' delta, encode_stream e chunks = Some (e', true, delta) /\
    vcd_file_marked strict strict allow ok dict delta
      (map (fun c => (fl_checksum fl, c)) (filter (fun c => match c with [] => false | _ => true end) chunks)).
Proof.
  intros e dict im w fl allow ok chunks E FL J F OK. unfold encode_stream.
  destruct (start_encoding_ok e dict im w _ E) as (c & _ & -> & E1).
  destruct (encode_chunks_marked chunks _ dict im _ _ ok [] (write_header (ec_flags e)) E1 eq_refl) as (w2 & ws & -> & WS); [|exact F|exact OK|].
  { cbn [set_coder ec_flags]. rewrite FL. intros K. cbn [file_format f_ext]. unfold version_of. rewrite K, orb_true_r. reflexivity. }
  cbn [set_coder ec_flags] in WS. unfold finish_encoding. cbn [set_coder ec_allowed negb ec_coder coder_finish]. do 2 eexists. split; [reflexivity|].
  rewrite app_nil_r. rewrite FL, header_of in * by exact J.
  assert (head strict strict (file_header (version_of fl) 0) (version_of fl) rfc_table 4 3) as HD.
  { constructor; auto; [|unfold byte_ok; lia]. unfold version_of. destruct (_ || _); auto. }
  eapply fm_intro; [destruct ws; exact HD|right; lia|exact WS].
Qed.

(** What the encoder wrote for one dictionary decodes with every dictionary of the same
    length, unless it was asked for checksums; what comes out agrees with the target
    wherever the delta gives the byte, and elsewhere is what stands in the dictionary at
    hand. With checksums, it decodes if the sums agree. *)
Theorem C76_encoder : forall dict chunks fl look d,
  bytes_ok dict -> Forall bytes_ok chunks -> fl_json fl = false ->
  zlen dict + zlen (concat chunks) <= int32_max -> zlen (concat chunks) + 53 * zlen chunks + 5 <= int32_max ->
  idle_plain d -> Forall (fun c => zlen c <= max_window d) chunks -> zlen (concat chunks) <= max_file d ->
  exists e e' delta, streaming_encoder dict fl look = Some e /\ encode_stream e chunks = Some (e', true, delta) /\
    exists ts : list (list origin),
      Forall (Forall (origin_ok (zlen dict))) ts /\
      map (filled dict) ts = filter (fun c => match c with [] => false | _ => true end) chunks /\
      forall dict' pieces, bytes_ok dict' -> zlen dict' = zlen dict -> concat pieces = delta ->
        (fl_checksum fl = true -> Forall (fun t => adler_sum 0 (filled dict' t) = adler_sum 0 (filled dict t)) ts) ->
        decode_stream d dict' pieces = Some (true, concat (map (filled dict') ts)).
Proof.
  intros dict chunks fl look d BD F J L L2 IP MW MF. pose proof (zlen_nonneg _ dict). pose proof (zlen_nonneg _ (concat chunks)).
  destruct (streaming_encoder_ok dict fl look BD) as (en & EN & SE); [lia|].
  destruct (new_encoder_inv en dict fl look (target_allowed d) EN) as (im & EI); [lia|exact J|].
  assert (Forall (chunk_fits dict) chunks) as FC by (apply fitting; auto).
  pose proof (chunks_within _ _ chunks MW MF) as CW.
  destruct (stream_file _ dict im _ fl (target_allowed d) (within (max_window d) (max_file d)) chunks EI eq_refl J FC CW) as (w' & delta & ES & _ & BO & _ & NC & LD).
  destruct (encode_stream_marked _ dict im _ fl (target_allowed d) (within (max_window d) (max_file d)) chunks EI eq_refl J FC CW) as (e' & delta' & ES' & VF).
  assert (delta' = delta) as -> by congruence. do 3 eexists. split; [exact SE|]. split; [exact ES|].
  set (ne := filter (fun c => match c with [] => false | _ => true end) chunks) in *.
  assert (concat (map snd (map (fun c => (fl_checksum fl, c)) ne)) = concat chunks) as EC.
  { rewrite map_map. cbn [snd]. rewrite map_id. unfold ne. clear. induction chunks as [|[|b c] l IH]; cbn [filter concat app]; [reflexivity|exact IH|].
    rewrite IH. reflexivity. }
  destruct (C76_checked strict d dict delta _ IP BD BO (no_code_table_bad _ NC) eq_refl VF) as (ts & OR & EP & A); try (rewrite ?EC; lia).
  assert (map (fun m => filled dict (snd m)) ts = ne) as EN1.
  { transitivity (map snd (map (fun m => (fst m, filled dict (snd m))) ts)); [rewrite map_map; reflexivity|]. rewrite <- EP, map_map. cbn [snd]. apply map_id. }
  assert (Forall (fun m => fst m = fl_checksum fl) ts) as MK.
  { assert (Forall (fun m : bool * list Z => fst m = fl_checksum fl) (map (fun m => (fst m, filled dict (snd m))) ts)) as Q
      by (rewrite <- EP; apply Forall_map, Forall_forall; intros; reflexivity).
    rewrite Forall_map in Q. exact Q. }
  exists (map snd ts). split; [apply Forall_map; exact OR|]. split; [rewrite map_map; exact EN1|].
  intros dict' pieces BD' LE CP CK. rewrite map_map. apply A; auto. rewrite Forall_forall in *. intros m IN Q.
  specialize (MK m IN). rewrite Q in MK. specialize (CK (eq_sym MK)). apply CK. apply in_map. exact IN.
Qed.
Print Assumptions C76_encoder.

(** ** Cases *)

(** "hello!" made from "hello": the same delta with the dictionary "HELLO" yields
    "HELLO!", and nothing is detected. *)
Definition shout : list Z := [72;69;76;76;79].
Example C76_case_unchecked :
  decode_stream new_decoder ex_dict [hello_delta] = Some (true, filled ex_dict [At 0; At 1; At 2; At 3; At 4; Given 33]) /\
  decode_stream new_decoder shout [hello_delta] = Some (true, filled shout [At 0; At 1; At 2; At 3; At 4; Given 33]) /\
  filled ex_dict [At 0; At 1; At 2; At 3; At 4; Given 33] = [104;101;108;108;111;33] /\
  filled shout [At 0; At 1; At 2; At 3; At 4; Given 33] = [72;69;76;76;79;33].
Proof. vm_compute. auto. Qed.

(** The delta is refused with both dictionaries, at the same place. *)
Example C76_case_refused :
  decode_stream new_decoder ex_dict [hello_delta; [1;9]] = Some (false, filled ex_dict [At 0; At 1; At 2; At 3; At 4; Given 33]) /\
  decode_stream new_decoder shout [hello_delta; [1;9]] = Some (false, filled shout [At 0; At 1; At 2; At 3; At 4; Given 33]).
Proof. vm_compute. auto. Qed.

(** With a checksum, the other dictionary is refused; a dictionary of another length is
    refused even without one when the segment does not fit. *)
Definition c76_checked : list Z := [214;195;196;83;0; 5;5;0; 13;6;0;1;2;1; 194;240;132;53; 33; 21;2; 0].
Example C76_case_checked :
  decode_stream new_decoder ex_dict [c76_checked] = Some (true, [104;101;108;108;111;33]) /\
  decode_stream new_decoder shout [c76_checked] = Some (false, []) /\
  decode_stream new_decoder [72;69;76;76] [hello_delta] = Some (false, []).
Proof. vm_compute. auto. Qed.

(** An encoder without checksums, both formats, with a dictionary that it copies from. *)
Definition c76_dict : list Z := [1;2;3;4;5;6;7;8;9;10;11;12;13;14;15;16;17;18;19;20;21;22;23;24;25;26;27;28;29;30;31;32;33;34;35;36;37;38;39;40].
Definition c76_text : list Z := [1;2;3;4;5;6;7;8;9;10;11;12;13;14;15;16;17;18;19;20;21;22;23;24;25;26;27;28;29;30;31;32;33;34;35;36;37;38;39;40;250;251].
Example C76_case_encoder :
  Forall (fun il => match streaming_encoder c76_dict (flags_of il false) false with
    | Some e => match encode_stream e [c76_text] with
        | Some (_, true, delta) =>
            decode_stream new_decoder (rev c76_dict) [delta] = Some (true, rev c76_dict ++ [250;251])
        | _ => False end
    | None => False end) [false; true].
Proof. apply Forall_cons; [vm_compute; reflexivity|]. apply Forall_cons; [vm_compute; reflexivity|]. apply Forall_nil. Qed.
