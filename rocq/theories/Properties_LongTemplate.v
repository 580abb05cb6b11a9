(** C76 for files and streams of any length. *)

From Verif Require Import Base ListFacts Spec SpecEncode SpecLong SpecTemplate SpecLongTemplate CopyFacts Varint AddrCache CodeTable InstructionMap CodeTableFacts BodyFacts
  EncodeTable WriterFacts Engine EngineFacts JsonWriter Encoder EncoderFacts Sound Decoder Usable Stream Session Reuse Files
  Template TemplateSpec LongStream Properties_Stream Properties_Decode Properties_Encode Properties_Template Properties_Long.
From Coq Require Import ZifyBool ZifyNat.

Lemma marked_each_plain : forall t tl f D ok prev ws parts, windows_marked_each t tl f D ok prev ws parts ->
  windows_each t tl f D ok prev ws (prev ++ concat (map snd parts)).
Proof.
  intros t tl f D ok prev ws parts H. induction H as [prev|prev w T rest parts W OK H IH]; cbn [map concat snd].
  - rewrite app_nil_r. constructor.
  - econstructor; eauto. rewrite <- app_assoc in IH. exact IH.
Qed.

Lemma windows_each_lift : forall phi, keeps_bytes phi -> forall P : Z -> Prop, (forall b, byte_ok b -> P b) ->
  forall t tl f D (ok : list Z -> list Z -> list Z -> Prop),
  (forall p w T p' T', zlen p = zlen p' -> zlen T = zlen T' -> ok p w T -> ok p' w T') -> Forall P D ->
  forall prev0 ws parts, windows_marked_each t tl f (map phi D) ok prev0 ws parts ->
  forall prev, prev0 = map phi prev -> bytes_ok ws -> Forall P prev ->
  exists tts, parts = map (fun p => (fst p, map phi (snd p))) tts /\ Forall (fun p => Forall P (snd p)) tts /\
    forall psi, keeps_bytes psi -> Forall (fun p => fst p = true -> adler_sum 0 (map psi (snd p)) = adler_sum 0 (map phi (snd p))) tts ->
      windows_marked_each t tl f (map psi D) ok (map psi prev) ws (map (fun p => (fst p, map psi (snd p))) tts).
Proof.
  intros phi K P PB t tl f D ok BL PD prev0 ws parts H. induction H as [prev0|prev0 w T0 rest parts W OK H IH]; intros prev -> BW PP.
  - exists []. split; [reflexivity|]. split; [constructor|]. intros psi KP _. constructor.
  - apply bytes_ok_app in BW as [B1 B2]. destruct (window_lift phi K P PB _ _ _ _ _ _ W B1 PD PP) as (T & -> & PT & W').
    destruct (IH (prev ++ T)) as (tts & -> & PTS & IH'); [rewrite map_app; reflexivity|exact B2|apply Forall_app; auto|].
    exists ((f_ext f && Z.testbit (hd 0 w) 2, T) :: tts). split; [reflexivity|]. split; [constructor; [exact PT|exact PTS]|].
    intros psi KP F. inversion F as [|? ? F1 F2]; subst. cbn [map fst snd] in *. apply me_cons.
    + apply W'; auto.
    + eapply BL; [| |exact OK]; rewrite !zlen_map; reflexivity.
    + rewrite <- map_app. apply IH'; auto.
Qed.

(** As C76_checked, with the bound of 2^31 on each window instead of on the whole file
    (see C82): a file that the decoder takes with one dictionary is taken with every
    dictionary of the same length for which the windows with a checksum have the same
    sums. *)
Theorem C76_checked_long : forall t d dict h v tbl ns ss ws parts,
  idle_plain d -> bytes_ok dict -> zlen dict <= 2147483647 -> t_slack t = false ->
  head t t h v tbl ns ss -> modes_fit ns ss ws -> zlen h <= 2147483647 ->
  windows_marked_each t t (file_format v tbl ns ss (target_allowed d)) dict
    (fun prev w T => window_sized dict (within (max_window d) (max_file d)) prev w T /\ target_segment_low w T) [] ws parts ->
  bytes_ok (h ++ ws) -> ~ bad_cache (h ++ ws) ->
  exists ts : list (bool * list origin),
    Forall (fun m => Forall (origin_ok (zlen dict)) (snd m)) ts /\
    parts = map (fun m => (fst m, filled dict (snd m))) ts /\
    forall dict' pieces, bytes_ok dict' -> zlen dict' = zlen dict -> concat pieces = h ++ ws ->
      Forall (fun m => fst m = true -> adler_sum 0 (filled dict' (snd m)) = adler_sum 0 (filled dict (snd m))) ts ->
      decode_stream d dict' pieces = Some (true, concat (map (fun m => filled dict' (snd m)) ts)).
Proof.
  intros t d dict h v tbl ns ss ws parts IP BD ZD SL HD MF ZH WS BX NB. pose proof (zlen_nonneg _ dict) as ZP.
  assert (bytes_ok ws) as BW by (apply bytes_ok_app in BX; tauto).
  set (ok := fun prev w T => window_sized dict (within (max_window d) (max_file d)) prev w T /\ target_segment_low w T) in *.
  rewrite <- (value_codes dict (zlen dict) eq_refl) in WS.
  destruct (windows_each_lift (value dict) (value_keeps dict) (valid (zlen dict)) (fun b => bytes_valid (zlen dict) b ZP) t t
              (file_format v tbl ns ss (target_allowed d)) (codes (zlen dict)) ok) with (prev0 := @nil Z) (ws := ws) (parts := parts) (prev := @nil Z)
    as (tts & EP & V & A); auto.
  { intros p w T p' T' Q1 Q2 [[[W1 W2] W3] W4]. unfold ok, window_sized, within, target_segment_low in *. rewrite <- Q1, <- Q2. auto. }
  { apply codes_valid. exact ZP. }
  assert (forall D, map (fun p => map (value D) (snd p)) tts = map (fun m => filled D (snd m)) (map (fun p => (fst p, map origin_of (snd p))) tts)) as FM.
  { intros D. rewrite map_map. apply map_ext. intros [b l]. cbn [fst snd]. rewrite filled_value. reflexivity. }
  exists (map (fun p => (fst p, map origin_of (snd p))) tts). split; [|split].
  - apply Forall_map. eapply Forall_impl; [|exact V]. intros [b l] VV. cbn [fst snd] in *. apply valid_origin. exact VV.
  - rewrite EP, map_map. apply map_ext. intros [b l]. cbn [fst snd]. rewrite filled_value. reflexivity.
  - intros dict' pieces BD' LE CP FA. rewrite <- FM.
    apply (C82_decoder_target t d dict' h v tbl ns ss ws); auto; try lia.
    + rewrite Forall_map in FA. specialize (A (value dict') (value_keeps dict')). rewrite (value_codes dict' (zlen dict) LE) in A.
      assert (windows_marked_each t t (file_format v tbl ns ss (target_allowed d)) dict' ok (map (value dict') []) ws (map (fun p => (fst p, map (value dict') (snd p))) tts)) as WM.
      { apply A. eapply Forall_impl; [|exact FA]. intros [b l] Q. cbn [fst snd] in *. rewrite !filled_value in Q. exact Q. }
      apply marked_each_plain in WM. cbn [map app] in WM. rewrite map_map in WM. cbn [snd] in WM.
      eapply windows_each_weaken; [|exact WM]. intros p w T [W1 W2]. split; [|exact W2]. unfold window_sized in *. rewrite LE. exact W1.
    + apply bytes_ok_concat. rewrite CP. exact BX.
    + rewrite CP. exact NB.
Qed.
Print Assumptions C76_checked_long.

Lemma encode_chunks_marked_each : forall chunks e dict im w f (ok : list Z -> list Z -> list Z -> Prop) prev out, einv e dict im w f -> ec_allowed e = true ->
  (fl_checksum (ec_flags e) = true -> f_ext f = true) ->
  Forall (chunk_fits dict) chunks ->
  (forall pre c post o, chunks = pre ++ c :: post -> c <> [] -> zlen o <= zlen c + 53 -> Z.testbit (hd 0 o) 1 = false -> ok (prev ++ concat pre) o c) ->
  exists w' ws, encode_chunks e chunks out = Some (set_coder e (Binary w') true, true, out ++ ws) /\ bytes_ok ws /\
    windows_marked_each strict strict f dict ok prev ws
      (map (fun c => (fl_checksum (ec_flags e), c)) (filter (fun c => match c with [] => false | _ => true end) chunks)).
Proof.
  induction chunks as [|c chunks IH]; intros e dict im w f ok prev out E AL FX F OK; cbn [encode_chunks].
  - exists w, []. assert (set_coder e (Binary w) true = e) as ->
      by (pose proof (ei_coder _ _ _ _ _ E) as CO; destruct e; cbn in *; subst; reflexivity).
    rewrite app_nil_r. split; [reflexivity|]. split; constructor.
  - inversion F as [|? ? (B & L & L2) F']; subst.
    destruct (encode_chunk_ok e dict im w f c prev E AL B L L2) as (w1 & o1 & -> & E1 & _ & BO & C).
    destruct (IH (set_coder e (Binary w1) true) dict im w1 f ok (prev ++ c) (out ++ o1) E1 eq_refl FX F') as (w2 & ws & -> & BW & WS).
    { intros pre c' post o EQ NE. rewrite <- app_assoc. change (c ++ concat pre) with (concat (c :: pre)). apply (OK (c :: pre) c' post); [rewrite EQ; reflexivity|exact NE]. }
    change (ec_flags (set_coder e (Binary w1) true)) with (ec_flags e) in WS.
    exists w2, (o1 ++ ws). split; [rewrite <- app_assoc; reflexivity|]. split; [apply bytes_ok_app; auto|]. destruct C as [[-> ->]|(NE & WN & LN & HH & _)].
    + cbn [app filter] in *. rewrite app_nil_r in WS. exact WS.
    + assert (filter (fun c => match c with [] => false | _ => true end) (c :: chunks) = c :: filter (fun c => match c with [] => false | _ => true end) chunks) as ->
        by (destruct c; [congruence|reflexivity]).
      cbn [map]. assert (fl_checksum (ec_flags e) = f_ext f && Z.testbit (hd 0 o1) 2) as MK.
      { rewrite HH. destruct (fl_checksum (ec_flags e)) eqn:K; [rewrite (FX eq_refl); reflexivity|]. destruct (f_ext f); reflexivity. }
      rewrite MK at 1. apply me_cons; [destruct ws; exact WN| |exact WS].
      assert (Z.testbit (hd 0 o1) 1 = false) as T1 by (rewrite HH; destruct (fl_checksum (ec_flags e)); reflexivity).
      specialize (OK [] c chunks o1 eq_refl NE LN T1). cbn [concat] in OK. rewrite app_nil_r in OK. exact OK.
Qed.

(** As C76_encoder, without a bound on the length of the stream. *)
Theorem C76_encoder_long : forall dict chunks fl look d,
  bytes_ok dict -> zlen dict <= 2147483647 -> Forall bytes_ok chunks -> Forall (chunk_size_ok dict) chunks -> fl_json fl = false ->
  idle_plain d -> Forall (fun c => zlen c <= max_window d) chunks -> zlen (concat chunks) <= max_file d ->
  exists e e' delta, streaming_encoder dict fl look = Some e /\ encode_stream e chunks = Some (e', true, delta) /\
    exists ts : list (list origin),
      Forall (Forall (origin_ok (zlen dict))) ts /\
      map (filled dict) ts = filter (fun c => match c with [] => false | _ => true end) chunks /\
      forall dict' pieces, bytes_ok dict' -> zlen dict' = zlen dict -> concat pieces = delta ->
        (fl_checksum fl = true -> Forall (fun t => adler_sum 0 (filled dict' t) = adler_sum 0 (filled dict t)) ts) ->
        decode_stream d dict' pieces = Some (true, concat (map (filled dict') ts)).
Proof.
  intros dict chunks fl look d BD ZD F G J IP MW MF.
  destruct (streaming_encoder_ok dict fl look BD) as (en & EN & SE); [exact ZD|].
  destruct (new_encoder_inv en dict fl look (target_allowed d) EN) as (im & EI); [exact ZD|exact J|].
  set (ok := fun prev w T => window_sized dict (within (max_window d) (max_file d)) prev w T /\ target_segment_low w T).
  destruct (start_encoding_ok _ dict im _ _ EI) as (c & _ & SO & E1).
  assert (ec_flags (new_encoder en fl look) = fl) as FL by reflexivity.
  destruct (encode_chunks_marked_each chunks _ dict im _ _ ok [] (write_header (ec_flags (new_encoder en fl look))) E1 eq_refl) as (w2 & ws & EC & BW & WS).
  { cbn [set_coder ec_flags]. rewrite FL. intros K. cbn [file_format f_ext]. unfold version_of. rewrite K, orb_true_r. reflexivity. }
  { apply chunks_size_ok; auto. }
  { intros pre c' post o EQ NE LN T1. split; [split; [apply (chunks_within _ _ chunks MW MF pre c' post EQ NE)|]|].
    - assert (In c' chunks) as IN by (rewrite EQ; apply in_or_app; right; left; reflexivity).
      rewrite Forall_forall in G. destruct (G c' IN). unfold int32_max. lia.
    - intros ind b1 len b2 pos r -> TB. cbn [app hd] in T1. congruence. }
  cbn [set_coder ec_flags] in WS. rewrite FL in *.
  assert (exists e', encode_stream (new_encoder en fl look) chunks = Some (e', true, write_header fl ++ ws)) as (e' & ES).
  { unfold encode_stream. rewrite SO, EC. unfold finish_encoding. cbn [set_coder ec_allowed negb ec_coder coder_finish].
    rewrite app_nil_r. eexists. reflexivity. }
  do 3 eexists. split; [exact SE|]. split; [exact ES|].
  destruct (write_header_bytes fl) as [HB HL]. rewrite header_of in * by exact J.
  set (ne := filter (fun c => match c with [] => false | _ => true end) chunks) in *.
  destruct (C76_checked_long strict d dict (file_header (version_of fl) 0) (version_of fl) rfc_table 4 3 ws
              (map (fun c => (fl_checksum fl, c)) ne)) as (ts & OR & EP & A); auto.
  { constructor; auto; [|unfold byte_ok; lia]. unfold version_of. destruct (_ || _); auto. }
  { right. lia. }
  { rewrite HL. lia. }
  { apply bytes_ok_app. auto. }
  { apply no_code_table_bad. intros v ind tl EQ. injection EQ as _ <- _. reflexivity. }
  assert (map (fun m => filled dict (snd m)) ts = ne) as EN1.
  { transitivity (map snd (map (fun m => (fst m, filled dict (snd m))) ts)); [rewrite map_map; reflexivity|]. rewrite <- EP, map_map. cbn [snd]. apply map_id. }
  assert (Forall (fun m => fst m = fl_checksum fl) ts) as MK.
  { assert (Forall (fun m : bool * list Z => fst m = fl_checksum fl) (map (fun m => (fst m, filled dict (snd m))) ts)) as Q
      by (rewrite <- EP; apply Forall_map, Forall_forall; intros; reflexivity).
    rewrite Forall_map in Q. exact Q. }
  exists (map snd ts). split; [apply Forall_map; exact OR|]. split; [rewrite map_map; exact EN1|].
  intros dict' pieces BD' LE CP CK. rewrite map_map. apply A; auto. rewrite Forall_forall in *. intros m IN Q.
  specialize (MK m IN). rewrite Q in MK. specialize (CK (eq_sym MK)). apply CK. apply in_map. exact IN.
Qed.
Print Assumptions C76_encoder_long.

(** The 2480000000 bytes of C82_case, here without checksums, and the dictionary with its
    bytes in the opposite order. *)
Example C76_long_case : forall interleaved, exists chunks, zlen (concat chunks) = 2480000000 /\
  exists e e' delta, streaming_encoder c01_dict (flags_of interleaved false) true = Some e /\ encode_stream e chunks = Some (e', true, delta) /\
    exists ts, map (filled c01_dict) ts = filter (fun c => match c with [] => false | _ => true end) chunks /\
      forall pieces, concat pieces = delta -> decode_stream c82_decoder (rev c01_dict) pieces = Some (true, concat (map (filled (rev c01_dict)) ts)).
Proof.
  intros interleaved. exists (zrepeat c01_target 20000000).
  assert (zlen c01_target = 124) as ZC by (vm_compute; reflexivity).
  assert (zlen c01_dict = 60) as ZD by (vm_compute; reflexivity).
  assert (bytes_ok c01_target) as BT by (apply bytes_okb_ok; vm_compute; reflexivity).
  assert (max_window c82_decoder = 67108864 /\ max_file c82_decoder = 4000000000) as [MW MF] by (vm_compute; split; reflexivity).
  pose proof (zlen_copies c01_target 20000000 ltac:(lia)) as ZA. rewrite ZC in ZA.
  set (chunks := zrepeat c01_target 20000000) in *.
  assert (forall P : list Z -> Prop, P c01_target -> Forall P chunks) as ALL by (intros P; apply all_copies).
  clearbody chunks. split; [lia|].
  destruct (C76_encoder_long c01_dict chunks (flags_of interleaved false) true c82_decoder) as (e & e' & delta & SE & ES & ts & _ & FT & A).
  - apply bytes_okb_ok. vm_compute. reflexivity.
  - lia.
  - apply ALL. exact BT.
  - apply ALL. unfold chunk_size_ok. lia.
  - destruct interleaved; reflexivity.
  - apply ip_max_file; [constructor|]. unfold size_max. lia.
  - apply ALL. lia.
  - lia.
  - exists e, e', delta. split; [exact SE|]. split; [exact ES|]. exists ts. split; [exact FT|]. intros pieces EP. apply A; [| |exact EP|].
    + apply bytes_okb_ok. vm_compute. reflexivity.
    + vm_compute. reflexivity.
    + intros Q. destruct interleaved; discriminate Q.
Qed.
