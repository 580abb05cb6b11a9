(** C56: the exit status of the command line tool when reading or writing fails. *)

From Verif Require Import Base ListFacts Spec SpecEncode EncodeTable Engine EngineFacts Encoder EncoderFacts Decoder Usable Stream Session Reuse Files Sound Unique Chunked Cli CliFacts
  Properties_Stream Properties_Decode Properties_Encode Properties_Long Properties_Cli Stdio StdioFacts Windows Cli.
From Coq Require Import ZifyBool ZifyNat.

(** A file that contains [C], if it can be opened: its size is reported right or not
    at all; the bytes that can be read are [C], or the first bytes of [C] if a read
    error comes after them. *)
Definition backs (f : option rfile) (C : list Z) : Prop :=
  match f with
  | None => True
  | Some f =>
      (rf_size f = None \/ rf_size f = Some (zlen C)) /\ rf_eof f = false /\ rf_err f = false /\
      (if rf_bad f then exists q, C = rf_rest f ++ q else rf_rest f = C)
  end.

Lemma backs_prefix : forall f C, backs (Some f) C -> exists q, C = rf_rest f ++ q.
Proof. intros f C (_ & _ & _ & H). destruct (rf_bad f); [exact H|exists []; rewrite app_nil_r; auto]. Qed.

Lemma dictionary_io : forall f C dict, backs f C -> open_dictionary_io f = Some dict -> dict = C.
Proof.
  intros [f|] C dict H O; [|discriminate]. pose proof (backs_prefix f C H) as (q & EC). destruct H as (SZ & _). cbn [open_dictionary_io] in O.
  destruct SZ as [SZ|SZ]; rewrite SZ in O; [discriminate|]. destruct (Z.ltb_spec 0 (zlen C)) as [L|L].
  - unfold fread_io in O. destruct (Z.eqb_spec (zlen C) 0); [lia|].
    destruct (Z.eqb_spec (zlen (ztake (zlen C) (rf_rest f))) (zlen C)) as [E|E]; [|discriminate]. injection O as <-.
    pose proof (zlen_nonneg _ (rf_rest f)). rewrite zlen_ztake in E by lia.
    assert (zlen C = zlen (rf_rest f) + zlen q) as Q by (rewrite EC at 1; apply zlen_app). pose proof (zlen_nonneg _ q).
    assert (q = []) as -> by (apply zlen_0_nil; lia). rewrite app_nil_r in EC. subst C. apply ztake_all. lia.
  - injection O as <-. pose proof (zlen_nonneg _ C). symmetry. apply zlen_0_nil. lia.
Qed.

Lemma reading_io : forall f C std B inp buf, backs f C -> 0 <= B -> open_for_reading_io f std B = Some (inp, buf) ->
  f = Some inp /\ 0 <= buf <= B /\ (buf = B \/ buf = zlen C).
Proof.
  intros [f|] C std B inp buf H LB O; [|discriminate]. cbn [open_for_reading_io] in O. destruct H as (SZ & _).
  destruct std; [injection O as <- <-; split; [reflexivity|lia]|].
  destruct SZ as [SZ|SZ]; rewrite SZ in O; [discriminate|]. injection O as <- <-. pose proof (zlen_nonneg _ C).
  destruct (Z.ltb_spec (zlen C) B); (split; [reflexivity|lia]).
Qed.

(** ** Decode *)

(** If the tool reports success and fclose reported no error, the whole target is on
    the device.  Whatever happens, what is on the device is a beginning of the target.
    Missing: success alone should be enough. *)
Theorem C56_decode_partial : forall fuel v s dictf deltaf opens dict delta ok disk failed,
  bytes_ok dict -> bytes_ok delta -> backs dictf dict -> backs deltaf delta -> honest v ->
  0 < s_buffersize s -> 0 <= s_max_file s <= size_max -> 0 <= s_max_window s <= size_max ->
  decode_io fuel v s dictf deltaf opens = IExit ok (disk, failed) ->
  (ok = true -> exists pieces out, concat pieces = delta /\ decode_stream (cli_decoder s) dict pieces = Some (true, out) /\
     (exists q, out = disk ++ q) /\ (failed = false -> disk = out)) /\
  (forall out, decode_stream (cli_decoder s) dict [delta] = Some (true, out) -> exists q, out = disk ++ q).
Proof.
  intros fuel v s dictf deltaf opens dict delta ok disk failed BD BX KD KX HV LB MF MW H. unfold decode_io in H.
  pose proof (cli_decoder_plain s MF MW) as IP. pose proof (idle_plain_idle _ IP) as [ID _].
  assert (leave_early = IExit ok (disk, failed) ->
    (ok = true -> exists pieces out, concat pieces = delta /\ decode_stream (cli_decoder s) dict pieces = Some (true, out) /\
     (exists q, out = disk ++ q) /\ (failed = false -> disk = out)) /\
    (forall out, decode_stream (cli_decoder s) dict [delta] = Some (true, out) -> exists q, out = disk ++ q)) as EARLY.
  { intros L. injection L as <- <- <-. split; [discriminate|]. intros out _. exists out. reflexivity. }
  destruct (open_dictionary_io dictf) as [dict'|] eqn:OD; [|exact (EARLY H)]. apply (dictionary_io _ dict) in OD as ->; [|exact KD].
  destruct (open_for_reading_io deltaf _ _) as [[inp buf]|] eqn:OR; [|exact (EARLY H)].
  destruct (reading_io _ delta _ _ _ _ KX (Z.lt_le_incl _ _ LB) OR) as (-> & LBF & _).
  destruct opens; cbn [negb] in H; [|exact (EARLY H)]. clear EARLY OR.
  destruct (backs_prefix _ _ KX) as (q & EX). destruct KX as (_ & E1 & E2 & KX).
  destruct (decode_io_ok _ _ _ _ _ _ _ _ (proj1 LBF) E1 E2 H) as (chunks & rest & d2 & o & f & Q1 & Q2 & Q3 & (q2 & Q4) & Q5).
  unfold handed at 1 in Q4. unfold handed at 2 in Q5. cbn [wf_disk wf_buf app] in Q4, Q5. symmetry in Q3. destruct (close_handed _ _ _ _ Q3) as [(q' & P1) P2]. split.
  - intros OK. destruct (Q5 OK) as (-> & NB & FN & HD). rewrite HD in P1, P2. rewrite NB in KX. rewrite app_nil_r in Q1. exists chunks, o. split; [congruence|].
    unfold decode_stream. rewrite Q2. rewrite FN. split; [reflexivity|]. split; [exists q'; exact P1|]. auto.
  - intros out DS. unfold decode_stream in DS. destruct (decode_chunks (start_decoding (cli_decoder s) dict) [delta] []) as [[[d3 [|]] o3]|] eqn:DC; try discriminate.
    injection DS as FN <-. rewrite EX, Q1, <- app_assoc in DC, BX.
    destruct (C11_prefix_output _ _ _ _ _ _ ID BD BX DC) as (out' & tail & -> & ALL).
    apply bytes_ok_app in BX as [BX _]. destruct (ALL chunks (bytes_ok_concat _ BX) eq_refl) as (d' & DC').
    assert (out' = o) as -> by congruence. exists (q' ++ q2 ++ tail). rewrite Q4, P1, <- !app_assoc. reflexivity.
Qed.
Print Assumptions C56_decode_partial.

(** The result of fclose is not used, so the status can be success with nothing on the
    device.  The device is full; the target of two bytes is in the buffer of the C
    library until fclose. *)
Definition full_device : device :=
  {| de_write := fun _ _ => (0, None); de_close := fun _ pending => (0, 0 <? zlen pending) |}.
Definition good_file (C : list Z) : option rfile :=
  Some {| rf_size := Some (zlen C); rf_rest := C; rf_bad := false; rf_eof := false; rf_err := false |}.
Definition bad_file (n : Z) (C : list Z) : option rfile :=
  Some {| rf_size := Some (zlen C); rf_rest := ztake n C; rf_bad := true; rf_eof := false; rf_err := false |}.
(** A device with room for [room] bytes, and a buffer of [size] bytes; what does not fit
    is lost. *)
Definition small_device (room size : Z) : device :=
  let put := fun (disk pending : list Z) => let k := Z.min (zlen pending) (room - zlen disk) in (k, k <? zlen pending) in
  {| de_write := fun disk pending => if zlen pending <? size then (0, None) else let '(k, failed) := put disk pending in (k, if failed then Some 0 else None); de_close := put |}.
Definition c56_settings : settings :=
  {| s_dictionary := [100]; s_target := [116]; s_delta := [120]; s_buffersize := 4; s_allow_vcd_target := true; s_checksum := false; s_interleaved := false;
     s_json := false; s_target_matches := true; s_max_file := 1000; s_max_window := 1000 |}.
Definition c56_delta : list Z := [214;195;196;0;0; 1;0;0;8;2;0;2;1;0;65;66;3].

Lemma full_honest : honest full_device.
Proof. intros disk pending H. cbn in *. destruct (Z.ltb_spec 0 (zlen pending)); [discriminate|lia]. Qed.
Lemma small_honest : forall room size, honest (small_device room size).
Proof. intros room size disk pending H. cbn in *. destruct (Z.ltb_spec (Z.min (zlen pending) (room - zlen disk)) (zlen pending)); [discriminate|lia]. Qed.
Lemma good_backs : forall C, backs (good_file C) C.
Proof. intros C. cbn. auto. Qed.
Lemma bad_backs : forall n C, backs (bad_file n C) C.
Proof. intros n C. cbn. split; [auto|]. split; [reflexivity|]. split; [reflexivity|]. exists (zdrop n C). symmetry. apply ztake_zdrop. Qed.

Theorem C56_status_refuted : exists v s dictf deltaf dict delta fuel disk failed,
  honest v /\ backs dictf dict /\ backs deltaf delta /\ 0 < s_buffersize s /\
  decode_stream (cli_decoder s) dict [delta] = Some (true, [65;66]) /\
  decode_io fuel v s dictf deltaf true = IExit true (disk, failed) /\ disk = [].
Proof.
  exists full_device, c56_settings, (good_file []), (good_file c56_delta), [], c56_delta, 10%nat, [], true.
  split; [exact full_honest|]. split; [apply good_backs|]. split; [apply good_backs|]. split; [reflexivity|].
  split; [vm_compute; reflexivity|]. split; [vm_compute; reflexivity|reflexivity].
Qed.
Print Assumptions C56_status_refuted.

(** A device with enough room; one that is full after one byte and says so; one
    that is full after one byte when the last buffer is written; a delta that cannot be
    read to the end. *)
Example C56_decode_case :
  decode_io 10 (small_device 100 1) c56_settings (good_file []) (good_file c56_delta) true = IExit true ([65;66], false) /\
  decode_io 10 (small_device 1 1) c56_settings (good_file []) (good_file c56_delta) true = IExit false ([65], false) /\
  decode_io 10 (small_device 1 100) c56_settings (good_file []) (good_file c56_delta) true = IExit true ([65], true) /\
  decode_io 10 (small_device 100 1) c56_settings (good_file []) (bad_file 14 c56_delta) true = IExit false ([], false) /\
  decode_io 10 (small_device 100 1) c56_settings (bad_file 1 [1;2]) (good_file c56_delta) true = IExit false ([], false).
Proof. split; [|split; [|split; [|split]]]; vm_compute; reflexivity. Qed.

(** ** Encode *)

Definition c56_flags (s : settings) : flags :=
  {| fl_interleaved := s_interleaved s; fl_checksum := s_checksum s; fl_json := s_json s |}.

(** What is on the device is always a beginning of the delta of a beginning of the
    target.  If the tool reports success and fclose reported no error, the delta on the
    device decodes to the target.  Missing: success alone should be enough. *)
Theorem C56_encode_partial : forall fuel v s dictf targetf opens dict T ok disk failed,
  bytes_ok dict -> bytes_ok T -> backs dictf dict -> backs targetf T -> honest v ->
  0 < s_buffersize s -> s_json s = false ->
  zlen dict + Z.min (zlen T) (s_buffersize s) <= 2147483647 -> Z.min (zlen T) (s_buffersize s) + 53 <= 2147483647 ->
  encode_io fuel v s dictf targetf opens = IExit ok (disk, failed) ->
  (exists chunks rest e e' delta q, T = concat chunks ++ rest /\
     streaming_encoder dict (c56_flags s) (s_target_matches s) = Some e /\ encode_stream e chunks = Some (e', true, delta) /\ delta = disk ++ q) /\
  (ok = true -> failed = false -> forall d pieces, idle_plain d -> Z.min (zlen T) (s_buffersize s) <= max_window d -> zlen T <= max_file d ->
     concat pieces = disk -> decode_stream d dict pieces = Some (true, T)).
Proof.
  intros fuel v s dictf targetf opens dict T ok disk failed BD BT KD KT HV LB J L1 L2 H. unfold encode_io in H.
  pose proof (zlen_nonneg _ dict) as ND. pose proof (zlen_nonneg _ T) as NT.
  destruct (streaming_encoder_ok dict (c56_flags s) (s_target_matches s) BD ltac:(unfold int32_max; lia)) as (en & EN & SE).
  destruct (new_encoder_inv en dict (c56_flags s) (s_target_matches s) true EN ltac:(unfold int32_max; lia) J) as (im & EI).
  destruct (start_encoding_ok _ dict im _ _ EI) as (c & _ & ST & EI1).
  assert (IExit false ([] : list Z, false) = IExit ok (disk, failed) \/ disk = [] /\ ok = false ->
    (exists chunks rest e e' delta q, T = concat chunks ++ rest /\
       streaming_encoder dict (c56_flags s) (s_target_matches s) = Some e /\ encode_stream e chunks = Some (e', true, delta) /\ delta = disk ++ q) /\
    (ok = true -> failed = false -> forall d pieces, idle_plain d -> Z.min (zlen T) (s_buffersize s) <= max_window d -> zlen T <= max_file d ->
       concat pieces = disk -> decode_stream d dict pieces = Some (true, T))) as EARLY.
  { intros L. assert (disk = [] /\ ok = false) as [-> ->] by (destruct L as [L|L]; [injection L as <- <- <-; auto|exact L]).
    split; [|discriminate]. exists [], T, (new_encoder en (c56_flags s) (s_target_matches s)). unfold encode_stream. rewrite ST. cbn [encode_chunks].
    unfold finish_encoding. cbn [set_coder ec_allowed negb ec_coder coder_finish]. do 3 eexists. split; [reflexivity|]. split; [exact SE|].
    split; [reflexivity|reflexivity]. }
  destruct (open_dictionary_io dictf) as [dict'|] eqn:OD; [|exact (EARLY (or_introl H))]. apply (dictionary_io _ dict) in OD as ->; [|exact KD].
  destruct (open_for_reading_io targetf _ _) as [[inp buf]|] eqn:OR; [|exact (EARLY (or_introl H))].
  destruct (reading_io _ T _ _ _ _ KT (Z.lt_le_incl _ _ LB) OR) as (-> & LBF & BB).
  destruct opens; cbn [negb] in H; [|exact (EARLY (or_introl H))]. clear EARLY OR.
  unfold streaming_encoder in SE. destruct (engine_init (new_engine dict)) as [[en' [|]]|] eqn:EG; try discriminate.
  assert (en' = en) as -> by (unfold new_encoder, new_custom_encoder in SE; congruence).
  assert (streaming_encoder dict (c56_flags s) (s_target_matches s) = Some (new_encoder en (c56_flags s) (s_target_matches s))) as SE'
    by (unfold streaming_encoder; rewrite EG; reflexivity).
  fold (c56_flags s) in H. cbv zeta in H. rewrite ST in H.
  destruct (backs_prefix _ _ KT) as (q & ET). destruct KT as (_ & E1 & E2 & KT).
  destruct (encode_io_ok _ _ _ _ _ _ _ _ _ (proj1 LBF) E1 E2 H) as (chunks & rest & e2 & o & f & Q1 & Q2 & Q3 & Q4 & Q5 & (q2 & Q6) & Q7).
  unfold handed at 1 in Q6. unfold handed at 2 in Q7. cbn [wf_disk wf_buf app] in Q6, Q7.
  symmetry in Q3. destruct (close_handed _ _ _ _ Q3) as [(q' & P1) P2].
  assert (Forall bytes_ok chunks) as CB.
  { apply bytes_ok_concat. rewrite ET, Q1, <- app_assoc in BT. apply bytes_ok_app in BT. tauto. }
  assert (Forall (fun c => zlen c <= Z.min (zlen T) (s_buffersize s)) chunks) as CM.
  { rewrite Forall_forall in *. intros x IN. specialize (Q4 x IN). assert (zlen x <= zlen T); [|lia].
    apply in_split in IN as (p1 & p2 & Q). rewrite ET, Q1, Q, concat_app. cbn [concat]. rewrite !zlen_app.
    pose proof (zlen_nonneg _ (concat p1)). pose proof (zlen_nonneg _ (concat p2)). pose proof (zlen_nonneg _ rest). pose proof (zlen_nonneg _ q). lia. }
  assert (Forall (chunk_size_ok dict) chunks) as CS.
  { eapply Forall_impl; [|exact CM]. cbv beta. unfold chunk_size_ok. intros. lia. }
  pose proof (chunks_size_ok _ _ CB CS) as CF.
  assert (exists e3, encode_stream (new_encoder en (c56_flags s) (s_target_matches s)) chunks =
    Some (e3, true, write_header (c56_flags s) ++ o ++ snd (finish_encoding e2)) ) as (e3 & ES).
  { unfold encode_stream. rewrite ST, encode_chunks_acc, Q2. 
    destruct (encode_chunks_ok chunks _ dict im _ _ (fun _ _ => True) [] [] EI1 eq_refl) as (w2 & ws & EC & _).
    - exact CF.
    - auto.
    - rewrite Q2 in EC. injection EC as -> _. unfold finish_encoding. cbn [set_coder ec_allowed negb ec_coder coder_finish snd].
      eexists. rewrite <- app_assoc. reflexivity. }
  cbn [new_encoder new_custom_encoder ec_flags] in Q6, Q7. split.
  - exists chunks, (rest ++ q), (new_encoder en (c56_flags s) (s_target_matches s)), e3. do 2 eexists.
    split; [rewrite ET, Q1, <- app_assoc; reflexivity|]. split; [exact SE'|]. split; [exact ES|]. rewrite Q6, P1, <- app_assoc. reflexivity.
  - intros OK NF d pieces IP MW MF EP. destruct (Q7 OK) as (-> & NB & HD). rewrite NB in KT. rewrite app_nil_r in Q1.
    assert (concat chunks = T) as CT by congruence.
    destruct (C82_round_trip dict chunks (c56_flags s) (s_target_matches s) d BD) as (e & e' & delta & A & B & C).
    + lia.
    + exact CB.
    + exact CS.
    + exact J.
    + exact IP.
    + eapply Forall_impl; [|exact CM]. cbv beta. intros. lia.
    + rewrite CT. exact MF.
    + rewrite SE' in A. injection A as <-. rewrite ES in B. injection B as _ <-. rewrite CT in C. apply C.
      rewrite EP, (P2 HV NF), HD. reflexivity.
Qed.
Print Assumptions C56_encode_partial.

Example C56_encode_case :
  encode_io 10 (small_device 100 1) c56_settings (good_file []) (good_file [65;66]) true = IExit true (c56_delta, false) /\
  encode_io 10 (small_device 7 1) c56_settings (good_file []) (good_file [65;66]) true = IExit false (firstn 7 c56_delta, false) /\
  encode_io 10 (small_device 7 100) c56_settings (good_file []) (good_file [65;66]) true = IExit true (firstn 7 c56_delta, true) /\
  encode_io 10 (small_device 100 1) c56_settings (good_file []) (bad_file 1 [65;66]) true = IExit false (firstn 5 c56_delta, false).
Proof. split; [|split; [|split]]; vm_compute; reflexivity. Qed.

(** ** "vcdiff test" *)

(** If "vcdiff test" reports success, the delta that is on the device decodes to the
    target, whatever fwrite and fclose did. *)
Theorem C56_test : forall fuel v s dictf targetf opens reopen dictf2 targetf2 dict T disk failed,
  backs dictf2 dict -> backs targetf2 T -> backs (reopen disk) disk ->
  0 < s_buffersize s ->
  test_io fuel v s dictf targetf opens reopen dictf2 targetf2 = IExit true (disk, failed) ->
  exists pieces, concat pieces = disk /\ decode_stream (cli_decoder s) dict pieces = Some (true, T).
Proof.
  intros fuel v s dictf targetf opens reopen dictf2 targetf2 dict T disk failed KD KT KX LB H. unfold test_io in H.
  destruct (negb (nonempty (s_target s)) || negb (nonempty (s_delta s))); [discriminate|].
  destruct (encode_io fuel v s dictf targetf opens) as [[|] [disk' failed']| |]; try discriminate.
  destruct (compare_io fuel s dictf2 (reopen disk') targetf2) as [ok|] eqn:C; [|discriminate]. injection H as -> -> ->.
  unfold compare_io in C. destruct (open_dictionary_io dictf2) as [dict'|] eqn:OD; [|discriminate]. apply (dictionary_io _ dict) in OD as ->; [|exact KD].
  destruct (open_for_reading_io (reopen disk) _ _) as [[inp buf]|] eqn:OR; [|discriminate].
  destruct (open_for_reading_io targetf2 _ _) as [[orig b]|] eqn:OT; [|discriminate].
  destruct (reading_io _ disk _ _ _ _ KX (Z.lt_le_incl _ _ LB) OR) as (ED & LBF & _). rewrite ED in KX.
  destruct (reading_io _ T _ _ _ _ KT (Z.lt_le_incl _ _ LB) OT) as (ET & _). rewrite ET in KT.
  destruct KX as (_ & X1 & X2 & X3). destruct KT as (_ & T1 & T2 & T3).
  destruct (compare_io_ok _ _ _ _ _ (proj1 LBF) X1 X2 T1 T2 C) as (B1 & B2 & chunks & d2 & C1 & C2 & C3).
  rewrite B1 in X3. rewrite B2 in T3. exists chunks. split; [congruence|]. unfold decode_stream. rewrite C2, C3. congruence.
Qed.
Print Assumptions C56_test.

Example C56_test_case :
  let test v := test_io 10 v c56_settings (good_file []) (good_file [65;66]) true good_file (good_file []) (good_file [65;66]) in
  test (small_device 100 1) = IExit true (c56_delta, false) /\ test (small_device 7 100) = IExit false (firstn 7 c56_delta, true).
Proof. split; vm_compute; reflexivity. Qed.
