(** Properties of the command line tool: C38, C41, C42. *)

From Verif Require Import Base ListFacts Spec SpecEncode Decoder Reuse Stream Session Files Sound EncodeTable Engine EngineFacts Encoder EncoderFacts EncoderCalls
  Properties_Stream Properties_Decode Properties_Encode Cli CliFacts.
From Coq Require Import ZifyBool ZifyNat.

(** ** The state of the files *)

(** Reading the input called [n] (standard input if no name is given) yields [l]. *)
Definition input_is (w : world) (n : name) (l : list Z) : Prop :=
  (n = [] /\ wo_stdin w = l) \/ (n <> [] /\ wo_files w n = Some l).
(** An output called [n] can be opened, and is not one of the inputs [m]. *)
Definition can_write (w : world) (n m : name) : Prop := n = [] \/ (n <> m /\ wo_writable w n = true).
(** From [w] to [w'], [l] has been written to [n] (appended to standard output if
    no name is given), and nothing else has changed. *)
Definition result_is (n : name) (l : list Z) (w w' : world) : Prop :=
  only_wrote n w w' /\ ((n = [] /\ wo_stdout w' = wo_stdout w ++ l) \/ (n <> [] /\ wo_files w' n = Some l)).

Lemma input_content : forall w n l, input_is w n l -> content w n = l.
Proof. intros w [|c n] l [[A B]|[A B]]; try congruence; cbn [content]; [exact B|]. rewrite B. reflexivity. Qed.

Lemma open_reading : forall w n l B, input_is w n l -> 0 < B -> l <> [] \/ n = [] ->
  exists buf, open_for_reading w n B = Some ({| fi_name := n; fi_pos := 0; fi_eof := false |}, buf) /\ 0 < buf <= B /\ (buf = B \/ (buf = zlen l /\ zlen l < B)).
Proof.
  intros w n l B H BB NE. destruct n as [|c n]; cbn [open_for_reading].
  - eexists. split; [reflexivity|lia].
  - destruct H as [[A _]|[_ ->]]; [discriminate|]. eexists. split; [reflexivity|].
    destruct l as [|x l]; [destruct NE; [contradiction|discriminate]|]. rewrite zlen_cons. pose proof (zlen_nonneg _ l).
    destruct (_ <? _) eqn:E; lia.
Qed.

Lemma open_writing : forall w n m, can_write w n m -> exists w1, open_output w n = Some w1 /\ only_wrote n w w1 /\ is_open n w1 /\
  (n <> [] -> output_of w1 n = []) /\ (n = [] -> w1 = w) /\ (n = [] \/ n <> m).
Proof.
  intros w [|c n] m H; cbn [open_output].
  - exists w. split; [reflexivity|]. split; [apply only_wrote_refl|]. split; [left; reflexivity|]. split; [congruence|]. auto.
  - destruct H as [H|[N ->]]; [discriminate|]. eexists. split; [reflexivity|]. split; [|split; [|split]].
    + split; [reflexivity|]. split; [reflexivity|]. split; [|reflexivity]. intros k [K|K]; [|discriminate]. cbn [set_content wo_files].
      rewrite name_eq_neq by exact K. reflexivity.
    + right. cbn [set_content wo_files]. rewrite name_eq_refl. discriminate.
    + intros _. cbn [output_of set_content wo_files]. rewrite name_eq_refl. reflexivity.
    + split; [discriminate|]. auto.
Qed.

Lemma wrote_result : forall n l w w1 w2, only_wrote n w w1 -> (n <> [] -> output_of w1 n = []) -> (n = [] -> w1 = w) ->
  wrote n l w1 w2 -> result_is n l w w2.
Proof.
  intros n l w w1 w2 O E Q (O2 & E2 & P). split; [eapply only_wrote_trans; eauto|]. destruct n as [|c n].
  - left. split; [reflexivity|]. rewrite (Q eq_refl) in E2. exact E2.
  - right. split; [discriminate|]. rewrite E in E2 by discriminate. cbn [app] in E2. cbn [output_of] in E2.
    destruct P as [P|P]; [discriminate|]. destruct (wo_files w2 (c :: n)); congruence.
Qed.

(** ** C38 *)

Lemma cli_decoder_plain : forall s, 0 <= s_max_file s <= size_max -> 0 <= s_max_window s <= size_max -> idle_plain (cli_decoder s).
Proof. intros s A B. unfold cli_decoder. apply ip_allow, ip_max_window; [|exact B]. apply ip_max_file; [|exact A]. apply ip_new. Qed.

(** The limit that --max_target_window_size sets: values above 2^31 - 1 are
    refused by the decoder, and the tool does not look. *)
Definition window_limit (s : settings) : Z := if s_max_window s <=? 2147483647 then s_max_window s else 67108864.
Lemma cli_decoder_limits : forall s, max_window (cli_decoder s) = window_limit s /\ max_file (cli_decoder s) = s_max_file s /\
  target_allowed (cli_decoder s) = s_allow_vcd_target s.
Proof.
  intros s. unfold cli_decoder, window_limit, new_decoder. cbn [set_maximum_target_file_size fst]. unfold set_maximum_target_window_size, kTargetSizeLimit.
  destruct (Z.ltb_spec 2147483647 (s_max_window s)), (Z.leb_spec (s_max_window s) 2147483647); try lia; split; [reflexivity|split; reflexivity|reflexivity|split; reflexivity].
Qed.

Lemma cli_decode_run : forall s w dict delta fuel,
  0 < s_buffersize s -> s_dictionary s <> [] -> wo_files w (s_dictionary s) = Some dict ->
  input_is w (s_delta s) delta -> delta <> [] \/ s_delta s = [] -> can_write w (s_target s) (s_delta s) ->
  zlen delta + 1 < Z.of_nat fuel ->
  exists pieces, concat pieces = delta /\ Forall (fun c => 0 < zlen c <= s_buffersize s) pieces /\
    match decode_stream (cli_decoder s) dict pieces with
    | None => vcdiff fuel CDecode s w = Undefined
    | Some (ok, o) => exists w' o1 o2, vcdiff fuel CDecode s w = Exit ok w' /\ result_is (s_target s) o1 w w' /\ o = o1 ++ o2 /\ (ok = true -> o2 = [])
    end.
Proof.
  intros s w dict delta fuel B SD FD ID NE CW FU. unfold vcdiff. destruct (s_dictionary s) as [|c0 n0] eqn:ED; [congruence|]. cbn [nonempty negb].
  destruct (Z.eqb_spec (s_buffersize s) 0); [lia|]. unfold cli_decode, open_dictionary. rewrite ED, FD.
  destruct (open_reading w _ delta _ ID B NE) as (buf & -> & BB & _).
  destruct (open_writing w _ _ CW) as (w1 & -> & OW & IO & OE & OQ & DN).
  assert (content w1 (s_delta s) = delta) as CD.
  { rewrite (only_wrote_content _ _ _ _ OW); [apply input_content; exact ID|]. destruct DN; auto. }
  set (inp := {| fi_name := s_delta s |}).
  destruct (decode_loop_ok fuel w1 inp buf (s_target s) (start_decoding (cli_decoder s) dict)) as (pieces & P1 & P2 & P3); auto; try (cbn; lia).
  - cbn. destruct DN; auto.
  - cbn [fi_name fi_pos inp]. rewrite CD, zdrop_0. exact FU.
  - cbn [fi_name fi_pos inp] in P1. rewrite CD, zdrop_0 in P1. exists pieces. split; [exact P1|]. split.
    { apply pieces_forall in P2; [|lia]. eapply Forall_impl; [|exact P2]. cbv beta. intros. lia. }
    unfold decode_stream. destruct (decode_chunks _ pieces []) as [[[d' [|]] o]|]; [| |exact P3].
    + destruct P3 as (w' & o1 & o2 & -> & W & E & Q). exists w', o1, o2. split; [reflexivity|]. split; [eapply wrote_result; eauto|]. auto.
    + destruct P3 as (w' & o1 & o2 & -> & W & E & Q). exists w', o1, o2. split; [reflexivity|]. split; [eapply wrote_result; eauto|]. split; [exact E|discriminate].
Qed.

Lemma cli_encode_run : forall s w dict T fuel,
  bytes_ok dict -> bytes_ok T -> s_json s = false -> 0 < s_buffersize s ->
  wo_files w (s_dictionary s) = Some dict ->
  input_is w (s_target s) T -> T <> [] \/ s_target s = [] ->
  can_write w (s_delta s) (s_target s) ->
  zlen dict + zlen T <= int32_max -> zlen T + 53 * (zlen T / s_buffersize s + 1) + 5 <= int32_max ->
  zlen T + 1 < Z.of_nat fuel ->
  exists w1 delta, cli_encode fuel w s = Exit true w1 /\ result_is (s_delta s) delta w w1 /\
    delta <> [] /\ bytes_ok delta /\ no_code_table delta /\ zlen delta <= zlen T + 53 * (zlen T / s_buffersize s + 1) + 5 /\
    forall allow mw mf, Z.min (zlen T) (s_buffersize s) <= mw -> zlen T <= mf -> vcd_file strict strict allow (within mw mf) dict delta T.
Proof.
  intros s w dict T fuel BD BT J B FD IT NE CW L1 L2 FU. pose proof (zlen_nonneg _ dict). pose proof (zlen_nonneg _ T).
  unfold cli_encode, open_dictionary. rewrite FD.
  destruct (open_reading w _ T _ IT B NE) as (buf & -> & BB & BQ).
  destruct (open_writing w _ _ CW) as (w1 & -> & OW & IO & OE & OQ & DN).
  destruct (streaming_encoder_ok dict {| fl_interleaved := s_interleaved s; fl_checksum := s_checksum s; fl_json := s_json s |} (s_target_matches s) BD) as (en & EN & SE); [unfold int32_max in *; lia|].
  assert (engine_init (new_engine dict) = Some (en, true)) as EI0.
  { unfold streaming_encoder in SE. destruct (engine_init (new_engine dict)) as [[en' [|]]|]; try discriminate. injection SE as Q. congruence. }
  rewrite EI0. set (fl := {| fl_interleaved := _ |}) in *. set (e0 := new_encoder en fl (s_target_matches s)) in *.
  assert (forall allow chunks (ok : list Z -> list Z -> Prop), concat chunks = T -> zlen chunks <= zlen T / s_buffersize s + 1 ->
    (forall pre c post, chunks = pre ++ c :: post -> ok (concat pre) c) ->
    exists e' delta, encode_stream e0 chunks = Some (e', true, delta) /\ bytes_ok delta /\ vcd_file strict strict allow ok dict delta T /\ no_code_table delta /\
      zlen delta <= zlen T + 53 * zlen chunks + 5) as FILE.
  { intros allow chunks ok CC PO OK. destruct (new_encoder_inv en dict fl (s_target_matches s) allow EN) as (im & EI); [unfold int32_max in *; lia|exact J|].
    pose proof (zlen_nonneg _ chunks).
    destruct (stream_file _ dict im _ fl allow ok chunks EI eq_refl J) as (w' & delta & ES & _ & BO & VF & NC & LD).
    - apply fitting; rewrite ?CC; auto; [|unfold int32_max in *; lia]. clear -CC BT. subst T. induction chunks as [|c chunks IH]; [constructor|].
      cbn [concat] in BT. apply bytes_ok_app in BT as [A B]. constructor; auto.
    - intros pre c post E _. eapply OK; eauto.
    - rewrite CC in *. do 2 eexists. split; [exact ES|]. auto. }
  assert (exists e1 o1, start_encoding e0 = Some (e1, true, o1)) as (e1 & o1 & ST).
  { destruct (FILE true [T] (fun _ _ => True)) as (e9 & d9 & ES & _); [cbn; apply app_nil_r| |auto|].
    - rewrite zlen_cons, zlen_nil. pose proof (Z.div_pos (zlen T) (s_buffersize s) ltac:(lia) B). lia.
    - unfold encode_stream in ES. destruct (start_encoding e0) as [[[e1 [|]] o1]|]; try discriminate. eauto. }
  assert (zlen o1 = 5) as HO1.
  { unfold start_encoding, e0, new_encoder, new_custom_encoder, create_writer in ST. cbn [fl fl_json ec_coder] in ST. rewrite J in ST. cbn [coder_init] in ST.
    destruct (writer_init _ _) as [[w0 [|]]|]; try discriminate. cbn in ST. injection ST as _ <-. apply write_header_bytes. }
  rewrite ST. set (inp := {| fi_name := s_target s |}).
  assert (content w1 (s_target s) = T) as CT.
  { rewrite (only_wrote_content _ _ _ _ OW); [apply input_content; exact IT|]. destruct DN; auto. }
  destruct (encode_loop_ok fuel w1 inp buf (s_delta s) e1 o1) as (chunks & P1 & P2 & P3); auto; try (cbn; lia).
  { cbn. destruct DN; auto. }
  { cbn [fi_name fi_pos inp]. rewrite CT, zdrop_0. exact FU. }
  cbn [fi_name fi_pos inp] in P1. rewrite CT, zdrop_0 in P1.
  assert (zlen chunks <= zlen T / s_buffersize s + 1) as CNT.
  { assert (0 < buf) as BP by lia; pose proof (pieces_count buf chunks BP P2) as PC. rewrite P1 in PC. assert ((zlen chunks - 1) * buf <= zlen T) by exact PC.
    destruct BQ as [->|[-> SM]].
    - pose proof (Z.div_le_lower_bound (zlen T) (s_buffersize s) (zlen chunks - 1) B). lia.
    - pose proof (Z.div_pos (zlen T) (s_buffersize s) ltac:(lia) B). destruct P2 as [|c P2|c l Hc P2].
      + rewrite zlen_nil in *. lia.
      + rewrite zlen_cons, zlen_nil in *. lia.
      + cbn [concat] in P1. apply (f_equal zlen) in P1. rewrite zlen_app in P1.
        assert (concat l = []) as CL by (apply zlen_0_nil; lia). apply pieces_forall in P2; [|lia].
        destruct P2 as [|x l X P2]; [rewrite zlen_cons, zlen_nil; lia|]. cbn [concat] in CL. apply (f_equal zlen) in CL. rewrite zlen_app, zlen_nil in CL.
        pose proof (zlen_nonneg _ (concat l)). lia. }
  assert (exists e2 o, encode_chunks e1 chunks [] = Some (e2, true, o) /\ exists e3 r, encode_stream e0 chunks = Some (e3, r, o1 ++ o ++ snd (finish_encoding e2))) as (e2 & o & EC & e3 & r3 & ES).
  { destruct (FILE true chunks (fun _ _ => True) P1 CNT (fun _ _ _ _ => Logic.I)) as (e9 & d9 & ES & _). unfold encode_stream in *. rewrite ST in *.
    rewrite (encode_chunks_acc chunks e1 o1) in *. destruct (encode_chunks e1 chunks []) as [[[e2 [|]] o]|]; try discriminate. exists e2, o. split; [reflexivity|].
    destruct (finish_encoding e2) as [[e3 r3] o3]. cbn [snd]. exists e3, r3. rewrite <- app_assoc. reflexivity. }
  destruct (P3 _ _ EC) as (w' & -> & W). set (delta := o1 ++ o ++ snd (finish_encoding e2)) in *.
  assert (delta = o1 ++ o ++ snd (finish_encoding e2)) as ED0 by reflexivity. clearbody delta.
  exists w', delta. split; [reflexivity|]. split; [eapply wrote_result; eauto|].
  assert (delta <> []) as ND.
  { intros E. rewrite ED0 in E. apply app_eq_nil in E as [E _]. apply (f_equal zlen) in E. rewrite HO1 in E. discriminate E. }
  destruct (FILE true chunks (fun _ _ => True) P1 CNT (fun _ _ _ _ => Logic.I)) as (e9 & d9 & ES2 & BO & _ & NC & LD).
  rewrite ES in ES2. injection ES2 as _ _ <-. split; [exact ND|]. split; [exact BO|]. split; [exact NC|]. split; [lia|].
  intros allow mw mf ML MF.
  destruct (FILE allow chunks (within mw mf) P1 CNT) as (e9' & d9 & ES2 & _ & VF & _).
  { intros pre c post E. assert (c <> []) as NCc.
    { apply pieces_forall in P2; [|lia]. rewrite Forall_forall in P2. intros ->. specialize (P2 []). rewrite zlen_nil in P2.
      rewrite E in P2. assert (0 < 0 <= buf) by (apply P2, in_or_app; right; left; reflexivity). lia. }
    eapply chunks_within; [| |exact E|exact NCc]; [|rewrite P1; lia].
    assert (pieces_ok buf chunks) as P2' by exact P2. apply pieces_forall in P2; [|lia]. apply Forall_forall. intros x IN. rewrite Forall_forall in P2. specialize (P2 x IN).
    assert (zlen x <= zlen T) as LX.
    { apply in_split in IN as (p & q & Q). rewrite <- P1, Q, concat_app. cbn [concat]. rewrite !zlen_app.
      pose proof (zlen_nonneg _ (concat p)). pose proof (zlen_nonneg _ (concat q)). lia. }
    lia. }
  rewrite ES in ES2. injection ES2 as _ _ <-. exact VF.
Qed.

Lemma delta_decodes : forall s dict T delta pieces,
  bytes_ok dict -> bytes_ok delta -> no_code_table delta -> zlen delta <= int32_max -> zlen dict + zlen T <= int32_max ->
  concat pieces = delta -> 0 <= s_max_window s <= size_max -> zlen T <= s_max_file s <= size_max ->
  vcd_file strict strict (s_allow_vcd_target s) (within (window_limit s) (s_max_file s)) dict delta T ->
  decode_stream (cli_decoder s) dict pieces = Some (true, T).
Proof.
  intros s dict T delta pieces BD BO NC LD L1 Q1 MW MF VF. destruct (cli_decoder_limits s) as (LW & LF & LA).
  pose proof (zlen_nonneg _ dict). pose proof (zlen_nonneg _ T).
  apply C05_decoder_complete with (t := strict); auto.
  - apply cli_decoder_plain; lia.
  - apply bytes_ok_concat. rewrite Q1. exact BO.
  - rewrite Q1. apply no_code_table_bad. exact NC.
  - rewrite Q1, LA, LW, LF. exact VF.
  - rewrite Q1. lia.
  - lia.
  - lia.
  - lia.
Qed.

(** For every dictionary file and every target, of length more than 0 or on
    standard input, "vcdiff encode" comes to an end with status 0 (after at most
    as many reads as there are bytes), and whenever its output is given to "vcdiff
    decode" with the same dictionary, whatever the two buffer sizes are, that ends
    with status 0 and writes the target. *)
Theorem C38_round_trip_partial : forall s w dict T fuel,
  bytes_ok dict -> bytes_ok T -> s_json s = false -> 0 < s_buffersize s ->
  s_dictionary s <> [] -> wo_files w (s_dictionary s) = Some dict ->
  input_is w (s_target s) T -> T <> [] \/ s_target s = [] ->
  can_write w (s_delta s) (s_target s) ->
  zlen dict + zlen T <= int32_max -> zlen T + 53 * (zlen T / s_buffersize s + 1) + 5 <= int32_max ->
  zlen T + 1 < Z.of_nat fuel ->
  exists w1 delta, vcdiff fuel CEncode s w = Exit true w1 /\ result_is (s_delta s) delta w w1 /\
    forall s2 w2 fuel2,
      0 < s_buffersize s2 -> s_dictionary s2 <> [] -> wo_files w2 (s_dictionary s2) = Some dict ->
      input_is w2 (s_delta s2) delta -> can_write w2 (s_target s2) (s_delta s2) ->
      zlen T <= s_max_file s2 <= size_max -> 0 <= s_max_window s2 <= size_max ->
      Z.min (zlen T) (s_buffersize s) <= window_limit s2 ->
      zlen delta + 1 < Z.of_nat fuel2 ->
      exists w3, vcdiff fuel2 CDecode s2 w2 = Exit true w3 /\ result_is (s_target s2) T w2 w3.
Proof.
  intros s w dict T fuel BD BT J B SD FD IT NE CW L1 L2 FU. pose proof (zlen_nonneg _ dict). pose proof (zlen_nonneg _ T).
  destruct (cli_encode_run s w dict T fuel BD BT J B FD IT NE CW L1 L2 FU) as (w1 & delta & E & RI & ND & BO & NC & LD & VF).
  exists w1, delta. split; [|split; [exact RI|]].
  { unfold vcdiff. destruct (s_dictionary s) as [|c0 n0] eqn:ED; [congruence|]. cbn [nonempty negb].
    destruct (Z.eqb_spec (s_buffersize s) 0); [lia|]. exact E. }
  intros s2 w2 fuel2 B2 SD2 FD2 ID2 CW2 MF MW ML FU2.
  destruct (cli_decode_run s2 w2 dict delta fuel2 B2 SD2 FD2 ID2 (or_introl ND) CW2 FU2) as (pieces & Q1 & Q2 & Q3).
  assert (decode_stream (cli_decoder s2) dict pieces = Some (true, T)) as DS by (apply (delta_decodes s2 dict T delta pieces); auto; try lia; apply VF; lia).
  rewrite DS in Q3. destruct Q3 as (w3 & a & b & -> & RI3 & EQ & Q). rewrite (Q eq_refl), app_nil_r in EQ. subst a. exists w3. auto.
Qed.
Print Assumptions C38_round_trip_partial.

(** A world with a dictionary [D], a target [T] and a delta [X]. *)
Definition n_dict : name := [100].
Definition n_target : name := [116].
Definition n_delta : name := [120].
Definition n_copy : name := [99].
Definition some_world (D T X : list Z) : world :=
  {| wo_files := fun n => if name_eq n n_dict then Some D else if name_eq n n_target then Some T else if name_eq n n_delta then Some X else None;
     wo_writable := fun _ => true; wo_stdin := []; wo_stdout := [] |}.
Definition some_settings (target delta : name) (B : Z) : settings :=
  {| s_dictionary := n_dict; s_target := target; s_delta := delta; s_buffersize := B; s_allow_vcd_target := true; s_checksum := true;
     s_interleaved := true; s_json := false; s_target_matches := true; s_max_file := 67108864; s_max_window := 67108864 |}.

(** Buffers of 50 bytes for encoding, of 7 bytes for decoding; the delta is written
    over an older file. *)
Example C38_case :
  let s := some_settings n_target n_delta 50 in
  let w := some_world c01_dict c01_target [1;2;3] in
  s_dictionary s <> [] /\ wo_files w (s_dictionary s) = Some c01_dict /\ input_is w (s_target s) c01_target /\ c01_target <> [] /\
  can_write w (s_delta s) (s_target s) /\
  match vcdiff 200 CEncode s w with
  | Exit true w1 =>
      match vcdiff 200 CDecode (some_settings n_copy n_delta 7) w1 with
      | Exit true w2 => wo_files w2 n_copy = Some c01_target /\ wo_files w2 n_target = Some c01_target
      | _ => False
      end
  | _ => False
  end.
Proof.
  cbv zeta. split; [discriminate|]. split; [reflexivity|]. split; [right; split; [discriminate|reflexivity]|]. split; [discriminate|].
  split; [right; split; [discriminate|reflexivity]|]. vm_compute. split; reflexivity.
Qed.

(** The case that is excluded: a named target file of length 0.  Then the program
    does not come to an end, whatever the dictionary and the other settings are. *)
Theorem C38_empty_target_refuted : forall s w dict,
  bytes_ok dict -> zlen dict <= int32_max -> s_json s = false -> 0 < s_buffersize s ->
  s_dictionary s <> [] -> wo_files w (s_dictionary s) = Some dict ->
  s_target s <> [] -> wo_files w (s_target s) = Some [] -> can_write w (s_delta s) (s_target s) ->
  forall fuel, vcdiff fuel CEncode s w = Running.
Proof.
  intros s w dict BD LD J B SD FD ST FT CW fuel. unfold vcdiff. destruct (s_dictionary s) as [|c0 n0] eqn:ED; [congruence|]. cbn [nonempty negb].
  destruct (Z.eqb_spec (s_buffersize s) 0); [lia|]. unfold cli_encode, open_dictionary. rewrite ED, FD.
  assert (open_for_reading w (s_target s) (s_buffersize s) = Some ({| fi_name := s_target s; fi_pos := 0; fi_eof := false |}, 0)) as ->.
  { destruct (s_target s) as [|c1 n1] eqn:ET; [congruence|]. cbn [open_for_reading]. rewrite FT, zlen_nil. destruct (Z.ltb_spec 0 (s_buffersize s)); [reflexivity|lia]. }
  destruct (open_writing w _ _ CW) as (w1 & -> & _).
  destruct (streaming_encoder_ok dict {| fl_interleaved := s_interleaved s; fl_checksum := s_checksum s; fl_json := s_json s |} (s_target_matches s) BD LD) as (en & EN & SE).
  unfold streaming_encoder in SE. destruct (engine_init (new_engine dict)) as [[en' [|]]|]; try discriminate. injection SE as Q. subst en'.
  set (fl := {| fl_interleaved := _ |}) in *.
  destruct (new_encoder_inv en dict fl (s_target_matches s) true EN LD J) as (im & EI).
  destruct (stream_file _ dict im _ fl true (fun _ _ => True) [] EI eq_refl J (Forall_nil _) (fun _ _ _ _ _ => Logic.I)) as (w' & delta & ES & _).
  unfold encode_stream in ES. destruct (start_encoding _) as [[[e [|]] o]|]; try discriminate. apply encode_loop_forever. reflexivity.
Qed.
Print Assumptions C38_empty_target_refuted.

Example C38_empty_case : forall fuel, vcdiff fuel CEncode (some_settings n_target n_delta 1048576) (some_world c01_dict [] []) = Running.
Proof.
  apply C38_empty_target_refuted with (dict := c01_dict); [|vm_compute; discriminate|reflexivity|reflexivity|discriminate|reflexivity|discriminate|reflexivity|].
  - apply bytes_okb_ok. vm_compute. reflexivity.
  - right. split; [discriminate|reflexivity].
Qed.

(** The same when an empty delta file is decoded. *)
Theorem C38_empty_delta_refuted : forall s w dict,
  0 < s_buffersize s -> s_dictionary s <> [] -> wo_files w (s_dictionary s) = Some dict ->
  s_delta s <> [] -> wo_files w (s_delta s) = Some [] -> can_write w (s_target s) (s_delta s) ->
  forall fuel, vcdiff fuel CDecode s w = Running.
Proof.
  intros s w dict B SD FD ST FT CW fuel. unfold vcdiff. destruct (s_dictionary s) as [|c0 n0] eqn:ED; [congruence|]. cbn [nonempty negb].
  destruct (Z.eqb_spec (s_buffersize s) 0); [lia|]. unfold cli_decode, open_dictionary. rewrite ED, FD.
  assert (open_for_reading w (s_delta s) (s_buffersize s) = Some ({| fi_name := s_delta s; fi_pos := 0; fi_eof := false |}, 0)) as ->.
  { destruct (s_delta s) as [|c1 n1] eqn:ET; [congruence|]. cbn [open_for_reading]. rewrite FT, zlen_nil. destruct (Z.ltb_spec 0 (s_buffersize s)); [reflexivity|lia]. }
  destruct (open_writing w _ _ CW) as (w1 & -> & _). apply decode_loop_forever. reflexivity.
Qed.
Print Assumptions C38_empty_delta_refuted.

(** ** C42: "vcdiff decode" *)

(** It comes to an end (after at most as many reads as there are bytes).  If the exit status is 0
    then the target file has been written and holds data that the delta denotes (in
    the sense of C04); if not, the exit status tells, and what has been written
    is a prefix of what the decoder produced. *)
Theorem C42_decode_status_partial : forall s w dict delta fuel,
  bytes_ok dict -> bytes_ok delta ->
  0 < s_buffersize s -> s_dictionary s <> [] -> wo_files w (s_dictionary s) = Some dict ->
  input_is w (s_delta s) delta -> delta <> [] \/ s_delta s = [] -> can_write w (s_target s) (s_delta s) ->
  0 <= s_max_file s <= size_max -> 0 <= s_max_window s <= size_max ->
  zlen delta + 1 < Z.of_nat fuel ->
  (vcdiff fuel CDecode s w = Undefined /\ bad_cache delta) \/
  exists ok w' out, vcdiff fuel CDecode s w = Exit ok w' /\ result_is (s_target s) out w w' /\
    (ok = true -> vcd_file (tol true) (tol true) (s_allow_vcd_target s) (within (window_limit s) (s_max_file s)) dict delta out).
Proof.
  intros s w dict delta fuel BD BX B SD FD ID NE CW MF MW FU. pose proof (cli_decoder_plain s MF MW) as IP.
  destruct (cli_decode_run s w dict delta fuel B SD FD ID NE CW FU) as (pieces & P1 & P2 & P3).
  destruct (cli_decoder_limits s) as (LW & LF & LA).
  assert (Forall bytes_ok pieces) as BP by (apply bytes_ok_concat; rewrite P1; exact BX).
  destruct (decode_stream (cli_decoder s) dict pieces) as [[ok o]|] eqn:DS.
  - right. destruct P3 as (w' & o1 & o2 & E & RI & EO & Q). exists ok, w', o1. split; [exact E|]. split; [exact RI|]. intros ->.
    rewrite (Q eq_refl), app_nil_r in EO. subst o1. rewrite <- P1.
    pose proof (C04_decoder_sound_partial _ dict pieces o IP BD BP DS) as V. unfold admits in V. rewrite LW, LF, LA in V. exact V.
  - left. split; [exact P3|]. pose proof (idle_plain_idle _ IP) as [IDL _].
    destruct (stream_start _ dict pieces (idle_ready _ IDL) BD BP) as (R & _ & M). unfold decode_stream in DS. rewrite P1 in M.
    destruct (decode_chunks _ pieces []) as [[[d' [|]] o]|]; try discriminate. apply M.
Qed.
Print Assumptions C42_decode_status_partial.

(** A delta, and the same delta without its last byte. *)
Example C42_case :
  let s := some_settings n_copy n_delta 4 in
  match vcdiff 40 CDecode s (some_world ex_dict [] hello_delta), vcdiff 40 CDecode s (some_world ex_dict [] (ztake (zlen hello_delta - 1) hello_delta)) with
  | Exit true w1, Exit false w2 => wo_files w1 n_copy = Some [104;101;108;108;111;33] /\ wo_files w2 n_copy = Some []
  | _, _ => False
  end.
Proof. vm_compute. split; reflexivity. Qed.

(** ** C41: "vcdiff test" *)

(** The second half of "vcdiff test" for whatever is in the delta file: the status is 0
    exactly if the decoder accepts the file, read in pieces, and produces the original target file, byte for byte. *)
Theorem C41_compare_exact : forall s w dict delta T fuel,
  bytes_ok dict -> bytes_ok delta ->
  0 < s_buffersize s -> wo_files w (s_dictionary s) = Some dict ->
  s_delta s <> [] -> wo_files w (s_delta s) = Some delta -> delta <> [] -> s_target s <> [] -> wo_files w (s_target s) = Some T ->
  0 <= s_max_file s <= size_max -> 0 <= s_max_window s <= size_max ->
  zlen delta + 1 < Z.of_nat fuel ->
  exists pieces, concat pieces = delta /\ Forall (fun c => 0 < zlen c <= s_buffersize s) pieces /\
    ((cli_compare fuel w s = Undefined /\ bad_cache delta) \/ exists ok, cli_compare fuel w s = Exit ok w) /\
    (cli_compare fuel w s = Exit true w <-> decode_stream (cli_decoder s) dict pieces = Some (true, T)).
Proof.
  intros s w dict delta T fuel BD BX B FD SE FX ND ST FT MF MW FU. pose proof (cli_decoder_plain s MF MW) as IP.
  unfold cli_compare, open_dictionary. rewrite FD.
  assert (input_is w (s_delta s) delta) as ID by (right; auto). assert (input_is w (s_target s) T) as IT by (right; auto).
  destruct (open_reading w _ delta _ ID B (or_introl ND)) as (buf & -> & BB & _).
  assert (exists b, open_for_reading w (s_target s) (s_buffersize s) = Some ({| fi_name := s_target s; fi_pos := 0; fi_eof := false |}, b)) as (b & ->).
  { destruct (s_target s) as [|c1 n1] eqn:ET; [congruence|]. cbn [open_for_reading]. rewrite FT. eauto. }
  set (inp := {| fi_name := s_delta s |}). set (orig := {| fi_name := s_target s |}).
  pose proof (input_content _ _ _ ID) as CD. pose proof (input_content _ _ _ IT) as CT.
  destruct (compare_loop_ok fuel w inp buf orig (start_decoding (cli_decoder s) dict)) as (pieces & P1 & P2 & P3); auto; try (cbn; lia).
  { cbn [fi_name fi_pos inp]. rewrite CD, zdrop_0. exact FU. }
  cbn [fi_name fi_pos inp orig] in P1, P3. rewrite CD, zdrop_0 in P1. rewrite CT, zdrop_0 in P3. 
  assert (Forall bytes_ok pieces) as BP by (apply bytes_ok_concat; rewrite P1; exact BX).
  exists pieces. split; [exact P1|]. split.
  { apply pieces_forall in P2; [|lia]. eapply Forall_impl; [|exact P2]. cbv beta. intros. lia. }
  pose proof (idle_plain_idle _ IP) as [IDL _].
  destruct (stream_start _ dict pieces (idle_ready _ IDL) BD BP) as (R & _ & M). rewrite P1 in M.
  unfold decode_stream. destruct (decode_chunks _ pieces []) as [[[d' ok'] o]|] eqn:DC.
  - rewrite P3. split; [eauto|]. destruct ok'; cbn [andb].
    + split.
      * intros E. injection E as E. apply andb_true_iff in E as [-> E]. apply same_bytes_eq in E. subst o. reflexivity.
      * intros Q. injection Q as -> ->. rewrite (proj2 (same_bytes_eq T T) eq_refl). reflexivity.
    + split; discriminate.
  - destruct M as [_ M]. destruct P3 as [-> | ->].
    + split; [auto|]. split; discriminate.
    + split; [eauto|]. split; discriminate.
Qed.
Print Assumptions C41_compare_exact.

(** And so "vcdiff test" succeeds for every target file that is not empty, leaving the
    delta behind. *)
Theorem C41_test_passes : forall s w dict T fuel,
  bytes_ok dict -> bytes_ok T -> s_json s = false -> 0 < s_buffersize s ->
  s_dictionary s <> [] -> wo_files w (s_dictionary s) = Some dict -> s_target s <> [] -> wo_files w (s_target s) = Some T -> T <> [] ->
  s_delta s <> [] -> wo_writable w (s_delta s) = true -> s_delta s <> s_target s -> s_delta s <> s_dictionary s ->
  zlen dict + zlen T <= int32_max -> zlen T + 53 * (zlen T / s_buffersize s + 1) + 5 <= int32_max ->
  zlen T <= s_max_file s <= size_max -> 0 <= s_max_window s <= size_max -> Z.min (zlen T) (s_buffersize s) <= window_limit s ->
  zlen T + 53 * (zlen T / s_buffersize s + 1) + 6 < Z.of_nat fuel ->
  exists w1 delta, vcdiff fuel CTest s w = Exit true w1 /\ result_is (s_delta s) delta w w1.
Proof.
  intros s w dict T fuel BD BT J B SD FD ST FT NT SX WX DT DD L1 L2 MF MW ML FU.
  assert (input_is w (s_target s) T) as IT by (right; auto). assert (can_write w (s_delta s) (s_target s)) as CW by (right; auto).
  pose proof (Z.div_pos (zlen T) (s_buffersize s) (zlen_nonneg _ T) B).
  destruct (cli_encode_run s w dict T fuel BD BT J B FD IT (or_introl NT) CW L1 L2 ltac:(lia)) as (w1 & delta & E & RI & ND & BO & NC & LD & VF).
  exists w1, delta. split; [|exact RI]. destruct RI as [OW [[Q _]|[_ FX]]]; [congruence|].
  unfold vcdiff. rewrite E. destruct (s_dictionary s) as [|c0 n0] eqn:ED; [congruence|]. destruct (s_target s) as [|c1 n1] eqn:ET; [congruence|].
  destruct (s_delta s) as [|c2 n2] eqn:EX; [congruence|]. cbn [nonempty negb orb]. destruct (Z.eqb_spec (s_buffersize s) 0); [lia|].
  rewrite <- ED, <- ET, <- EX in *. destruct OW as (_ & _ & OW & _).
  destruct (C41_compare_exact s w1 dict delta T fuel) as (pieces & P1 & P2 & _ & P4); auto; try congruence; try lia.
  - rewrite OW by (left; congruence). exact FD.
  - rewrite OW by (left; congruence). exact FT.
  - apply P4. apply (delta_decodes s dict T delta pieces); auto; try lia. apply VF; lia.
Qed.
Print Assumptions C41_test_passes.

(** "vcdiff test" with a buffer of 50 bytes; and the comparison alone against a target that
    differs from what the delta denotes in length or in one byte. *)
Example C41_case :
  match vcdiff 400 CTest (some_settings n_target n_delta 50) (some_world c01_dict c01_target []) with
  | Exit true w1 => match wo_files w1 n_delta with Some d => (0 <? zlen d) = true | None => False end
  | _ => False
  end /\
  (forall T, In T [[104;101;108;108;111]; [104;101;108;108;111;33;33]; [104;101;108;108;111;34]] ->
     match cli_compare 40 (some_world ex_dict T hello_delta) (some_settings n_target n_delta 4) with Exit ok _ => ok = false | _ => False end) /\
  match cli_compare 40 (some_world ex_dict [104;101;108;108;111;33] hello_delta) (some_settings n_target n_delta 4) with Exit ok _ => ok = true | _ => False end.
Proof.
  split; [vm_compute; reflexivity|]. split; [|vm_compute; reflexivity].
  intros T [<-|[<-|[<-|[]]]]; vm_compute; reflexivity.
Qed.
