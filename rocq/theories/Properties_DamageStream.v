(** C77 for streams of several chunks. *)

From Coq Require Import ZifyBool ZifyNat Znumtheory.
From Verif Require Import Base ListFacts Spec SpecEncode SpecInstr SpecShort SpecLong SpecDamage CopyFacts VarintFacts Varint AddrCache CodeTable InstructionMap CodeTableFacts
  Adler AdlerFacts BodyFacts InstructionMapFacts BlockHash BlockHashFacts EncodeTable WriterFacts Engine EngineFacts Encoder EncoderFacts EncoderCalls
  Unique Sound Decoder Usable Stream Session Reuse Files Chunked Detect DamageFacts Properties_Stream Properties_Decode Properties_Encode Properties_Layout ShortFacts Properties_Shortest
  Properties_Damage.

(** A window that was written for instructions that copy from the dictionary only *)
Definition dict_only (il : bool) (dict : list Z) (_ w T : list Z) : Prop :=
  T <> [] /\ exists x, plain_window il true dict w T x /\ Forall (from_dict dict) x.

Lemma encode_chunks_plain : forall dict fl e0 im f, bytes_ok dict -> zlen dict <= int32_max -> fl_json fl = false -> fl_checksum fl = true ->
  streaming_encoder dict fl false = Some e0 ->
  forall chunks l e rs w prev out, Forall (call_fits dict) l -> do_ecalls e0 l = Some (e, rs) ->
  einv e dict im w f -> ec_allowed e = true -> Forall (chunk_fits dict) chunks ->
  exists w' ws, encode_chunks e chunks out = Some (set_coder e (Binary w') true, true, out ++ ws) /\
    windows_each strict strict f dict (dict_only (fl_interleaved fl) dict) prev ws (prev ++ concat chunks).
Proof.
  intros dict fl e0 im f BD LD J CK SE. induction chunks as [|c chunks IH]; intros l e rs w prev out FL DC E AL F; cbn [encode_chunks].
  - exists w, []. assert (set_coder e (Binary w) true = e) as ->
      by (pose proof (ei_coder _ _ _ _ _ E) as CO; destruct e; cbn in *; subst; reflexivity).
    cbn [concat]. rewrite !app_nil_r. split; [reflexivity|]. constructor.
  - inversion F as [|? ? CF F']; subst. pose proof CF as (B & L & L2).
    destruct (encode_chunk_ok e dict im w f c prev E AL B L L2) as (w1 & o1 & EC & E1 & _ & BO & C). rewrite EC.
    assert (do_ecalls e0 (l ++ [EChunk c]) = Some (set_coder e (Binary w1) true, rs ++ [(true, o1)])) as DC1.
    { rewrite (do_ecalls_app _ _ _ _ _ DC). cbn [do_ecalls do_ecall]. rewrite EC. reflexivity. }
    assert (Forall (call_fits dict) (l ++ [EChunk c])) as FL1 by (apply Forall_app; split; [exact FL|constructor; [exact CF|constructor]]).
    destruct (IH (l ++ [EChunk c]) (set_coder e (Binary w1) true) (rs ++ [(true, o1)]) w1 (prev ++ c) (out ++ o1) FL1 DC1 E1 eq_refl F') as (w2 & ws & -> & WS).
    exists w2, (o1 ++ ws). split; [rewrite <- app_assoc; reflexivity|].
    cbn [concat]. rewrite <- app_assoc in WS. destruct C as [[-> ->]|(NE & WN & LN & _)].
    + cbn [app] in *. rewrite app_nil_r in WS. exact WS.
    + apply we_cons with (T := c); [destruct ws; exact WN| |exact WS]. split; [exact NE|].
      destruct (C64_shortest_window dict fl false e0 l e rs c _ o1 BD LD J SE FL DC CF NE EC) as (x & GP & PW & _).
      rewrite CK in PW. exists x. split; [exact PW|]. exact (plan_from_dict _ _ _ _ _ GP).
Qed.

Lemma windows_each_front : forall t f dict ok prev ws1 prev1, windows t t f dict ok prev ws1 prev1 ->
  forall t' tl' f' ok' z out', Unique.same_format f f' -> windows_each t' tl' f' dict ok' prev (ws1 ++ z) out' -> windows_each t' tl' f' dict ok' prev1 z out'.
Proof.
  induction 1 as [prev|prev w T rest out W K R IH]; intros t' tl' f' ok' z out' SF H'; [exact H'|].
  rewrite <- app_assoc in H'. remember (w ++ rest ++ z) as x. destruct H' as [prev|prev w' T' rest' out' W' K' R'].
  - symmetry in Heqx. apply app_eq_nil in Heqx as [-> _]. apply window_ne in W. congruence.
  - destruct (window_inj _ _ _ _ _ _ _ _ _ _ _ _ SF W W' (eq_sym Heqx)) as (-> & -> & <-). eapply IH; eauto.
Qed.

(** As C77_encoder_partial, for a stream of any number of chunks: a damaged byte of the
    data of one window, whatever its size, if the encoder was not asked for target
    matching. *)
Theorem C77_stream_partial : forall dict fl e e' chunks delta,
  bytes_ok dict -> zlen dict <= int32_max -> fl_json fl = false -> fl_checksum fl = true -> Forall (chunk_fits dict) chunks ->
  streaming_encoder dict fl false = Some e -> encode_stream e chunks = Some (e', true, delta) ->
  forall allow ok delta' T out b b' d pieces r out',
    damaged_file strict strict allow ok dict b b' delta delta' T out -> byte_ok b -> byte_ok b' ->
    idle_plain d -> Forall bytes_ok pieces -> concat pieces = delta' ->
    decode_stream d dict pieces = Some (r, out') -> r = false \/ out' = concat chunks.
Proof.
  intros dict fl e e' chunks delta BD L J CK FC SE ES allow ok delta' T out b b' d pieces r out' DF B B' IP F E H.
  destruct r; [right|left; reflexivity].
  pose proof SE as SE0. destruct (streaming_encoder_ok dict fl false BD L) as (en & EN & SE'). rewrite SE in SE'. injection SE' as ->.
  destruct (new_encoder_inv en dict fl false true EN L J) as (im & EI).
  destruct (start_encoding_ok _ _ _ _ _ EI) as (c & _ & ST & EI1).
  unfold encode_stream in ES. rewrite ST in ES.
  set (e1 := set_coder (new_encoder en fl false) _ true) in *.
  change (ec_flags (new_encoder en fl false)) with fl in *.
  assert (do_ecalls (new_encoder en fl false) [EStart] = Some (e1, [(true, write_header fl)])) as DC.
  { cbn [do_ecalls do_ecall]. rewrite ST. reflexivity. }
  assert (Forall (call_fits dict) [EStart]) as FS by (constructor; [exact Logic.I|constructor]).
  destruct (encode_chunks_plain dict fl _ im _ BD L J CK SE0 chunks [EStart] e1 _ _ [] (write_header fl) FS DC EI1 eq_refl FC) as (w' & ws & EC & WE).
  rewrite EC in ES. unfold finish_encoding in ES. cbn [set_coder ec_allowed ec_coder coder_finish negb] in ES. rewrite app_nil_r in ES.
  assert (delta = write_header fl ++ ws) as ED by congruence. clear ES EC.
  rewrite (header_of fl J) in ED. unfold version_of in ED, WE. rewrite CK, orb_true_r in ED, WE. cbn [app] in WE.
  assert (head strict strict (file_header 83 0) 83 rfc_table 4 3) as HD by (constructor; [right; reflexivity|unfold byte_ok; lia|reflexivity|reflexivity]).
  apply stream_sound in H; auto. rewrite E in H. clear E F pieces.
  destruct DF as [h v tbl ns ss ws1 prev w w'' T ws2 out HD1 MF1 W1 DW K W2].
  destruct (head_inj _ _ _ _ _ _ _ HD _ _ _ _ _ _ _ _ _ HD1 (eq_sym ED)) as (<- & <- & <- & <- & <- & ->). clear ED HD1.
  remember (file_header 83 0 ++ ws1 ++ w'' ++ ws2) as X. destruct H as [|h' v' tbl' ns' ss' ws' out' HD' MF' WS']; [discriminate HeqX|].
  destruct (head_inj _ _ _ _ _ _ _ HD _ _ _ _ _ _ _ _ _ HD' (eq_sym HeqX)) as (<- & <- & <- & <- & <- & <-). clear HeqX HD'.
  assert (forall a a', Unique.same_format (file_format 83 rfc_table 4 3 a) (file_format 83 rfc_table 4 3 a')) as SF.
  { intros a a'. unfold Unique.same_format. cbn. repeat split; auto. lia. }
  pose proof (windows_each_front _ _ _ _ _ _ _ W1 _ _ _ _ _ _ (SF allow true) WE) as RE. clear WE.
  pose proof (windows_front _ _ _ _ _ _ _ W1 _ _ _ _ _ _ (SF allow (target_allowed d)) WS') as R. clear WS'.
  assert (damaged_window strict (file_format 83 rfc_table 4 3 allow) dict prev b b' w w'' T) as DW1 by (destruct ws2; exact DW).
  pose proof (damaged_window_good _ _ _ _ _ _ _ _ _ DW1) as GW.
  remember (w ++ ws2) as z. destruct RE as [q|q w3 T3 rest3 out3 W3 [NT (x & PW & FD)] R3].
  { exfalso. symmetry in Heqz. apply app_eq_nil in Heqz as [Q _]. apply window_ne in GW. congruence. }
  destruct (window_inj _ _ _ _ _ _ _ _ _ _ _ _ (SF allow true) GW W3 (eq_sym Heqz)) as (<- & <- & <-). clear Heqz W3.
  destruct (damaged_once _ allow dict q b b' w w'' T x NT PW FD DW1) as (u & v & ET & AW).
  remember (w'' ++ ws2) as z. destruct R as [q|q w2 T2 rest2 out2 W2' K2 R2].
  { exfalso. symmetry in Heqz. apply app_eq_nil in Heqz as [Q _]. destruct AW. discriminate Q. }
  destruct (altered_window_read _ _ _ _ _ _ _ _ _ _ _ _ _ (SF allow (target_allowed d)) AW W2' (eq_sym Heqz)) as (_ & -> & <- & A).
  rewrite ET in A. rewrite <- (one_byte_sum _ _ _ _ B B' A), <- ET in R2.
  assert (windows strict strict (file_format 83 rfc_table 4 3 true) dict (fun _ _ => True) (q ++ T) ws2 out3) as R4.
  { clear -R3. induction R3; [constructor|econstructor; eauto]. }
  symmetry. eapply windows_unique; [exact R4|apply SF|exact R2].
Qed.
Print Assumptions C77_stream_partial.

(** ** A case: the letters abc twice, in two chunks, and the second b damaged *)
Definition c77_hello : list Z := [104; 101; 108; 108; 111].
Definition c77_sent (x : Z) : list Z :=
  [5] ++ ([5] ++ [0]) ++ [13] ++ [3] ++ [0] ++ [3] ++ [1] ++ [0] ++ [146; 168; 130; 38] ++ ([97; x; 99] ++ [4] ++ []).
Lemma c77_sent_damaged : forall prev y,
  damaged_window strict (file_format 83 rfc_table 4 3 true) c77_hello prev 98 y (c77_sent 98) (c77_sent y) [97; 98; 99].
Proof.
  intros prev y. unfold c77_sent.
  eapply damaged_window_intro with (seg := c77_hello) (items := [c77_item 98]) (items' := [c77_item y]) (hist := []) (delta_len := 13) (n_data := 3) (n_inst := 1) (n_addr := 0).
  - unfold byte_ok. lia.
  - apply (seg_dict _ _ _ 5 [5] [0] 5 0); [reflexivity|reflexivity|apply digit; lia|apply digit; lia|reflexivity].
  - apply digit. lia.
  - apply digit. change (zlen [97; 98; 99]) with 3. lia.
  - unfold byte_ok. lia.
  - reflexivity.
  - apply digit. lia.
  - apply digit. lia.
  - apply digit. lia.
  - unfold checksum_field. cbn [file_format f_ext]. change ((83 =? 83) && Z.testbit 5 2) with true. cbv iota.
    split; [exists [146; 168; 130], 38; split; [reflexivity|]; split; [repeat constructor; lia|lia]|reflexivity].
  - right. split; [|repeat split]. intros (_ & D & _). discriminate D.
  - reflexivity.
  - cbn [strict t_drop file_format f_table f_near f_same]. change (zlen [97; 98; 99]) with 3.
    eapply im_cons with (s1 := ([], [] ++ [97; 98; 99])) (s2 := ([], [] ++ [97; 98; 99])).
    + unfold byte_ok. cbn. lia.
    + cbn [snd]. rewrite zlen_nil. lia.
    + cbn [c77_item i_op i_first]. change (fst (rfc_table 4)) with (HAdd 3). apply (hm_add 4 3 3 c77_hello 3 [] 3); [rewrite zlen_nil; lia| |reflexivity].
      left. split; [lia|]. split; reflexivity.
    + cbn [c77_item i_op i_second]. change (snd (rfc_table 4)) with HNoop. constructor.
    + constructor.
  - split; reflexivity.
  - apply dis_first. exact (dp_intro 98 y [] [97] [99] []).
  - right. split; [|repeat split]. intros (_ & D & _). discriminate D.
Qed.

Example C77_stream_case : let fl := {| fl_interleaved := false; fl_checksum := true; fl_json := false |} in
  exists e e' delta, streaming_encoder c77_hello fl false = Some e /\ encode_stream e [[97; 98; 99]; [97; 98; 99]] = Some (e', true, delta) /\
  forall y, byte_ok y -> y <> 98 ->
    damaged_file strict strict true (fun _ _ => True) c77_hello 98 y delta (file_header 83 0 ++ c77_sent 98 ++ c77_sent y ++ []) [97; 98; 99] [97; 98; 99; 97; 98; 99] /\
    forall pieces r out, Forall bytes_ok pieces -> concat pieces = file_header 83 0 ++ c77_sent 98 ++ c77_sent y ++ [] ->
      decode_stream new_decoder c77_hello pieces = Some (r, out) -> r = false \/ out = [97; 98; 99; 97; 98; 99].
Proof.
  cbv zeta. set (fl := {| fl_interleaved := false; fl_checksum := true; fl_json := false |}).
  assert (match streaming_encoder c77_hello fl false with
          | Some e => match encode_stream e [[97; 98; 99]; [97; 98; 99]] with Some (_, r, d) => Some (r, d) | None => None end | None => None end =
          Some (true, file_header 83 0 ++ c77_sent 98 ++ c77_sent 98 ++ [])) as X by (vm_compute; reflexivity).
  destruct (streaming_encoder c77_hello fl false) as [e|] eqn:SE; [|discriminate X].
  destruct (encode_stream e [[97; 98; 99]; [97; 98; 99]]) as [[[e' r] delta]|] eqn:ES; [|discriminate X]. injection X as -> ->.
  do 3 eexists. split; [reflexivity|]. split; [exact ES|]. intros y BY NY.
  assert (damaged_file strict strict true (fun _ _ => True) c77_hello 98 y (file_header 83 0 ++ c77_sent 98 ++ c77_sent 98 ++ [])
            (file_header 83 0 ++ c77_sent 98 ++ c77_sent y ++ []) [97; 98; 99] [97; 98; 99; 97; 98; 99]) as DF.
  { apply (damaged_file_intro strict strict true (fun _ _ => True) c77_hello 98 y (file_header 83 0) 83 rfc_table 4 3 (c77_sent 98) [97; 98; 99] (c77_sent 98) (c77_sent y) [97; 98; 99] []).
    - constructor; [right; reflexivity|unfold byte_ok; lia|reflexivity|reflexivity].
    - right. lia.
    - rewrite <- (app_nil_r (c77_sent 98)). apply (ws_cons strict strict _ c77_hello (fun _ _ => True) [] (c77_sent 98) [97; 98; 99] []); [|exact Logic.I|constructor].
      exact (damaged_window_good _ _ _ _ _ _ _ _ _ (c77_sent_damaged [] y)).
    - apply c77_sent_damaged.
    - exact Logic.I.
    - constructor. }
  split; [exact DF|]. intros pieces r out F EP H.
  assert (bytes_ok c77_hello) as BH by (apply bytes_okb_ok; reflexivity).
  assert (zlen c77_hello <= int32_max) as LH by (change (zlen c77_hello) with 5; unfold int32_max; lia).
  assert (Forall (chunk_fits c77_hello) [[97; 98; 99]; [97; 98; 99]]) as FC.
  { assert (chunk_fits c77_hello [97; 98; 99]) as Q; [|auto]. split; [apply bytes_okb_ok; reflexivity|].
    change (zlen c77_hello) with 5. change (zlen [97; 98; 99]) with 3. unfold int32_max. lia. }
  exact (C77_stream_partial c77_hello fl e e' _ _ BH LH eq_refl eq_refl FC SE ES true _ _ _ _ 98 y new_decoder pieces r out DF ltac:(unfold byte_ok; lia) BY ip_new F EP H).
Qed.
