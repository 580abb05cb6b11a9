(** Damaged bytes of a delta with checksums: C77. *)

From Coq Require Import ZifyBool ZifyNat Znumtheory.
From Verif Require Import Base ListFacts Spec SpecEncode SpecInstr SpecShort SpecDamage CopyFacts VarintFacts Varint AddrCache CodeTable InstructionMap CodeTableFacts
  Adler AdlerFacts BodyFacts InstructionMapFacts BlockHash BlockHashFacts EncodeTable WriterFacts Engine EngineFacts Encoder EncoderFacts EncoderCalls
  Unique Sound Decoder Usable Stream Session Reuse Files Chunked Detect DamageFacts Properties_Stream Properties_Decode Properties_Encode Properties_Layout ShortFacts Properties_Shortest.

(** ** The decoder *)

(** [delta] denotes [out]; [delta'] is [delta] except for one byte of the data of an ADD or RUN
    in a window with a checksum that is shorter than 65521 bytes.  However it is divided, with any
    settings of the decoder, it is refused or yields [out] all the same (the latter when the byte was not
    used, in a RUN of size 0). *)
Theorem C77_literal_partial : forall t tl allow ok dict b b' delta delta' T out d pieces r out',
  damaged_file t tl allow ok dict b b' delta delta' T out -> byte_ok b -> byte_ok b' -> zlen T < 65521 ->
  idle_plain d -> bytes_ok dict -> Forall bytes_ok pieces -> concat pieces = delta' ->
  decode_stream d dict pieces = Some (r, out') -> r = false \/ out' = out.
Proof.
  intros t tl allow ok dict b b' delta delta' T out d pieces r out' DF B B' LT IP BD F E H. destruct r; [right|left; reflexivity].
  apply stream_sound in H; auto. rewrite E in H. unfold byte_ok in *.
  eapply damaged_file_read; [exact DF|lia|exact LT|exact H].
Qed.
Print Assumptions C77_literal_partial.

(** A damaged window of which only the dictionary is copied *)
Lemma damaged_once : forall il allow dict prev b b' w w' T x,
  T <> [] -> plain_window il true dict w T x -> Forall (from_dict dict) x ->
  damaged_window strict {| f_ext := true; f_table := rfc_table; f_near := 4; f_same := 3; f_target := allow |} dict prev b b' w w' T ->
  exists u v, T = u ++ b :: v /\
    altered_window strict {| f_ext := true; f_table := rfc_table; f_near := 4; f_same := 3; f_target := allow |} dict prev w' T (u ++ b' :: v).
Proof.
  intros il allow dict prev b b' w w' T x NT P F W. set (f := {| f_ext := true; f_table := rfc_table; f_near := 4; f_same := 3; f_target := allow |}) in *.
  inversion P as [bs bp bd0 bt0 bnd0 bni0 bna0 bck0 items1 hist1 T1 l1 data inst addr body1 rest V1 V2 V3 V4 V5 V6 V7 V8 IR EW ET EL]. subst T1 l1.
  destruct W as [ind sb seg bd dl bt di bnd nd bni ni bna na bcks items body hist T items0 body0 BI SG VD VT BDI DI VND VNI VNA CF LA0 DL IM0 CK DA LA].
  clear P. unfold rest in EW. cbn [app] in EW. rewrite <- ?app_assoc in EW. injection EW as <- E.
  assert (segment f dict prev 5 (bs ++ bp) dict) as SG1.
  { eapply seg_dict; [reflexivity|reflexivity|exact V1|exact V2|apply slice_whole]. }
  rewrite (app_assoc bs bp) in E.
  destruct (segment_inj _ _ _ _ _ _ _ _ _ _ _ SG1 SG E) as (<- & <- & E1). clear E.
  destruct (varint_inj _ _ _ _ _ _ V3 VD E1) as (<- & _ & E). clear E1.
  destruct (varint_inj _ _ _ _ _ _ V4 VT E) as (<- & _ & E1). clear E. injection E1 as <- E1.
  destruct (varint_inj _ _ _ _ _ _ V5 VND E1) as (<- & Q1 & E). clear E1.
  destruct (varint_inj _ _ _ _ _ _ V6 VNI E) as (<- & Q2 & E1). clear E.
  destruct (varint_inj _ _ _ _ _ _ V7 VNA E1) as (<- & Q3 & E). clear E1.
  assert (varint bcks (adler_sum 0 T)) as CF1 by exact CF.
  destruct (varint_inj _ _ _ _ _ _ V8 CF1 E) as (<- & _ & E1). clear E.
  pose proof (items_read_means _ _ _ _ _ _ _ _ _ IR) as IM1.
  assert (items1 = items) as ->.
  { pose proof LA0 as LB. unfold layout in LB. destruct il.
    - destruct LB as [(IL & BB & _)|(IL & _)]; [|exfalso; apply IL; split; [reflexivity|split; congruence]].
      edestruct (items_inj false false rfc_table 4 3 (zlen T) dict true items1 ([], []) (hist1, T) ltac:(lia) IM1 eq_refl items (hist, T) nil3 nil3) as (Q & _ & _);
        [exact IM0|reflexivity| |exact Q]. unfold body1 in E1. cbn. rewrite <- BB, <- E1. reflexivity.
    - destruct LB as [(IL & BB & _)|(IL & N1 & N2 & N3 & BB)].
      + exfalso. destruct IL as (_ & I1 & I2). apply NT.
        refine (items_nothing _ _ _ _ _ _ _ _ _ IR _ _); apply zlen_0_nil; [change (zlen data = 0)|change (zlen addr = 0)]; lia.
      + rewrite BB in E1. unfold body1 in E1.
        destruct (app_len_inj _ _ _ _ (eq_trans Q1 N1) E1) as [R1 E2].
        destruct (app_len_inj _ _ _ _ (eq_trans Q2 N2) E2) as [R2 R3].
        edestruct (items_inj false false rfc_table 4 3 (zlen T) dict false items1 ([], []) (hist1, T) ltac:(lia) IM1 eq_refl items (hist, T) nil3 nil3) as (Q & _ & _);
          [exact IM0|reflexivity| |exact Q]. unfold data in R1. unfold inst in R2. unfold addr in R3. cbn. rewrite R1, R2, R3. reflexivity. }
  destruct (items_once_damaged b b' items items0 DA _ _ _ _ _ _ _ _ IR F) as (u & v & ET2 & IM). cbn [fst snd app] in ET2, IM.
  exists u, v. split; [exact ET2|].
  eapply altered_window_intro; [exact SG|exact V3|exact V4|exact V5|exact V6|exact V7|exact CF| |exact IM|exact CK|].
  - rewrite Q1, Q2, Q3. exact LA.
  - rewrite ET2, !zlen_app, !zlen_cons. reflexivity.
Qed.

Lemma one_byte_sum : forall u b b' v, byte_ok b -> byte_ok b' -> adler_sum 0 (u ++ b :: v) = adler_sum 0 (u ++ b' :: v) -> b = b'.
Proof.
  intros u b b' v B B' A. apply adler_sum_parts in A as [_ A].
  assert (forall x y, byte_sum (x ++ y) = byte_sum x + byte_sum y) as S by (induction x; intros y; cbn [app byte_sum]; [lia|rewrite IHx; lia]).
  rewrite !S in A. cbn [byte_sum] in A. unfold byte_ok in *. apply small_multiple in A; lia.
Qed.

(** ** The encoder *)

Lemma ext_format : forall allow allow', Unique.same_format {| f_ext := true; f_table := rfc_table; f_near := 4; f_same := 3; f_target := allow |} (file_format 83 rfc_table 4 3 allow').
Proof.
  intros allow allow'. unfold Unique.same_format. cbn [file_format f_ext f_table f_near f_same f_target]. split; [reflexivity|]. split; [lia|]. auto.
Qed.

(** Without target matching a window of any size is safe: a literal of the delta occurs once in the
    target. *)
Theorem C77_encoder_partial : forall dict fl e e' data delta,
  bytes_ok dict -> zlen dict <= int32_max -> fl_json fl = false -> fl_checksum fl = true -> chunk_fits dict data -> data <> [] ->
  streaming_encoder dict fl false = Some e -> encode_stream e [data] = Some (e', true, delta) ->
  exists w, delta = file_start true ++ w /\
  forall allow w' b b' d pieces r out,
    damaged_window strict (file_format 83 rfc_table 4 3 allow) dict [] b b' w w' data -> byte_ok b -> byte_ok b' ->
    idle_plain d -> Forall bytes_ok pieces -> concat pieces = file_start true ++ w' ->
    decode_stream d dict pieces = Some (r, out) -> r = false \/ out = data.
Proof.
  intros dict fl e e' data delta BD L J CK CF NE SE ES.
  pose proof SE as SE0. destruct (streaming_encoder_ok dict fl false BD L) as (en & EN & SE'). rewrite SE in SE'. injection SE' as ->.
  destruct (new_encoder_inv en dict fl false true EN L J) as (im & EI).
  destruct (start_encoding_ok _ _ _ _ _ EI) as (c & _ & ST & EI1).
  unfold encode_stream in ES. rewrite ST in ES. cbn [encode_chunks] in ES.
  set (e1 := set_coder (new_encoder en fl false) _ true) in *.
  destruct (encode_chunk e1 data) as [[[e2 r2] w]|] eqn:EC; [|discriminate ES].
  destruct r2; [|discriminate ES].
  assert (do_ecalls (new_encoder en fl false) [EStart] = Some (e1, [(true, write_header fl)])) as DC.
  { cbn [do_ecalls do_ecall]. rewrite ST. reflexivity. }
  assert (Forall (call_fits dict) [EStart]) as FS by (constructor; [exact Logic.I|constructor]).
  destruct (C64_shortest_window dict fl false _ [EStart] e1 _ data e2 w BD L J SE0 FS DC CF NE EC) as (x & GP & PW & _).
  destruct (encode_chunk_ok e1 dict im _ _ data [] EI1 eq_refl) as (w' & o & EC' & EI2 & _); [apply CF|apply CF|apply CF|].
  rewrite EC in EC'. injection EC' as -> <-.
  unfold finish_encoding in ES. cbn [set_coder ec_allowed ec_coder coder_finish negb] in ES. rewrite app_nil_r in ES.
  change (ec_flags (new_encoder en fl false)) with fl in ES. assert (delta = write_header fl ++ w) as -> by congruence. clear ES.
  exists w. rewrite (header_of fl J). unfold version_of. rewrite CK, orb_true_r. split; [reflexivity|].
  intros allow w'' b b' d pieces r out DW B B' IP F E H. destruct r; [right|left; reflexivity].
  rewrite CK in PW.
  destruct (damaged_once _ allow dict [] b b' w w'' data x NE PW (plan_from_dict _ _ _ _ _ GP) DW) as (u & v & -> & AW).
  apply stream_sound in H; auto. rewrite E in H. clear E.
  change (file_start true) with (file_header 83 0) in H.
  assert (head strict strict (file_header 83 0) 83 rfc_table 4 3) as HD by (constructor; [right; reflexivity|unfold byte_ok; lia|reflexivity|reflexivity]).
  remember (file_header 83 0 ++ w'') as X. destruct H as [|h' v' tbl' ns' ss' ws' out HD' MF' WS']; [discriminate HeqX|].
  destruct (head_inj _ _ _ _ _ _ _ HD _ _ _ _ _ _ _ _ _ HD' (eq_sym HeqX)) as (<- & <- & <- & <- & <- & <-).
  assert (exists z, w'' = z :: tl w'') as (z & NW) by (destruct AW; eexists; reflexivity).
  assert (Unique.same_format {| f_ext := true; f_table := rfc_table; f_near := 4; f_same := 3; f_target := allow |} (file_format 83 rfc_table 4 3 (target_allowed d))) as SF
    by apply ext_format.
  clear HeqX HD'. remember (@nil Z) as p0 eqn:P0 in WS'. rewrite <- (app_nil_r w'') in WS'. remember (w'' ++ []) as y0.
  destruct WS' as [q|q w2 T2 rest out W2 K2 R2]; [rewrite app_nil_r in Heqy0; congruence|]. subst q.
  destruct (altered_window_read _ _ _ _ _ _ _ _ _ _ _ _ _ SF AW W2 (eq_sym Heqy0)) as (_ & -> & <- & A).
  apply windows_nil in R2. subst out. cbn [app]. rewrite (one_byte_sum _ _ _ _ B B' A). reflexivity.
Qed.
Print Assumptions C77_encoder_partial.

(** ** The standard layout: the data section is what can be damaged in this way *)

Theorem C77_data_section : forall t f dict prev w T, Spec.window t f dict prev w T -> f_ext f = true -> Z.testbit (hd 0 w) 2 = true ->
  exists A D B dcl, w = A ++ D ++ B /\ declares true A dcl /\ h_data_len dcl = zlen D /\
    forall u b v b', D = u ++ b :: v -> damaged_window t f dict prev b b' w (A ++ (u ++ b' :: v) ++ B) T.
Proof.
  intros t f dict prev w T W FE TB.
  destruct W as [ind sb seg bd dl bt di bnd nd bni ni bna na bcks items body hist T BI SG VD VT BDI DI VND VNI VNA CF LA DL IM].
  cbn [app hd] in TB.
  assert (segment_fields ind sb) as SF.
  { unfold segment_fields. destruct SG as [Z0 Z1|b1 b2 len pos s0 Z0 Z1 V1 V2 SL|b1 b2 len pos s0 Z0 Z1 FT V1 V2 SL]; rewrite Z0, Z1; cbn [orb]; [reflexivity| |]; exists b1, len, b2, pos; auto. }
  assert (checksum_bytes true ind bcks (Some (adler_sum 0 T))) as CB.
  { unfold checksum_bytes. rewrite TB. cbn [andb]. unfold checksum_field in CF. rewrite FE, TB in CF. exists (adler_sum 0 T). auto. }
  pose proof (declares_intro true ind sb bd dl bt (zlen T) di bnd nd bni ni bna na bcks (Some (adler_sum 0 T)) SF VD VT VND VNI VNA CB) as DC.
  pose proof LA as LB. destruct LB as [((_ & N0 & _) & BB & NI)|(IL & N1 & N2 & N3 & BB)].
  - exists ([ind] ++ sb ++ bd ++ bt ++ [di] ++ bnd ++ bni ++ bna ++ bcks), [], body. eexists.
    split; [cbn [app]; rewrite <- !app_assoc; cbn [app]; rewrite <- ?app_assoc; reflexivity|]. split; [exact DC|]. split; [cbn [h_data_len]; rewrite zlen_nil; exact N0|].
    intros u b v b' E. destruct u; discriminate E.
  - exists ([ind] ++ sb ++ bd ++ bt ++ [di] ++ bnd ++ bni ++ bna ++ bcks), (concat (map item_data items)), (concat (map item_inst items) ++ concat (map item_addr items)). eexists.
    split; [rewrite BB; cbn [app]; rewrite <- !app_assoc; cbn [app]; rewrite <- ?app_assoc; reflexivity|]. split; [exact DC|]. split; [exact N1|].
    intros u b v b' E. destruct (data_position b b' items u v E) as (items' & DA & ED & EI & EA).
    replace (([ind] ++ sb ++ bd ++ bt ++ [di] ++ bnd ++ bni ++ bna ++ bcks) ++ (u ++ b' :: v) ++ concat (map item_inst items) ++ concat (map item_addr items))
      with ([ind] ++ sb ++ bd ++ bt ++ [di] ++ bnd ++ bni ++ bna ++ bcks ++ ((u ++ b' :: v) ++ concat (map item_inst items) ++ concat (map item_addr items)))
      by (cbn [app]; rewrite <- !app_assoc; cbn [app]; rewrite <- ?app_assoc; reflexivity).
    eapply damaged_window_intro; eauto. right. rewrite ED, EI, EA. split; [exact IL|]. split; [|auto].
    rewrite N1, E, !zlen_app, !zlen_cons. reflexivity.
Qed.
Print Assumptions C77_data_section.

(** ** What is not noticed *)

Lemma run_sums : forall x n, byte_sum (repeat x n) = Z.of_nat n * x /\ 2 * weighted_sum (repeat x n) = x * (Z.of_nat n * (Z.of_nat n + 1)).
Proof.
  intros x n. induction n as [|n [I1 I2]]; [cbn; lia|]. cbn [repeat byte_sum weighted_sum].
  assert (zlen (x :: repeat x n) = Z.of_nat (S n)) as -> by (rewrite <- (zlen_zrepeat _ x (Z.of_nat (S n))) by lia; unfold zrepeat; rewrite Nat2Z.id; reflexivity).
  rewrite I1. split; [lia|]. rewrite Z.mul_add_distr_l, I2. lia.
Qed.
(** Any byte repeated 65521 times has the checksum 0. *)
Lemma run_adler : forall x, adler_sum 0 (zrepeat x 65521) = 0.
Proof.
  intros x. unfold zrepeat. destruct (run_sums x (Z.to_nat 65521)) as [S1 S2]. unfold adler_sum. rewrite S1. rewrite Z2Nat.id in * by lia.
  assert (weighted_sum (repeat x (Z.to_nat 65521)) = (x * 32761) * 65521) as -> by lia.
  rewrite Z.mul_0_l, !Z.add_0_l, Z.mod_mul by lia. rewrite Z.mul_0_l, Z.add_0_l, Z.mul_comm. apply Z.mod_mul. lia.
Qed.

(** A window with a checksum and one RUN of 65521 bytes: 131 255 113 is 65521. *)
Definition run_window (x : Z) : list Z := [4] ++ [] ++ [13] ++ [131; 255; 113] ++ [0] ++ [1] ++ [4] ++ [0] ++ [0] ++ ([x] ++ [0; 131; 255; 113] ++ []).
Definition run_delta (x : Z) : list Z := [214; 195; 196; 83; 0] ++ run_window x.
Definition run_item (x : Z) : item := {| i_op := 0; i_first := {| p_size := [131; 255; 113]; p_data := [x]; p_addr := [] |}; i_second := no_piece |}.

Lemma digit : forall d, 0 <= d < 128 -> varint [d] d.
Proof. intros d D. split; [exists [], d; auto|]. cbn. apply Z.mod_small. exact D. Qed.
Lemma run_size : varint [131; 255; 113] 65521.
Proof. split; [exists [131; 255], 113; split; [reflexivity|]; split; [repeat constructor; lia|lia]|reflexivity]. Qed.
Lemma run_length : forall x : Z, zlen (zrepeat x 65521) = 65521. Proof. intros x. apply zlen_zrepeat. lia. Qed.

Lemma run_damaged : forall x y allow, damaged_window strict (file_format 83 rfc_table 4 3 allow) [] [] x y (run_window x) (run_window y) (zrepeat x 65521).
Proof.
  intros x y allow. unfold run_window.
  eapply damaged_window_intro with (seg := []) (items := [run_item x]) (items' := [run_item y]) (hist := []) (delta_len := 13) (n_data := 1) (n_inst := 4) (n_addr := 0).
  - unfold byte_ok. lia.
  - constructor; reflexivity.
  - apply digit. lia.
  - rewrite run_length. exact run_size.
  - unfold byte_ok. lia.
  - reflexivity.
  - apply digit. lia.
  - apply digit. lia.
  - apply digit. lia.
  - unfold checksum_field. cbn [file_format f_ext]. change ((83 =? 83) && Z.testbit 4 2) with true. cbv iota. rewrite run_adler. apply digit. lia.
  - right. split; [|repeat split]. intros (_ & D & _). discriminate D.
  - reflexivity.
  - cbn [strict t_drop file_format f_table f_near f_same]. rewrite run_length.
    eapply im_cons with (s1 := ([], [] ++ zrepeat x 65521)) (s2 := ([], [] ++ zrepeat x 65521)).
    + unfold byte_ok. cbn. lia.
    + cbn [snd]. rewrite zlen_nil. lia.
    + cbn [run_item i_op i_first]. change (fst (rfc_table 0)) with (HRun 0). apply hm_run; [rewrite zlen_nil; lia|]. right. split; [reflexivity|exact run_size].
    + cbn [run_item i_op i_second]. change (snd (rfc_table 0)) with HNoop. constructor.
    + constructor.
  - split; reflexivity.
  - apply dis_first. exact (dp_intro x y [131; 255; 113] [] [] []).
  - right. split; [|repeat split]. intros (_ & D & _). discriminate D.
Qed.

Lemma run_damaged_file : forall x y allow (ok : list Z -> list Z -> Prop), ok [] (zrepeat x 65521) ->
  damaged_file strict strict allow ok [] x y (run_delta x) (run_delta y) (zrepeat x 65521) (zrepeat x 65521).
Proof.
  intros x y allow ok K.
  replace (run_delta x) with (file_header 83 0 ++ [] ++ run_window x ++ []) by (rewrite app_nil_r; reflexivity).
  replace (run_delta y) with (file_header 83 0 ++ [] ++ run_window y ++ []) by (rewrite app_nil_r; reflexivity).
  apply (damaged_file_intro strict strict allow ok [] x y (file_header 83 0) 83 rfc_table 4 3 [] [] (run_window x) (run_window y) (zrepeat x 65521) []).
  - constructor; [right; reflexivity|unfold byte_ok; lia|reflexivity|reflexivity].
  - right. lia.
  - constructor.
  - exact (run_damaged x y allow).
  - exact K.
  - constructor.
Qed.

Lemma run_decodes : forall x, byte_ok x -> decode_stream new_decoder [] [run_delta x] = Some (true, zrepeat x 65521).
Proof.
  intros x B. pose proof (run_length x) as RL.
  assert (within (max_window new_decoder) (max_file new_decoder) [] (zrepeat x 65521)) as K.
  { split; rewrite ?zlen_nil, RL; cbv; discriminate. }
  apply (C05_decoder_complete strict); [apply ip_new|constructor| | |reflexivity| | | | |].
  - constructor; [|constructor]. unfold run_delta, run_window. apply bytes_ok_app. split; [apply bytes_okb_ok; reflexivity|].
    cbn [app]. repeat (apply Forall_cons; [first [exact B|unfold byte_ok; lia]|]). constructor.
  - apply no_code_table_bad. intros v ind tl E. cbn in E. injection E as _ <- _. reflexivity.
  - cbn [concat]. rewrite app_nil_r. exact (damaged_file_good _ _ _ _ _ _ _ _ _ _ _ (run_damaged_file x x _ _ K)).
  - cbn [concat]. rewrite app_nil_r. vm_compute. discriminate.
  - vm_compute. discriminate.
  - rewrite RL. vm_compute. discriminate.
  - rewrite RL, zlen_nil. unfold int32_max. lia.
Qed.

(** The length in [C77_literal_partial] is sharp: one damaged byte turns 65521 letters a into as many
    letters b, and the checksum still fits. *)
Theorem C77_refuted : exists delta delta' T,
  zlen T = 65521 /\ damaged_file strict strict true (fun _ _ => True) [] 97 98 delta delta' T T /\
  decode_stream new_decoder [] [delta] = Some (true, T) /\
  exists T', T' <> T /\ decode_stream new_decoder [] [delta'] = Some (true, T').
Proof.
  exists (run_delta 97), (run_delta 98), (zrepeat 97 65521). split; [apply run_length|]. split; [apply run_damaged_file; exact Logic.I|].
  split; [apply run_decodes; unfold byte_ok; lia|]. exists (zrepeat 98 65521). split; [|apply run_decodes; unfold byte_ok; lia].
  intros E. assert (hd 0 (zrepeat 98 65521) = hd 0 (zrepeat 97 65521)) as X by (rewrite E; reflexivity).
  unfold zrepeat in X. replace (Z.to_nat 65521) with (S (Z.to_nat 65520)) in X by lia. cbn [repeat hd] in X. discriminate X.
Qed.
Print Assumptions C77_refuted.

(** Bytes that are not data of an instruction: with its address changed a COPY takes another part of the
    dictionary, which can have the same checksum.  The delta is one that the encoder writes. *)
Definition c77_text : list Z := map (fun k => 65 + Z.of_nat k) (seq 0 40).
Definition c77_other : list Z := [66; 64; 68] ++ skipn 3 c77_text.
Theorem C77_other_byte_refuted : exists dict fl e e' chunk front b b' out, fl_checksum fl = true /\
  streaming_encoder dict fl true = Some e /\ encode_stream e [chunk] = Some (e', true, front ++ [b]) /\ out <> chunk /\
  decode_stream new_decoder dict [front ++ [b']] = Some (true, out).
Proof.
  destruct (streaming_encoder (c77_text ++ c77_other) {| fl_interleaved := false; fl_checksum := true; fl_json := false |} true) as [e|] eqn:EE;
    [|exfalso; revert EE; vm_compute; discriminate].
  destruct (encode_stream e [c77_other]) as [[[e' r] d]|] eqn:ES.
  2: { exfalso. revert ES. apply (f_equal (fun o => match o with Some x => x | None => e end)) in EE. rewrite <- EE. vm_compute. discriminate. }
  assert (r = true /\ d = [214; 195; 196; 83; 0; 5; 80; 0; 13; 40; 0; 0; 2; 1; 143; 206; 224; 154; 52; 19; 40] ++ [40]) as [-> ->].
  { assert (match streaming_encoder (c77_text ++ c77_other) {| fl_interleaved := false; fl_checksum := true; fl_json := false |} true with
            | Some e => match encode_stream e [c77_other] with Some (_, r, d) => Some (r, d) | None => None end | None => None end =
            Some (true, [214; 195; 196; 83; 0; 5; 80; 0; 13; 40; 0; 0; 2; 1; 143; 206; 224; 154; 52; 19; 40] ++ [40])) as X by (vm_compute; reflexivity).
    rewrite EE, ES in X. injection X as -> ->. auto. }
  exists (c77_text ++ c77_other), {| fl_interleaved := false; fl_checksum := true; fl_json := false |}, e, e', c77_other,
    [214; 195; 196; 83; 0; 5; 80; 0; 13; 40; 0; 0; 2; 1; 143; 206; 224; 154; 52; 19; 40], 40, 0, c77_text.
  split; [reflexivity|]. split; [exact EE|]. split; [exact ES|]. split; [vm_compute; discriminate|vm_compute; reflexivity].
Qed.
Print Assumptions C77_other_byte_refuted.

(** ** Cases: the letters abc as one ADD *)
Definition c77_window (x : Z) : list Z := [4] ++ [] ++ [13] ++ [3] ++ [0] ++ [3] ++ [1] ++ [0] ++ [146; 168; 130; 38] ++ ([97; x; 99] ++ [4] ++ []).
Definition c77_item (x : Z) : item := {| i_op := 4; i_first := {| p_size := []; p_data := [97; x; 99]; p_addr := [] |}; i_second := no_piece |}.
Example C77_case_damaged :
  damaged_file strict strict true (fun _ _ => True) [] 98 120 (file_header 83 0 ++ [] ++ c77_window 98 ++ []) (file_header 83 0 ++ [] ++ c77_window 120 ++ [])
    [97; 98; 99] [97; 98; 99] /\ zlen [97; 98; 99] < 65521.
Proof.
  split; [|reflexivity].
  apply (damaged_file_intro strict strict true (fun _ _ => True) [] 98 120 (file_header 83 0) 83 rfc_table 4 3 [] [] (c77_window 98) (c77_window 120) [97; 98; 99] []).
  - constructor; [right; reflexivity|unfold byte_ok; lia|reflexivity|reflexivity].
  - right. lia.
  - constructor.
  - unfold c77_window.
    eapply damaged_window_intro with (seg := []) (items := [c77_item 98]) (items' := [c77_item 120]) (hist := []) (delta_len := 13) (n_data := 3) (n_inst := 1) (n_addr := 0).
    + unfold byte_ok. lia.
    + constructor; reflexivity.
    + apply digit. lia.
    + apply digit. change (zlen [97; 98; 99]) with 3. lia.
    + unfold byte_ok. lia.
    + reflexivity.
    + apply digit. lia.
    + apply digit. lia.
    + apply digit. lia.
    + unfold checksum_field. cbn [file_format f_ext]. change ((83 =? 83) && Z.testbit 4 2) with true. cbv iota.
      split; [exists [146; 168; 130], 38; split; [reflexivity|]; split; [repeat constructor; lia|lia]|reflexivity].
    + right. split; [|repeat split]. intros (_ & D & _). discriminate D.
    + reflexivity.
    + cbn [strict t_drop file_format f_table f_near f_same]. change (zlen [97; 98; 99]) with 3.
      eapply im_cons with (s1 := ([], [] ++ [97; 98; 99])) (s2 := ([], [] ++ [97; 98; 99])).
      * unfold byte_ok. cbn. lia.
      * cbn [snd]. rewrite zlen_nil. lia.
      * cbn [c77_item i_op i_first]. change (fst (rfc_table 4)) with (HAdd 3). apply (hm_add 4 3 3 [] 3 [] 3); [rewrite zlen_nil; lia| |reflexivity].
        left. split; [lia|]. split; reflexivity.
      * cbn [c77_item i_op i_second]. change (snd (rfc_table 4)) with HNoop. constructor.
      * constructor.
    + split; reflexivity.
    + apply dis_first. exact (dp_intro 98 120 [] [97] [99] []).
    + right. split; [|repeat split]. intros (_ & D & _). discriminate D.
  - exact Logic.I.
  - constructor.
Qed.
Example C77_case :
  decode_stream new_decoder [] [file_header 83 0 ++ c77_window 98] = Some (true, [97; 98; 99]) /\
  option_map fst (decode_stream new_decoder [] [file_header 83 0 ++ c77_window 120]) = Some false.
Proof. split; vm_compute; reflexivity. Qed.
