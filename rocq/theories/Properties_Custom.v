(** C63: an encoder with a code table of its own.

    VCDiffStreamingEncoder takes a VCDiffCodeTableWriter that was constructed with a code
    table and cache sizes (vcencoder.h 159-164, encodetable.h 58-73).  A code table is given
    here as the 1536 bytes [s] of the struct, in the order of RFC section 7;
    [usable_table] (Spec.v) is what Validate accepts (C31). *)

From Verif Require Import Base ListFacts Spec SpecEncode CopyFacts Varint VarintFacts AddrCache CodeTable InstructionMap CodeTableFacts
  BodyFacts InstructionMapFacts EncodeTable WriterFacts RollingHash BlockHash BlockHashFacts Engine EngineFacts JsonWriter Encoder EncoderFacts
  Sound Decoder Usable Stream Session Reuse Files Unique MapTotal SpecLong LongStream LongEncode Properties_Decode Properties_Encode Properties_Long.
From Coq Require Import ZifyBool ZifyNat.

(** Every entry "NOOP, instruction" has a size that is not above all sizes of first
    instructions: the condition of C62. *)
Definition sizes_in_map (s : list Z) : Prop :=
  let at_ k op := nth (Z.to_nat (k * 256 + op)) s 0 in
  forall op, byte_ok op -> at_ 0 op = 0 -> at_ 1 op <> 0 -> exists op', byte_ok op' /\ at_ 3 op <= at_ 2 op'.

(** The encoder: a HashedDictionary for [dict], and a writer for the table [s] with caches of
    [ns] and [ss] entries (vcencoder.cc 57-67, 176-184; encodetable.cc 68-84). *)
Definition custom_encoder (dict : list Z) (fl : flags) (look il : bool) (ns ss : Z) (s : list Z) : option encoder :=
  match engine_init (new_engine dict) with
  | Some (en, true) => Some (new_custom_encoder en fl look (Binary (new_custom_writer il ns ss (table_of_bytes s) (1 + ns + ss))))
  | _ => None
  end.

Lemma custom_base : forall il ns ss s, bytes_ok s -> zlen s = 1536 -> 0 <= ns <= 253 -> 0 <= ss -> ns + ss <= 254 ->
  usable_table (ns + ss + 1) s -> sizes_in_map s ->
  exists im, wbase (new_custom_writer il ns ss (table_of_bytes s) (1 + ns + ss)) im.
Proof.
  intros il ns ss s B L N S NS U M. pose proof (table_of_bytes_ok s B L) as TO.
  destruct (validate_usable s (1 + ns + ss) B L) as (b & V & IFF); [lia|].
  replace (ns + ss + 1) with (1 + ns + ss) in U by lia. apply IFF in U. subst b.
  assert (make_map (table_of_bytes s) (1 + ns + ss) <> None) as MK.
  { apply make_map_total; [exact TO|lia|exact V|]. intros op O I1 I2. destruct (table_of_bytes_get s op O) as (A1 & A2 & _ & A4 & _).
    destruct (M op O) as (op' & O' & LE); [congruence|congruence|]. exists op'. split; [exact O'|].
    destruct (table_of_bytes_get s op' O') as (_ & _ & A3 & _). rewrite A3, A4. exact LE. }
  destruct (make_map (table_of_bytes s) (1 + ns + ss)) as [im|] eqn:E; [|congruence]. exists im.
  constructor; cbn [new_custom_writer wr_table wr_max_mode wr_near wr_same wr_map wr_inst wr_data wr_addr]; auto; lia.
Qed.

Lemma custom_inv : forall en dict fl look il ns ss s v allow, engine_ok en dict -> zlen dict <= int32_max ->
  bytes_ok s -> zlen s = 1536 -> 0 <= ns <= 253 -> 0 <= ss -> ns + ss <= 254 -> usable_table (ns + ss + 1) s -> sizes_in_map s ->
  v = 83 \/ (il = false /\ fl_checksum fl = false) ->
  exists im, einv (new_custom_encoder en fl look (Binary (new_custom_writer il ns ss (table_of_bytes s) (1 + ns + ss)))) dict im
    (new_custom_writer il ns ss (table_of_bytes s) (1 + ns + ss)) (file_format v (table_of_string s) ns ss allow).
Proof.
  intros en dict fl look il ns ss s v allow EN L B LS N S NS U M V.
  destruct (custom_base il ns ss s B LS N S NS U M) as (im & W). exists im.
  constructor; cbn [new_custom_encoder ec_engine ec_coder ec_flags ec_allowed]; auto; [|discriminate].
  unfold writes. cbn [file_format f_table f_near f_same f_ext new_custom_writer wr_table wr_near wr_same wr_il wr_has_cks].
  split; [intros op O; apply entry_of_bytes; exact O|]. split; [reflexivity|]. split; [reflexivity|].
  destruct V as [-> | [-> ->]]; split; try split; auto; discriminate.
Qed.

Lemma varint_inv : forall p v, varint p v -> bytes_ok p.
Proof. intros p v [H _]. apply is_varint_bytes_ok. exact H. Qed.

(** With the header replaced by one that announces the cache sizes and contains the table,
    encoded with VCDiffEncoder and the default code table as dictionary, the delta is
    decoded, in any pieces, to the target.  The version must be 'S' if the windows use an
    extension.  Missing for the full claim: the header that the encoder itself
    writes, with which it is false, and tables that break the condition of C62. *)
Theorem C63_custom_table_partial : forall dict chunks s ns ss il fl look tfl tlook v b_near b_same d,
  bytes_ok dict -> Forall bytes_ok chunks -> bytes_ok s -> zlen s = 1536 ->
  0 <= ns <= 253 -> 0 <= ss -> ns + ss <= 254 -> usable_table (ns + ss + 1) s -> sizes_in_map s ->
  zlen dict <= 2147483647 -> Forall (chunk_size_ok dict) chunks ->
  fl_json tfl = false -> (v = 83 \/ (v = 0 /\ il = false /\ fl_checksum fl = false)) ->
  varint b_near ns -> varint b_same ss -> zlen b_near <= 5 -> zlen b_same <= 5 ->
  idle_plain d -> Forall (fun c => zlen c <= max_window d) chunks -> zlen (concat chunks) <= max_file d ->
  exists e e' header windows v' table_delta,
    custom_encoder dict fl look il ns ss s = Some e /\
    encode_stream e chunks = Some (e', true, header ++ windows) /\ zlen header = 5 /\
    encode (set_target_matching (set_format_flags (new_vcdiff_encoder (string_of_table rfc_table)) tfl) tlook) s = Some (v', true, table_delta) /\
    forall pieces, concat pieces = file_header v 2 ++ b_near ++ b_same ++ table_delta ++ windows ->
      decode_stream d dict pieces = Some (true, concat chunks).
Proof.
  intros dict chunks s ns ss il fl look tfl tlook v b_near b_same d BD F BS LS N S NS U M L L2 J V VN VS LN LB IP MW MF.
  pose proof (zlen_nonneg _ dict). pose proof (zlen_nonneg _ (concat chunks)). pose proof (zlen_nonneg _ chunks).
  destruct (engine_init_ok dict BD) as (en & EI & EN); [exact L|].
  destruct (custom_inv en dict fl look il ns ss s v false EN) as (im & INV); auto; [tauto|].
  destruct (encode_stream_long _ dict im _ _ (window_sized dict (within (max_window d) (max_file d))) chunks INV) as (w' & ws & ES & BW & WS).
  { apply chunks_size_ok; auto. }
  { intros pre c post w1 EQ NE LW. split; [apply (chunks_within _ _ chunks MW MF pre c post EQ NE)|].
    assert (In c chunks) as IN by (rewrite EQ; apply in_or_app; right; left; reflexivity).
    rewrite Forall_forall in L2. destruct (L2 c IN). unfold int32_max. lia. }
  destruct (encode_first (string_of_table rfc_table) tfl tlook) as (en' & EN' & EF).
  { apply bytes_okb_ok. vm_compute. reflexivity. }
  { vm_compute. discriminate. }
  assert (zlen (string_of_table rfc_table) = 1536) as LR by (vm_compute; reflexivity).
  destruct (new_encoder_inv en' (string_of_table rfc_table) tfl tlook true EN') as (im' & INV'); [rewrite LR; unfold int32_max; lia|exact J|].
  destruct (encode_stream_ok _ (string_of_table rfc_table) im' _ _ table_limit [s] INV') as (w2 & ws2 & ES2 & _ & BW2 & WS2 & LW2).
  { constructor; [|constructor]. split; [exact BS|]. rewrite LR, LS. unfold int32_max. lia. }
  { intros pre c post E NE. destruct pre as [|x pre]; [|destruct pre; discriminate]. injection E as <- <-. cbn [concat].
    split; [split|]; rewrite ?LS, ?zlen_nil; lia. }
  cbn [concat] in WS2, LW2. rewrite app_nil_r in WS2, LW2. rewrite zlen_cons, zlen_nil, LS in LW2.
  destruct (write_header_bytes fl) as [HB HL]. destruct (write_header_bytes tfl) as [HB2 HL2].
  eexists _, _, (write_header fl), ws, _, (write_header tfl ++ ws2).
  split; [unfold custom_encoder; rewrite EI; reflexivity|].
  split; [exact ES|]. split; [exact HL|].
  split; [rewrite EF, ES2; cbn [new_encoder new_custom_encoder ec_flags]; reflexivity|].
  intros pieces EP. assert (v = 0 \/ v = 83) as V' by tauto.
  assert (bytes_ok (file_header v 2)) as HB3 by (destruct V' as [-> | ->]; apply bytes_okb_ok; reflexivity).
  assert (head strict strict (file_header v 2 ++ b_near ++ b_same ++ write_header tfl ++ ws2) v (table_of_string s) ns ss) as HD.
  { eapply head_custom with (version' := version_of tfl) (tbl' := rfc_table) (ns' := 4) (ss' := 3) (s := s); auto; try lia.
    - unfold byte_ok; lia.
    - rewrite header_of by exact J. constructor; auto; [|unfold byte_ok; lia]. unfold version_of. destruct (_ || _); auto.
    - right. lia.
    - left. rewrite Z.mod_small by lia. auto. }
  apply (C82_decoder_complete strict d dict (file_header v 2 ++ b_near ++ b_same ++ write_header tfl ++ ws2) v (table_of_string s) ns ss ws); auto.
  - right. lia.
  - rewrite !zlen_app, HL2. change (zlen (file_header v 2)) with 5. lia.
  - apply bytes_ok_concat. rewrite EP. rewrite !bytes_ok_app. pose proof (varint_inv _ _ VN). pose proof (varint_inv _ _ VS). tauto.
  - rewrite EP, <- !app_assoc. reflexivity.
  - rewrite EP. intros BC. inversion BC as [v0 ind p q x TB VP VQ EQ|v0 ind p q n' s' x TB VP VQ BX EQ].
    + unfold file_header in EQ. cbn [app] in EQ. assert (p ++ q ++ x = b_near ++ b_same ++ (write_header tfl ++ ws2) ++ ws) as EQ' by congruence.
      destruct (varint_inj _ _ _ _ _ _ VP VN EQ') as (_ & E & _). lia.
    + unfold file_header in EQ. cbn [app] in EQ. assert (p ++ q ++ x = b_near ++ b_same ++ (write_header tfl ++ ws2) ++ ws) as EQ' by congruence.
      destruct (varint_inj _ _ _ _ _ _ VP VN EQ') as (_ & _ & EQ2).
      destruct (varint_inj _ _ _ _ _ _ VQ VS EQ2) as (_ & _ & EQ3). subst x.
      rewrite header_of in BX by exact J. revert BX. apply no_code_table_bad. intros v1 ind1 tl E. unfold file_header in E. cbn [app] in E.
      assert (ind1 = 0) as -> by congruence. reflexivity.
Qed.
Print Assumptions C63_custom_table_partial.

(** ** The header of the encoder itself *)

(** The default code table with the modes of the entries 19 (COPY, mode 0) and 35 (COPY,
    mode 1), both with explicit size, exchanged. *)
Definition put_at (l : list Z) (i x : Z) : list Z := ztake i l ++ x :: zdrop (i + 1) l.
Definition exchanged : list Z :=
  let s := string_of_table rfc_table in put_at (put_at s (1024 + 19) 1) (1024 + 35) 0.
Definition c63_dict : list Z := map Z.of_nat (seq 32 64).
Definition c63_target : list Z := ztake 40 (zdrop 16 c63_dict).

Definition usable_sizes (s : list Z) : bool :=
  forallb (fun op => negb (nth op s 0 =? 0) || (nth (256 + op) s 0 =? 0) || (nth (768 + op) s 0 <=? nth (512 + 162) s 0)) (seq 0 256).
Lemma usable_sizes_ok : forall s, usable_sizes s = true -> sizes_in_map s.
Proof.
  intros s H op O I1 I2. exists 162. split; [unfold byte_ok; lia|]. unfold usable_sizes in H. rewrite forallb_forall in H.
  unfold byte_ok in O. specialize (H (Z.to_nat op)). rewrite in_seq in H. specialize (H ltac:(lia)).
  replace (Z.to_nat (0 * 256 + op)) with (Z.to_nat op) in I1 by lia. replace (Z.to_nat (1 * 256 + op)) with (256 + Z.to_nat op)%nat in I2 by lia.
  replace (Z.to_nat (3 * 256 + op)) with (768 + Z.to_nat op)%nat by lia. change (Z.to_nat (2 * 256 + 162)) with (512 + 162)%nat.
  lia.
Qed.
Lemma exchanged_ok : bytes_ok exchanged /\ zlen exchanged = 1536 /\ usable_table 8 exchanged /\ sizes_in_map exchanged.
Proof.
  assert (bytes_ok exchanged) as B by (apply bytes_okb_ok; vm_compute; reflexivity).
  assert (zlen exchanged = 1536) as L by (vm_compute; reflexivity).
  split; [exact B|]. split; [exact L|]. split; [|apply usable_sizes_ok; vm_compute; reflexivity].
  destruct (validate_usable exchanged 8 B L) as (b & V & IFF); [lia|]. apply IFF.
  assert (validate (table_of_bytes exchanged) 8 = Some true) by (vm_compute; reflexivity). congruence.
Qed.

Definition own_header (dict s target : list Z) : bool :=
  match custom_encoder dict VCD_STANDARD_FORMAT true false 4 3 s with
  | Some e => match encode_stream e [target] with
              | Some (_, true, delta) => match decode_stream new_decoder dict [delta] with
                                         | Some (true, out) => nth 16 out 0 =? nth 0 out 0
                                         | _ => false
                                         end
              | _ => false
              end
  | None => false
  end.

(** What the encoder writes with this table is accepted by the decoder and yields 40 bytes
    that are not the target: its header does not mention the table. *)
Theorem C63_custom_table_refuted : exists dict target s ns ss e e' delta out,
  bytes_ok dict /\ bytes_ok target /\ bytes_ok s /\ zlen s = 1536 /\ usable_table (ns + ss + 1) s /\ sizes_in_map s /\
  custom_encoder dict VCD_STANDARD_FORMAT true false ns ss s = Some e /\
  encode_stream e [target] = Some (e', true, delta) /\
  decode_stream new_decoder dict [delta] = Some (true, out) /\ out <> target.
Proof.
  destruct exchanged_ok as (B & L & U & M).
  assert (own_header c63_dict exchanged c63_target = true) as C by (vm_compute; reflexivity).
  assert (bytes_ok c63_dict) as B1 by (apply bytes_okb_ok; vm_compute; reflexivity).
  assert (bytes_ok c63_target) as B2 by (apply bytes_okb_ok; vm_compute; reflexivity).
  assert (nth 16 c63_target 0 <> nth 0 c63_target 0) as NE by (vm_compute; discriminate).
  exists c63_dict, c63_target, exchanged, 4, 3. revert B L U M C B1 B2 NE. generalize c63_dict, c63_target, exchanged.
  intros dict target s B L U M C B1 B2 NE. unfold own_header in C.
  destruct (custom_encoder _ _ _ _ _ _ _) as [e|] eqn:E1; [|discriminate].
  destruct (encode_stream e [target]) as [[[e' [|]] delta]|] eqn:E2; try discriminate.
  destruct (decode_stream new_decoder dict [delta]) as [[[|] out]|] eqn:E3; try discriminate.
  exists e, e', delta, out. do 6 (split; [assumption|]).
  split; [reflexivity|]. split; [exact E2|]. split; [exact E3|]. intros ->. lia.
Qed.
Print Assumptions C63_custom_table_refuted.

(** The same case with a header that announces the table (2 near and 5 same caches), given in
    three pieces. *)
Definition file_with_table (std dict s target : list Z) (ns ss : Z) : option (list Z) :=
  match custom_encoder dict (flags_of false true) true true ns ss s with
  | Some e =>
      match encode (set_target_matching (new_vcdiff_encoder std) false) s with
      | Some (_, true, table_delta) =>
          match encode_stream e [target] with
          | Some (_, true, delta) => Some (file_header 83 2 ++ [ns] ++ [ss] ++ table_delta ++ zdrop 5 delta)
          | _ => None
          end
      | _ => None
      end
  | None => None
  end.
Definition decoded_of (dict : list Z) (file : option (list Z)) : option (Z * option (bool * list Z)) :=
  match file with
  | Some f => Some (zlen f, decode_stream new_decoder dict [ztake 30 f; ztake 20 (zdrop 30 f); zdrop 50 f])
  | None => None
  end.
Example C63_case : bytes_ok exchanged /\ zlen exchanged = 1536 /\ usable_table (2 + 5 + 1) exchanged /\ sizes_in_map exchanged /\
  varint [2] 2 /\ varint [5] 5 /\ idle_plain new_decoder /\
  decoded_of c63_dict (file_with_table (string_of_table rfc_table) c63_dict exchanged c63_target 2 5) = Some (67, Some (true, c63_target)).
Proof.
  destruct exchanged_ok as (B & L & U & M). split; [exact B|]. split; [exact L|]. split; [exact U|]. split; [exact M|].
  split; [split; [|reflexivity]|].
  { exists [], 2. split; [reflexivity|]. split; [constructor|lia]. }
  split; [split; [|reflexivity]|].
  { exists [], 5. split; [reflexivity|]. split; [constructor|lia]. }
  split; [constructor|]. vm_compute. reflexivity.
Qed.
