(** Properties of the encoder: C01, C02, C03, C16 (encoder), C21, C24 - C30, C34, C39. *)

From Verif Require Import Base ListFacts Spec SpecEncode SpecJson CopyFacts Varint AddrCache CodeTable InstructionMap CodeTableFacts Adler AdlerFacts BodyFacts InstructionMapFacts
  EncodeTable WriterFacts RollingHash RollingHashFacts BlockHash BlockHashFacts Index Engine EngineFacts JsonWriter JsonFacts Encoder EncoderFacts EncoderCalls Sound
  Decoder Usable Stream Session Reuse Files Properties_Stream Properties_Decode.
From Coq Require Import ZifyBool ZifyNat.

(** ** C01: round trip *)

(** VCDiffEncoder: SetFormatFlags, SetTargetMatching, Encode; the decoder may
    have any history without custom code tables.  VCDiffDecoder::Decode is
    [decode_stream] with one piece (vcdecoder.cc 1478-1494). *)
Theorem C01_round_trip : forall dict target fl look d,
  bytes_ok dict -> bytes_ok target -> fl_json fl = false ->
  zlen dict + zlen target <= int32_max -> zlen target + 58 <= int32_max ->
  idle_plain d -> zlen target <= max_window d -> zlen target <= max_file d ->
  exists v delta,
    encode (set_target_matching (set_format_flags (new_vcdiff_encoder dict) fl) look) target = Some (v, true, delta) /\
    decode_stream d dict [delta] = Some (true, target).
Proof.
  intros dict target fl look d BD BT J L L2 IP MW MF. pose proof (zlen_nonneg _ dict). pose proof (zlen_nonneg _ target).
  destruct (encode_first dict fl look BD) as (en & EN & EF); [lia|]. rewrite EF.
  destruct (new_encoder_inv en dict fl look (target_allowed d) EN) as (im & EI); [lia|exact J|].
  destruct (stream_file _ dict im _ fl (target_allowed d) (within (max_window d) (max_file d)) [target] EI eq_refl J) as (w' & delta & -> & _ & BO & VF & NC & LD).
  - constructor; [|constructor]. split; [exact BT|]. unfold int32_max in *; lia.
  - apply chunks_within; [constructor; [exact MW|constructor]|]. cbn [concat]. rewrite app_nil_r. exact MF.
  - eexists _, delta. split; [reflexivity|]. cbn [concat] in VF, LD. rewrite app_nil_r in VF, LD. rewrite zlen_cons, zlen_nil in LD.
    apply C05_decoder_complete with (t := strict); auto.
    + cbn [concat]. rewrite app_nil_r. apply no_code_table_bad. exact NC.
    + cbn [concat]. rewrite app_nil_r. exact VF.
    + cbn [concat]. rewrite app_nil_r. lia.
    + lia.
    + lia.
    + lia.
Qed.
Print Assumptions C01_round_trip.

Definition flags_of (il ck : bool) : flags := {| fl_interleaved := il; fl_checksum := ck; fl_json := false |}.
Definition repeat_text (n : nat) : list Z := concat (repeat [84;104;101;32;113;117;105;99;107;32;98;114;111;119;110;32;102;111;120;33] n).
Definition c01_dict : list Z := repeat_text 3.
Definition c01_target : list Z := [1;2;3] ++ repeat_text 4 ++ [7] ++ repeat_text 2.
(** The hypotheses hold for this case, and the delta is shorter than the target. *)
Example C01_case : bytes_ok c01_dict /\ bytes_ok c01_target /\ idle_plain new_decoder /\ zlen c01_target <= max_window new_decoder /\
  match encode (set_target_matching (set_format_flags (new_vcdiff_encoder c01_dict) (flags_of true true)) true) c01_target with
  | Some (_, true, delta) => (zlen delta <? 60) = true /\ decode_stream new_decoder c01_dict [delta] = Some (true, c01_target)
  | _ => False
  end.
Proof.
  split; [apply bytes_okb_ok; vm_compute; reflexivity|]. split; [apply bytes_okb_ok; vm_compute; reflexivity|].
  split; [constructor|]. split; [vm_compute; discriminate|]. vm_compute. split; reflexivity.
Qed.

(** ** C02, C03: streams *)

Lemma fitting : forall dict chunks, Forall bytes_ok chunks -> zlen dict + zlen (concat chunks) <= int32_max ->
  zlen (concat chunks) + 53 * zlen chunks + 5 <= int32_max -> Forall (chunk_fits dict) chunks.
Proof.
  intros dict chunks F L L2. destruct chunks as [|c chunks]; [constructor|]. rewrite zlen_cons in L2. pose proof (zlen_nonneg _ chunks).
  apply chunks_fit; auto. unfold int32_max in *. lia.
Qed.

(** What the encoder writes is a file in the sense of the specification, without
    any tolerance, that denotes the concatenation of the chunks; its windows have
    no VCD_TARGET (any [allow]). *)
Theorem C03_well_formed : forall dict chunks fl look allow,
  bytes_ok dict -> Forall bytes_ok chunks -> fl_json fl = false ->
  zlen dict + zlen (concat chunks) <= int32_max -> zlen (concat chunks) + 53 * zlen chunks + 5 <= int32_max ->
  exists e e' delta, streaming_encoder dict fl look = Some e /\ encode_stream e chunks = Some (e', true, delta) /\
    vcd_file strict strict allow (fun _ _ => True) dict delta (concat chunks).
Proof.
  intros dict chunks fl look allow BD F J L L2. pose proof (zlen_nonneg _ dict). pose proof (zlen_nonneg _ (concat chunks)).
  destruct (streaming_encoder_ok dict fl look BD) as (en & EN & SE); [lia|].
  destruct (new_encoder_inv en dict fl look allow EN) as (im & EI); [lia|exact J|].
  destruct (stream_file _ dict im _ fl allow (fun _ _ => True) chunks EI eq_refl J) as (w' & delta & ES & _ & BO & VF & NC & LD).
  - apply fitting; auto.
  - auto.
  - do 3 eexists. split; [exact SE|]. split; [exact ES|]. exact VF.
Qed.
Print Assumptions C03_well_formed.

(** It decodes to the concatenation of the chunks, in whatever pieces it is given
    to the decoder. *)
Theorem C02_streaming_round_trip : forall dict chunks fl look d,
  bytes_ok dict -> Forall bytes_ok chunks -> fl_json fl = false ->
  zlen dict + zlen (concat chunks) <= int32_max -> zlen (concat chunks) + 53 * zlen chunks + 5 <= int32_max ->
  idle_plain d -> Forall (fun c => zlen c <= max_window d) chunks -> zlen (concat chunks) <= max_file d ->
  exists e e' delta, streaming_encoder dict fl look = Some e /\ encode_stream e chunks = Some (e', true, delta) /\
    forall pieces, concat pieces = delta -> decode_stream d dict pieces = Some (true, concat chunks).
Proof.
  intros dict chunks fl look d BD F J L L2 IP MW MF. pose proof (zlen_nonneg _ dict). pose proof (zlen_nonneg _ (concat chunks)).
  destruct (streaming_encoder_ok dict fl look BD) as (en & EN & SE); [lia|].
  destruct (new_encoder_inv en dict fl look (target_allowed d) EN) as (im & EI); [lia|exact J|].
  destruct (stream_file _ dict im _ fl (target_allowed d) (within (max_window d) (max_file d)) chunks EI eq_refl J) as (w' & delta & ES & _ & BO & VF & NC & LD).
  - apply fitting; auto.
  - apply chunks_within; auto.
  - do 3 eexists. split; [exact SE|]. split; [exact ES|]. intros pieces EP. subst delta.
    apply C05_decoder_complete with (t := strict); auto.
    + apply bytes_ok_concat. exact BO.
    + apply no_code_table_bad. exact NC.
    + lia.
    + lia.
    + lia.
    + lia.
Qed.
Print Assumptions C02_streaming_round_trip.

(** Three chunks, one of them empty, delivered byte by byte. *)
Definition c02_chunks : list (list Z) := [repeat_text 2; []; [9] ++ repeat_text 3].
Example C02_case :
  match streaming_encoder c01_dict (flags_of false true) false with
  | Some e =>
      match encode_stream e c02_chunks with
      | Some (_, true, delta) => decode_stream new_decoder c01_dict (map (fun b => [b]) delta) = Some (true, concat c02_chunks)
      | _ => False
      end
  | None => False
  end.
Proof. vm_compute. reflexivity. Qed.

(** ** C16, encoder *)

(** After any history of calls, a chunk that is not empty becomes a window, which
    declares the checksum of the chunk if and only if checksums were asked for. *)
Theorem C16_checksum_written : forall dict fl look e l e1 rs data e2 out,
  bytes_ok dict -> zlen dict <= int32_max -> fl_json fl = false ->
  streaming_encoder dict fl look = Some e -> Forall (call_fits dict) l -> do_ecalls e l = Some (e1, rs) ->
  chunk_fits dict data -> data <> [] -> encode_chunk e1 data = Some (e2, true, out) ->
  exists wh body H, out = wh ++ body /\ declares (fl_interleaved fl || fl_checksum fl) wh H /\
    h_checksum H = if fl_checksum fl then Some (adler_sum 0 data) else None.
Proof.
  intros dict fl look e l e1 rs data e2 out B L J SE F DC CF NE EC.
  destruct (streaming_encoder_ok dict fl look B L) as (en & EN & SE'). rewrite SE in SE'. injection SE' as ->.
  destruct (new_encoder_inv en dict fl look true EN L J) as (im & EI).
  destruct (do_ecalls_ok _ _ _ _ _ _ EI F) as (w & a & rs' & DC' & EI' & K). rewrite DC in DC'. injection DC' as -> _.
  destruct a.
  2: { unfold encode_chunk in EC. cbn in EC. discriminate. }
  destruct CF as (CB & CL & CL2).
  destruct (encode_chunk_ok _ dict im w _ data [] EI' eq_refl CB CL CL2) as (w' & out' & EC' & _ & _ & _ & [[X _]|(_ & W & _ & HD & _)]); [contradiction|].
  rewrite EC in EC'. injection EC' as _ ->.
  assert (version_of fl =? 83 = fl_interleaved fl || fl_checksum fl) as VE by (unfold version_of; destruct (_ || _); reflexivity).
  destruct (window_checksum _ _ _ _ _ _ W) as (wh & body & H & E & D & _ & CK).
  cbn [file_format f_ext] in D, CK. rewrite VE in D, CK. rewrite HD in CK. cbn [set_coder ec_flags new_encoder new_custom_encoder] in CK.
  exists wh, body, H. split; [exact E|]. split; [exact D|]. rewrite CK.
  destruct (fl_checksum fl); [rewrite orb_true_r; reflexivity|]. rewrite andb_false_r. reflexivity.
Qed.
Print Assumptions C16_checksum_written.

(** The checksum 12845187 is written after the lengths of the sections. *)
Definition c16_window : option (list Z) :=
  match streaming_encoder [] (flags_of false true) false with
  | Some e =>
      match do_ecalls e [EStart; EChunk [1;2]] with
      | Some (e1, _) => match encode_chunk e1 [65;66] with Some (_, true, w) => Some w | _ => None end
      | None => None
      end
  | None => None
  end.
Example C16_case : c16_window = Some ([5;0;0;12;2;0;2;1;0] ++ [134;144;129;3] ++ [65;66;3]) /\
  adler_sum 0 [65;66] = ((6 * 128 + 16) * 128 + 1) * 128 + 3.
Proof. split; vm_compute; reflexivity. Qed.

(** ** C21: the code table and the opcodes found in it *)

(** The half of an entry that stands for an instruction of a type and size. *)
Definition half_for (inst size mode : Z) : half :=
  if inst =? 1 then HAdd size else if inst =? 2 then HRun size else HCopy size mode.

Lemma half_for_at : forall inst size mode, 1 <= inst <= 3 -> 0 <= mode -> half_at (row inst mode) size = half_for inst size mode.
Proof.
  intros inst size mode I M. unfold half_at, row, half_for, VCD_COPY.
  assert (inst = 1 \/ inst = 2 \/ inst = 3) as [-> |[-> | ->]] by lia; try reflexivity.
  cbn [Z.eqb Pos.eqb]. destruct (Z.eqb_spec (3 + mode) 0); [lia|]. destruct (Z.eqb_spec (3 + mode) 1); [lia|]. destruct (Z.eqb_spec (3 + mode) 2); [lia|].
  f_equal. lia.
Qed.

Theorem C21_default_table :
  (forall op, 0 <= op < 256 -> entry default_table op = rfc_table op) /\
  validate default_table default_last_mode = Some true /\
  exists im, make_map default_table default_last_mode = Some im.
Proof. split; [exact default_table_rfc|]. split; [vm_compute; reflexivity|exact default_make]. Qed.
Print Assumptions C21_default_table.

Lemma default_valid : valid_table default_table default_last_mode.
Proof.
  split; [apply default_table_ok|]. split; [vm_compute; split; discriminate|].
  destruct (validate_eq default_table default_last_mode default_table_ok) as (b & E & IFF); [vm_compute; split; discriminate|].
  assert (validate default_table default_last_mode = Some true) as V by (vm_compute; reflexivity). rewrite V in E. injection E as <-. apply (proj1 IFF eq_refl).
Qed.

(** Inst 1, 2, 3 are ADD, RUN, COPY; [default_last_mode] is 8.  The first map finds
    no opcode or one that stands for exactly this instruction; it always finds one
    for size 0, that is for an instruction followed by its size. *)
Theorem C21_first_lookup : forall im inst size mode,
  make_map default_table default_last_mode = Some im -> 1 <= inst <= 3 -> 0 <= mode <= 8 ->
  exists op, first_lookup (im_first im) inst size mode = Some op /\
    (op = kNoOpcode \/
     0 <= op < 256 /\ (rfc_table op = (half_for inst size mode, HNoop) \/ rfc_table op = (HNoop, half_for inst size mode))) /\
    (size = 0 -> op <> kNoOpcode).
Proof.
  intros im inst size mode MK I M. pose proof (make_map_ok _ _ _ MK) as MO. assert (default_last_mode = 8) as DM by reflexivity.
  destruct (first_lookup_total _ _ im inst size mode MO I) as [op E]; [lia|]. exists op. split; [exact E|]. split.
  - destruct (Z.eq_dec op kNoOpcode) as [EQ|NE]; [left; exact EQ|right].
    destruct (first_lookup_sound _ _ _ _ _ _ _ default_valid MO I (proj1 M) E NE) as (BO & _ & S). rewrite half_for_at in S by lia.
    split; [exact BO|]. rewrite <- default_table_rfc by exact BO. exact S.
  - intros ->. destruct (first_lookup_explicit default_table default_last_mode im inst mode default_table_ok) as (op' & E' & N); [lia|vm_compute; reflexivity|exact MO|exact I|lia|congruence].
Qed.
Print Assumptions C21_first_lookup.

(** The second map finds no opcode or one that stands for the instruction of the
    given first opcode followed by exactly this instruction. *)
Theorem C21_second_lookup : forall im first inst size mode,
  make_map default_table default_last_mode = Some im -> 1 <= inst <= 3 -> 0 <= mode <= 8 ->
  exists op, second_lookup (im_second im) first inst size mode = Some op /\
    (op = kNoOpcode \/
     0 <= op < 256 /\ 0 <= first < 256 /\ exists h, h <> HNoop /\ (rfc_table first = (h, HNoop) \/ rfc_table first = (HNoop, h)) /\
       rfc_table op = (h, half_for inst size mode)).
Proof.
  intros im first inst size mode MK I M. pose proof (make_map_ok _ _ _ MK) as MO. assert (default_last_mode = 8) as DM by reflexivity.
  destruct (second_lookup_total _ _ im first inst size mode MO I) as [op E]; [lia|]. exists op. split; [exact E|].
  destruct (Z.eq_dec op kNoOpcode) as [EQ|NE]; [left; exact EQ|right].
  destruct (second_lookup_sound _ _ _ _ _ _ _ _ default_valid MO I (proj1 M) E NE) as (BO & h & (BF & NN & S) & S2). rewrite half_for_at in S2 by lia.
  split; [exact BO|]. split; [exact BF|]. exists h. split; [exact NN|]. rewrite <- !default_table_rfc by assumption. auto.
Qed.
Print Assumptions C21_second_lookup.

Definition lookup_case (inst size mode : Z) (then_inst then_size then_mode : Z) : option (Z * Z) :=
  match make_map default_table default_last_mode with
  | None => None
  | Some im =>
      match first_lookup (im_first im) inst size mode with
      | None => None
      | Some f => match second_lookup (im_second im) f then_inst then_size then_mode with Some s => Some (f, s) | None => None end
      end
  end.
(** ADD of 2 is opcode 3; followed by COPY of 5 in mode 1 it is 179. *)
Example C21_case : lookup_case 1 2 0 3 5 1 = Some (3, 179) /\ rfc_table 179 = (HAdd 2, HCopy 5 1).
Proof. split; vm_compute; reflexivity. Qed.

(** Every opcode of the table can be chosen: looking up its instructions finds an
    opcode with the same meaning (the opcode itself, or an earlier one). *)
Definition chosen_by (im : instruction_map) (op : Z) : bool :=
  let '(i1, z1, m1) := (tget (inst1 default_table) op, tget (size1 default_table) op, tget (mode1 default_table) op) in
  let '(i2, z2, m2) := (tget (inst2 default_table) op, tget (size2 default_table) op, tget (mode2 default_table) op) in
  match first_lookup (im_first im) i1 z1 m1 with
  | None => false
  | Some f =>
      if i2 =? 0 then f =? op
      else match second_lookup (im_second im) f i2 z2 m2 with Some s => s =? op | None => false end
  end.
Definition chosen (op : Z) : bool :=
  match make_map default_table default_last_mode with
  | None => false
  | Some im => chosen_by im op
  end.
Theorem C21_all_chosen : forall op, 0 <= op < 256 -> chosen op = true.
Proof.
  intros op H. assert (match make_map default_table default_last_mode with None => false | Some im => forallb (chosen_by im) opcodes end = true) as F by (vm_compute; reflexivity).
  unfold chosen. destruct (make_map default_table default_last_mode) as [im|]; [|exact F]. rewrite forallb_forall in F. apply F.
  unfold opcodes. apply in_map_iff. exists (Z.to_nat op). split; [lia|]. apply in_seq. cbn [Nat.add]. change 256%nat with (Z.to_nat 256). lia.
Qed.
Print Assumptions C21_all_chosen.

(** ** C24: the rolling hash *)

(** One step, for a window of [n] bytes: from the hash of [a :: m] to that of [m ++ [b]]. *)
Theorem C24_update_hash : forall n a m b h,
  2 <= n -> zlen m = n - 1 -> byte_ok a -> bytes_ok m -> byte_ok b ->
  hash_direct n (a :: m) = Some h -> update_hash (remove_table n) h a b = hash_direct n (m ++ [b]).
Proof.
  intros n a m b h N L A M B H.
  assert (forall x, bytes_ok x -> zlen x = n -> hash_direct n x = Some (poly x mod kBase)) as K.
  { intros x BX LX. apply hash_direct_poly; [exact N|exact BX|]. rewrite <- LX. apply slice_whole. }
  rewrite K in H; [|constructor; auto|rewrite zlen_cons; lia]. injection H as <-.
  rewrite update_hash_ok by auto. symmetry. apply K.
  - apply bytes_ok_app. split; [exact M|constructor; [exact B|constructor]].
  - rewrite zlen_app, zlen_cons, zlen_nil. lia.
Qed.
Print Assumptions C24_update_hash.

(** Any number of steps through any data. *)
Theorem C24_rolling_hash : forall k n data h,
  2 <= n -> bytes_ok data -> n + Z.of_nat k <= zlen data ->
  hash_direct n data = Some h -> roll (remove_table n) n h data k = hash_direct n (zdrop (Z.of_nat k) data).
Proof. exact roll_ok. Qed.
Print Assumptions C24_rolling_hash.

Example C24_case :
  match hash_direct 16 c01_target with
  | Some h => roll (remove_table 16) 16 h c01_target 5 = hash_direct 16 (zdrop 5 c01_target) /\ hash_direct 16 (zdrop 5 c01_target) <> None
  | None => False
  end.
Proof. vm_compute. split; [reflexivity|discriminate]. Qed.

(** ** C25: the instructions of the engine *)

(** Together with the definition of [genuine_plan]: the instructions produce the
    target; every COPY is of at least 32 bytes, and lies in the dictionary or, with
    target matching only, starts in the target data before it; ADDs are not
    empty and never follow each other. *)
Theorem C25_genuine_instructions : forall dict look target,
  bytes_ok dict -> bytes_ok target -> target <> [] -> zlen dict + zlen target <= int32_max ->
  exists en l, engine_init (new_engine dict) = Some (en, true) /\ engine_encode en look target = Some (Some l) /\
    genuine_plan look dict [] false l target /\ execute_all dict [] l = Some target.
Proof.
  intros dict look target BD BT NE L. pose proof (zlen_nonneg _ target).
  destruct (engine_init_ok dict BD) as (en & EI & EN); [lia|].
  destruct (engine_encode_ok en dict look target EN BT NE L) as (l & EE & GP).
  exists en, l. split; [exact EI|]. split; [exact EE|]. split; [exact GP|]. exact (genuine_plan_execute _ _ _ _ _ _ GP).
Qed.
Print Assumptions C25_genuine_instructions.

Definition instructions (dict : list Z) (look : bool) (target : list Z) : option (list instruction) :=
  match engine_init (new_engine dict) with
  | Some (en, true) => match engine_encode en look target with Some (Some l) => Some l | _ => None end
  | _ => None
  end.
Example C25_case :
  match instructions c01_dict true c01_target with Some (Add [1;2;3] :: Copy 0 60 :: _) => True | _ => False end.
Proof. vm_compute. exact I. Qed.

(** ** C26: bounded expansion *)

(** The header is 5 bytes; a chunk costs at most 53 bytes more than it is long. *)
Theorem C26_chunk_expansion : forall dict fl look e l e1 rs data e2 out,
  bytes_ok dict -> zlen dict <= int32_max -> fl_json fl = false ->
  streaming_encoder dict fl look = Some e -> Forall (call_fits dict) l -> do_ecalls e l = Some (e1, rs) ->
  chunk_fits dict data -> encode_chunk e1 data = Some (e2, true, out) -> zlen out <= zlen data + 53.
Proof.
  intros dict fl look e l e1 rs data e2 out B L J SE F DC CF EC.
  destruct (streaming_encoder_ok dict fl look B L) as (en & EN & SE'). rewrite SE in SE'. injection SE' as ->.
  destruct (new_encoder_inv en dict fl look true EN L J) as (im & EI).
  destruct (do_ecalls_ok _ _ _ _ _ _ EI F) as (w & a & rs' & DC' & EI' & K). rewrite DC in DC'. injection DC' as -> _.
  destruct a.
  2: { unfold encode_chunk in EC. cbn in EC. discriminate. }
  destruct CF as (CB & CL & CL2).
  destruct (encode_chunk_ok _ dict im w _ data [] EI' eq_refl CB CL CL2) as (w' & out' & EC' & _ & _ & _ & [[-> ->]|(_ & _ & LO & _)]);
    rewrite EC in EC'; injection EC' as _ ->; [rewrite zlen_nil; lia|exact LO].
Qed.
Print Assumptions C26_chunk_expansion.

Theorem C26_stream_expansion : forall dict chunks fl look,
  bytes_ok dict -> zlen dict <= int32_max -> fl_json fl = false -> Forall (chunk_fits dict) chunks ->
  exists e e' delta, streaming_encoder dict fl look = Some e /\ encode_stream e chunks = Some (e', true, delta) /\
    zlen delta <= zlen (concat chunks) + 53 * zlen chunks + 5.
Proof.
  intros dict chunks fl look BD L J F.
  destruct (streaming_encoder_ok dict fl look BD L) as (en & EN & SE).
  destruct (new_encoder_inv en dict fl look true EN L J) as (im & EI).
  destruct (stream_file _ dict im _ fl true (fun _ _ => True) chunks EI eq_refl J F) as (w' & delta & ES & _ & BO & VF & NC & LD); [auto|].
  do 3 eexists. split; [exact SE|]. split; [exact ES|exact LD].
Qed.
Print Assumptions C26_stream_expansion.

(** ** C27: identical data *)

Theorem C27_identical : forall dict look, bytes_ok dict -> 32 <= zlen dict -> 2 * zlen dict <= int32_max ->
  instructions dict look dict = Some [Copy 0 (zlen dict)].
Proof.
  intros dict look B L L2. unfold instructions.
  destruct (engine_init_ok dict B) as (en & -> & EN); [lia|].
  destruct (engine_encode_prefix en dict look dict [] EN) as (a & -> & A & A2); [rewrite app_nil_r; reflexivity|exact L|lia|].
  replace a with 0 by lia. reflexivity.
Qed.
Print Assumptions C27_identical.

(** The same for any target of at least 32 bytes with which the dictionary begins:
    one COPY. *)
Theorem C27_prefix : forall target rest look, bytes_ok (target ++ rest) -> 32 <= zlen target ->
  zlen (target ++ rest) + zlen target <= int32_max ->
  exists a, instructions (target ++ rest) look target = Some [Copy a (zlen target)].
Proof.
  intros target rest look B L L2. unfold instructions. pose proof (zlen_nonneg _ target).
  destruct (engine_init_ok (target ++ rest) B) as (en & -> & EN); [lia|].
  destruct (engine_encode_prefix en (target ++ rest) look target rest EN eq_refl L L2) as (a & -> & _). eauto.
Qed.
Print Assumptions C27_prefix.

Theorem C27_size : forall dict fl look, bytes_ok dict -> 32 <= zlen dict -> 2 * zlen dict <= int32_max -> fl_json fl = false ->
  exists v delta, encode (set_target_matching (set_format_flags (new_vcdiff_encoder dict) fl) look) dict = Some (v, true, delta) /\
    zlen delta <= 63.
Proof.
  intros dict fl look B L L2 J.
  destruct (encode_first dict fl look B) as (en & EN & EF); [lia|]. rewrite EF.
  destruct (new_encoder_inv en dict fl look true EN) as (im & EI); [lia|exact J|].
  destruct (start_encoding_ok _ _ _ _ _ EI) as (c & _ & ES & EI1).
  destruct (engine_encode_prefix en dict look dict [] EN) as (a & EE & _); [rewrite app_nil_r; reflexivity|exact L|lia|].
  destruct (encode_chunk_ok _ dict im _ _ dict [] EI1 eq_refl B) as (w' & out & EC & _ & _ & _ & [[X _]|(_ & _ & _ & _ & LO)]); [lia|unfold int32_max in *; lia| |].
  { rewrite X, zlen_nil in L. lia. }
  specialize (LO _ EE). cbn [costs cost] in LO.
  unfold encode_stream. rewrite ES. cbn [encode_chunks]. rewrite EC.
  unfold finish_encoding. cbn [set_coder ec_allowed negb ec_coder coder_finish]. do 2 eexists. split; [reflexivity|].
  rewrite app_nil_r, zlen_app. destruct (write_header_bytes (ec_flags (new_encoder en fl look))) as [_ ->]. lia.
Qed.
Print Assumptions C27_size.

Example C27_case : instructions c01_dict true c01_dict = Some [Copy 0 60] /\
  match encode (new_vcdiff_encoder c01_dict) c01_dict with Some (_, true, delta) => zlen delta = 17 | _ => False end.
Proof. split; vm_compute; reflexivity. Qed.

(** ** C28: call order *)

(** [started false] of a history: the last successful StartEncoding has not been
    followed by a successful FinishEncoding.  If so, the next EncodeChunk and
    FinishEncoding succeed (or, for the JSON format, EncodeChunk does unless the
    chunk is not ASCII); otherwise they fail, output nothing and change nothing. *)
Theorem C28_call_order : forall dict fl look e l e' rs,
  streaming_encoder dict fl look = Some e -> do_ecalls e l = Some (e', rs) ->
  started false (combine l (map fst rs)) = false ->
  (forall data, encode_chunk e' data = Some (e', false, [])) /\ finish_encoding e' = (e', false, []).
Proof.
  intros dict fl look e l e' rs SE DC ST. apply not_allowed. rewrite (do_ecalls_allowed _ _ _ _ DC).
  assert (ec_allowed e = false) as -> ; [|exact ST].
  unfold streaming_encoder in SE. destruct (engine_init _) as [[en [|]]|]; [|discriminate|discriminate]. injection SE as <-. reflexivity.
Qed.
Print Assumptions C28_call_order.

Theorem C28_started : forall dict fl look e l e' rs,
  bytes_ok dict -> zlen dict <= int32_max -> fl_json fl = false ->
  streaming_encoder dict fl look = Some e -> Forall (call_fits dict) l -> do_ecalls e l = Some (e', rs) ->
  started false (combine l (map fst rs)) = true ->
  (forall data, chunk_fits dict data -> exists e'' out, encode_chunk e' data = Some (e'', true, out)) /\
  exists e'', finish_encoding e' = (e'', true, []).
Proof.
  intros dict fl look e l e' rs B L J SE F DC ST.
  destruct (streaming_encoder_ok dict fl look B L) as (en & EN & SE'). rewrite SE in SE'. injection SE' as ->.
  destruct (new_encoder_inv en dict fl look true EN L J) as (im & EI).
  pose proof (do_ecalls_allowed _ _ _ _ DC) as AL. cbn [new_encoder new_custom_encoder ec_allowed] in AL. rewrite ST in AL.
  destruct (do_ecalls_ok _ _ _ _ _ _ EI F) as (w & a & rs' & DC' & EI' & K). rewrite DC in DC'. injection DC' as -> _.
  exact (binary_allowed _ _ _ _ _ EI' AL).
Qed.
Print Assumptions C28_started.

(** If StartEncoding ever fails, then no call of that encoder ever succeeds or
    outputs anything, whatever else is called. *)
Theorem C28_failed_start : forall dict fl look e l e' rs o,
  bytes_ok dict -> zlen dict <= int32_max -> streaming_encoder dict fl look = Some e ->
  (fl_json fl = false -> Forall (call_fits dict) l) ->
  do_ecalls e l = Some (e', rs) -> In (EStart, (false, o)) (combine l rs) ->
  Forall (fun r => r = (false, [])) rs.
Proof.
  intros dict fl look e l e' rs o B L SE F DC IN.
  destruct (streaming_encoder_ok dict fl look B L) as (en & EN & SE'). rewrite SE in SE'. injection SE' as ->.
  destruct (fl_json fl) eqn:J.
  - assert (ec_coder (new_encoder en fl look) = Json new_json_writer) as CO by (cbn; unfold create_writer; rewrite J; reflexivity).
    destruct (json_failed l (new_encoder en fl look) new_json_writer dict e' rs EN CO DC) as (A1 & A2). destruct (is_ascii dict).
    + exfalso. exact (A2 eq_refl o IN).
    + apply A1; reflexivity.
  - destruct (new_encoder_inv en dict fl look true EN L J) as (im & EI).
    exfalso. exact (binary_start _ _ _ _ _ _ _ _ EI (F eq_refl) DC o IN).
Qed.
Print Assumptions C28_failed_start.

Definition results (dict : list Z) (fl : flags) (l : list ecall) : option (list (bool * list Z)) :=
  match streaming_encoder dict fl true with
  | Some e => match do_ecalls e l with Some (_, rs) => Some rs | None => None end
  | None => None
  end.
Definition json_flags : flags := {| fl_interleaved := false; fl_checksum := false; fl_json := true |}.
Example C28_case :
  option_map (map fst) (results c01_dict (flags_of false false) [EChunk [1]; EFinish; EStart; EChunk [2]; EFinish; EChunk [3]; EFinish]) =
    Some [false; false; true; true; true; false; false] /\
  results [200] json_flags [EStart; EChunk [65]; EFinish] = Some [(false, []); (false, []); (false, [])].
Proof. split; vm_compute; reflexivity. Qed.

(** ** C29: independence of earlier encodings *)

Theorem C29_stream_independent : forall dict fl look e l e1 rs chunks,
  bytes_ok dict -> zlen dict <= int32_max -> fl_json fl = false ->
  streaming_encoder dict fl look = Some e -> Forall (call_fits dict) l -> do_ecalls e l = Some (e1, rs) ->
  Forall (chunk_fits dict) chunks ->
  exists ea eb delta, encode_stream e chunks = Some (ea, true, delta) /\ encode_stream e1 chunks = Some (eb, true, delta).
Proof.
  intros dict fl look e l e1 rs chunks B L J SE F DC FC.
  destruct (streaming_encoder_ok dict fl look B L) as (en & EN & SE'). rewrite SE in SE'. injection SE' as ->.
  destruct (new_encoder_inv en dict fl look true EN L J) as (im & EI).
  destruct (do_ecalls_ok _ _ _ _ _ _ EI F) as (w & a & rs' & DC' & EI' & K). rewrite DC in DC'. injection DC' as -> _.
  destruct (stream_same _ _ _ _ _ _ _ _ EI EI' K FC) as (r & o & ea & eb & S1 & S2).
  destruct (encode_stream_ok _ _ _ _ _ (fun _ _ => True) chunks EI FC) as (w' & ws & E & _); [auto|]. rewrite S1 in E. injection E as _ -> _.
  eauto 10.
Qed.
Print Assumptions C29_stream_independent.

(** VCDiffEncoder: after any number of encodings the result is that of a new
    object with the same settings. *)
Theorem C29_encoder_independent : forall targets dict fl look target,
  bytes_ok dict -> zlen dict <= int32_max -> fl_json fl = false ->
  Forall (chunk_fits dict) targets -> chunk_fits dict target ->
  exists v va vb delta, encodes (fresh dict fl look) targets = Some v /\
    encode (fresh dict fl look) target = Some (va, true, delta) /\ encode v target = Some (vb, true, delta).
Proof. exact encodes_same. Qed.
Print Assumptions C29_encoder_independent.

Definition second_delta (dict : list Z) (fl : flags) (targets : list (list Z)) (target : list Z) : option (list Z) :=
  match encodes (fresh dict fl true) targets with
  | Some v => match encode v target with Some (_, _, o) => Some o | None => None end
  | None => None
  end.
Example C29_case : second_delta c01_dict (flags_of true true) [c01_target; []; [1]] [65;66] = second_delta c01_dict (flags_of true true) [] [65;66] /\
  second_delta c01_dict (flags_of true true) [] [65;66] <> None.
Proof. split; vm_compute; [reflexivity|discriminate]. Qed.

(** ** C30: JSON *)

(** The text is a JSON array of strings and pairs of numbers which, applied to the
    dictionary, gives the target.  With target matching this needs that at most one
    chunk is not empty (see below).  [e0] may have any history. *)
Theorem C30_json_partial : forall dict fl look e l e0 rs chunks,
  ascii dict -> zlen dict <= int32_max -> fl_json fl = true -> streaming_encoder dict fl look = Some e -> do_ecalls e l = Some (e0, rs) ->
  Forall ascii chunks -> Forall (fun c => zlen dict + zlen c <= int32_max) chunks -> concat chunks <> [] ->
  (look = true -> forall before c after, chunks = before ++ c :: after -> c = [] \/ concat before = []) ->
  exists e' out es, encode_stream e0 chunks = Some (e', true, out) /\
    read_array out = Some es /\ apply_elements dict [] es = Some (concat chunks).
Proof.
  intros dict fl look e l e0 rs chunks A L J SE DC AC LC NE LK. pose proof (ascii_bytes _ A) as B.
  destruct (streaming_encoder_ok dict fl look B L) as (en & EN & SE'). rewrite SE in SE'. injection SE' as ->.
  assert (exists j, ec_coder e0 = Json j /\ ec_engine e0 = en /\ ec_look e0 = look) as (j & CO & EE & EL).
  { assert (ec_coder (new_encoder en fl look) = Json new_json_writer) as CO by (cbn; unfold create_writer; rewrite J; reflexivity).
    assert (ec_engine (new_encoder en fl look) = en) as EE by reflexivity. assert (ec_look (new_encoder en fl look) = look) as EL by reflexivity.
    revert DC CO EE EL. generalize (new_encoder en fl look), new_json_writer. revert rs. clear.
    induction l as [|c l IH]; intros rs e j DC CO EE EL; cbn [do_ecalls] in DC; [injection DC as <- _; eauto|].
    destruct (do_ecall e c) as [[[e1 r] o]|] eqn:E; [|discriminate]. destruct (do_ecalls e1 l) as [[e2 rs2]|] eqn:E2; [|discriminate].
    injection DC as <- _. destruct (json_kept _ _ _ _ _ _ CO E) as (KE & j1 & J1). apply (IH rs2 e1 j1); auto; [congruence|].
    rewrite <- EL. clear - E. destruct c as [|data|]; cbn [do_ecall] in E.
    - unfold start_encoding in E. destruct (coder_init _ _) as [[c [|]]|]; [|injection E as <- _ _; reflexivity|discriminate].
      destruct (negb _); injection E as <- _ _; reflexivity.
    - unfold encode_chunk in E. destruct (negb _); [injection E as <- _ _; reflexivity|]. destruct (negb _); [injection E as <- _ _; reflexivity|].
      destruct (engine_encode _ _ _) as [[x|]|]; [|injection E as <- _ _; reflexivity|discriminate].
      destruct (coder_calls _ _); [|discriminate]. destruct (coder_output _) as [[? ?]|]; [|discriminate]. injection E as <- _ _; reflexivity.
    - unfold finish_encoding in E. destruct (negb _); injection E as <- _ _; reflexivity. }
  destruct (json_stream e0 dict j chunks) as (e' & j' & out & es & X1 & X2 & X3 & _); auto.
  - rewrite EE. exact EN.
  - rewrite Forall_forall in *. intros c I. split; [apply AC|apply LC]; exact I.
  - rewrite EL. exact LK.
  - exists e', out, es. auto.
Qed.
Print Assumptions C30_json_partial.

(** Anything that is not ASCII is refused and nothing is written. *)
Theorem C30_json_refuses : forall dict fl look e data,
  bytes_ok dict -> zlen dict <= int32_max -> fl_json fl = true -> streaming_encoder dict fl look = Some e -> bytes_ok data ->
  (~ ascii dict -> exists e', start_encoding e = Some (e', false, [])) /\
  (~ ascii data -> encode_chunk e data = Some (e, false, []) /\
     forall e1 o, start_encoding e = Some (e1, true, o) -> encode_chunk e1 data = Some (e1, false, [])).
Proof.
  intros dict fl look e data B L J SE BD.
  destruct (streaming_encoder_ok dict fl look B L) as (en & EN & SE'). rewrite SE in SE'. injection SE' as ->.
  assert (ec_coder (new_encoder en fl look) = Json new_json_writer) as CO by (cbn; unfold create_writer; rewrite J; reflexivity).
  destruct (json_refuses (new_encoder en fl look) dict _ data EN CO) as [R1 R2]. split; [intros N; apply (R1 B N)|].
  intros N. split; [apply (R2 BD N)|]. intros e1 o ST. rewrite (json_start (new_encoder en fl look) dict _ EN CO) in ST.
  destruct (is_ascii dict); [|discriminate]. injection ST as <- _.
  apply (proj2 (json_refuses (set_coder (new_encoder en fl look) (Json (json_init new_json_writer)) true) dict (json_init new_json_writer) data EN eq_refl) BD N).
Qed.
Print Assumptions C30_json_refuses.

Definition json_of (dict : list Z) (look : bool) (chunks : list (list Z)) : option (bool * list Z) :=
  match streaming_encoder dict json_flags look with
  | Some e => match encode_stream e chunks with Some (_, r, o) => Some (r, o) | None => None end
  | None => None
  end.
Definition json_meaning (dict : list Z) (text : option (bool * list Z)) : option (list Z) :=
  match text with
  | Some (true, out) => match read_array out with Some es => apply_elements dict [] es | None => None end
  | _ => None
  end.
(** A quotation mark, a control character, COPYs. *)
Definition c30_target : list Z := [34; 10; 1; 92] ++ repeat_text 3 ++ [127] ++ repeat_text 2.
Example C30_case : json_meaning c01_dict (json_of c01_dict true [[]; c30_target]) = Some c30_target /\
  json_meaning c01_dict (json_of c01_dict false [c30_target; [33]; c30_target]) = Some (c30_target ++ [33] ++ c30_target) /\
  json_of [104;105] true [[104;105]] = Some (true, [91;34;104;105;34;93]).
Proof. split; [|split]; vm_compute; reflexivity. Qed.

(** With target matching and two chunks the array does not give the target: the
    offsets count from the beginning of the chunk, not of the target. *)
Definition abc (n : nat) : list Z := map (fun i => 32 + Z.of_nat i) (seq n 40).
Theorem C30_json_chunks_refuted : exists dict chunks,
  ascii dict /\ Forall ascii chunks /\
  exists text es, json_of dict true chunks = Some (true, text) /\ read_array text = Some es /\
    apply_elements dict [] es <> Some (concat chunks).
Proof.
  exists [], [abc 0; abc 45 ++ abc 45]. split; [constructor|].
  assert (forall l, forallb (fun c => (0 <=? c) && (c <? 128)) l = true -> ascii l) as AB.
  { intros l H. rewrite forallb_forall in H. apply Forall_forall. intros x I. specialize (H x I). lia. }
  split; [constructor; [apply AB; vm_compute; reflexivity|constructor; [apply AB; vm_compute; reflexivity|constructor]]|].
  destruct (json_of [] true [abc 0; abc 45 ++ abc 45]) as [[r text]|] eqn:E; [|vm_compute in E; discriminate].
  destruct (read_array text) as [es|] eqn:R; [|vm_compute in E; injection E as _ <-; vm_compute in R; discriminate].
  vm_compute in E. injection E as <- <-. eexists _, es. split; [reflexivity|]. split; [exact R|].
  vm_compute in R. injection R as <-. vm_compute. discriminate.
Qed.
Print Assumptions C30_json_chunks_refuted.

(** An empty target: nothing is written, which is no JSON text. *)
Theorem C30_json_empty_refuted : json_of [65] true [[]] = Some (true, []) /\ read_array [] = None.
Proof. split; vm_compute; reflexivity. Qed.
Print Assumptions C30_json_empty_refuted.

(** ** C34: windows of the code table writer *)

Definition init_writer (il : bool) (dict : list Z) : option writer :=
  match writer_init (new_writer il) (zlen dict) with Some (w, true) => Some w | _ => None end.

(** A checksum once added stays: the second window has the first one's checksum,
    and is not accepted. *)
Definition two_windows : option (list Z * list Z) :=
  match init_writer false [] with
  | Some w =>
      match write_windows w [([Add [65]], Some (adler_sum 0 [65])); ([Add [66]], None)] with
      | Some (_, [o1; o2]) => Some (o1, o2)
      | _ => None
      end
  | None => None
  end.
Theorem C34_windows_refuted : exists o1 o2, two_windows = Some (o1, o2) /\ Z.testbit (hd 0 o2) 2 = true /\
  decode_stream new_decoder [] [write_header (flags_of false true) ++ o1; o2] = Some (false, [65]).
Proof.
  destruct two_windows as [[o1 o2]|] eqn:E; [|vm_compute in E; discriminate]. exists o1, o2. split; [reflexivity|].
  vm_compute in E. injection E as <- <-. split; vm_compute; reflexivity.
Qed.
Print Assumptions C34_windows_refuted.

(** When AddChecksum is called for all windows or for none, then each window has a
    checksum exactly if so, and the sequence of windows means what was asked for.
    [window_fits]: the calls are sensible and the checksum is that of the data. *)
Theorem C34_windows_partial : forall il cks dict l Ts allow,
  zlen dict <= int32_max -> Forall2 (window_fits dict cks) l Ts ->
  exists w w' os, init_writer il dict = Some w /\ write_windows w l = Some (w', os) /\
    Forall (fun o => Z.testbit (hd 0 o) 2 = cks) os /\
    vcd_file strict strict allow (fun _ _ => True) dict (write_header (flags_of il cks) ++ concat os) (concat Ts).
Proof.
  intros il cks dict l Ts allow L F2. destruct (new_writer_base il) as (im & BA).
  destruct (wbase_init _ im dict BA L) as (c & _ & EI & W & TT). unfold init_writer. rewrite EI.
  set (w := inited (new_writer il) im (zlen dict) c) in *.
  set (f := {| f_ext := il || cks; f_table := entry default_table; f_near := 4; f_same := 3; f_target := allow |}).
  destruct (write_windows_ok l Ts w im dict f cks [] (fun _ _ => True) W TT) as (w' & os & EW & WS & FO); auto.
  - unfold fits, f, w; cbn. split; [reflexivity|]. split; [reflexivity|]. split; [reflexivity|]. split; [intros ->; reflexivity|discriminate].
  - intros ->. cbn. apply orb_true_r.
  - exists w, w', os. split; [reflexivity|]. split; [exact EW|]. split.
    + eapply Forall_impl; [|exact FO]. intros o [_ H]. rewrite H. destruct cks; reflexivity.
    + rewrite header_of by reflexivity. set (v := version_of (flags_of il cks)) in *.
      assert ((v =? 83) = il || cks) as VE by (unfold v, version_of; cbn [flags_of fl_interleaved fl_checksum]; destruct (il || cks); reflexivity).
      assert (v = 0 \/ v = 83) as VV by (unfold v, version_of; destruct (_ || _); auto).
      assert (head strict strict (file_header v 0) v rfc_table 4 3) as HD by (constructor; auto; unfold byte_ok; lia).
      apply file_intro with (version := v) (tbl := rfc_table) (ns := 4) (ss := 3).
      * destruct (concat os); exact HD.
      * right. lia.
      * apply (windows_ext strict strict strict strict f) with (ok := fun _ _ => True); auto using tle_refl.
        unfold same_format, f, file_format; cbn. rewrite VE. split; [reflexivity|]. split; [apply default_same|auto].
Qed.
Print Assumptions C34_windows_partial.

Example C34_case : exists Ts, Forall2 (window_fits c01_dict true)
  [([Add [1;2]; Copy 3 30; Run 5 9], Some (adler_sum 0 ([1;2] ++ ztake 30 (zdrop 3 c01_dict) ++ [9;9;9;9;9]))); ([Copy 0 4], Some (adler_sum 0 [84;104;101;32]))] Ts.
Proof.
  exists [[1;2] ++ ztake 30 (zdrop 3 c01_dict) ++ [9;9;9;9;9]; [84;104;101;32]].
  assert (forall l, bytes_okb l = true -> bytes_ok l) as BK by (intros l; apply bytes_okb_ok).
  assert (forall i, match i with Add d => 1 <= zlen d /\ bytes_okb d = true | Run n b => 1 <= n /\ 0 <= b < 256 | Copy a n => 1 <= n end -> good_instruction i) as GI.
  { intros [d|a n|n b] H; cbn [good_instruction]; unfold byte_ok; [destruct H; auto|exact H|exact H]. }
  apply Forall2_cons; [|apply Forall2_cons; [|apply Forall2_nil]]; unfold window_fits; cbn [fst snd].
  - split; [repeat (apply Forall_cons; [apply GI; vm_compute; intuition discriminate|]); apply Forall_nil|].
    split; [vm_compute; reflexivity|]. split; [vm_compute; discriminate|]. split; [vm_compute; discriminate|]. split; [vm_compute; discriminate|].
    split; [apply BK; vm_compute; reflexivity|reflexivity].
  - split; [repeat (apply Forall_cons; [apply GI; vm_compute; intuition discriminate|]); apply Forall_nil|].
    split; [vm_compute; reflexivity|]. split; [vm_compute; discriminate|]. split; [vm_compute; discriminate|]. split; [vm_compute; discriminate|].
    split; [apply BK; vm_compute; reflexivity|reflexivity].
Qed.

(** ** C39: the index of blocks *)

(** [indexes source bh n]: the blocks 0 .. n-1 are indexed; from the table entry for
    any hash value, the links lead through exactly those of them whose hash falls
    in the same entry, in increasing order, and end.  The calls may have any
    arguments, except that a hash value passed must be that of the block. *)
Theorem C39_index_history : forall source start l,
  bytes_ok source -> zlen source <= int32_max -> Forall (call_right source) l ->
  exists bh0 bh n, bh_init source start false = Some (Some bh0) /\ do_index_calls bh0 l = Some bh /\ indexes source bh n.
Proof. exact index_history. Qed.
Print Assumptions C39_index_history.

(** A dictionary is indexed completely. *)
Theorem C39_index_complete : forall source start,
  bytes_ok source -> zlen source <= int32_max ->
  exists bh, bh_init source start true = Some (Some bh) /\ indexes source bh (zlen source / kBlockSize).
Proof. exact index_complete. Qed.
Print Assumptions C39_index_complete.

(** The second call is for a block that is not the next one, and does nothing. *)
Example C39_case : Forall (call_right c01_target) [AddThrough 40; AddOne 80 (match hash_direct 16 (zdrop 80 c01_target) with Some h => h | None => 0 end); AddThrough 70] /\
  match bh_init c01_target 0 false with
  | Some (Some bh0) => match do_index_calls bh0 [AddThrough 40; AddOne 80 9; AddThrough 70] with Some bh => bh_last bh = 4 | None => False end
  | _ => False
  end.
Proof.
  split; [|vm_compute; reflexivity]. constructor; [vm_compute; discriminate|]. constructor; [|constructor; [vm_compute; discriminate|constructor]].
  split; [vm_compute; discriminate|]. split; [vm_compute; discriminate|]. intros _. vm_compute. reflexivity.
Qed.
