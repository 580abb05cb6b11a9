(** The layout of what the encoder writes: C58. *)

From Verif Require Import Base ListFacts Spec SpecEncode VarintFacts Varint AddrCache CodeTable InstructionMap CodeTableFacts Adler AdlerFacts BodyFacts InstructionMapFacts
  EncodeTable WriterFacts Engine EngineFacts Encoder EncoderFacts EncoderCalls.
From Coq Require Import ZifyBool ZifyNat.

(** ** The specification *)

(** The bytes that denote a value with no leading zero digit. *)
Definition shortest (l : list Z) (v : Z) : Prop := varint l v /\ hd 0 l <> 128.

(** The header of a file: the three letters with their high bits set, 'S' or 0,
    and no header indicator (RFC 3284 section 4.1). *)
Definition file_start (extended : bool) : list Z := [214; 195; 196; if extended then 83 else 0; 0].

(** A window of RFC 3284 sections 4.2 and 4.3: the indicator for a segment of the
    dictionary (1), with the bit of the extension (4) if there is a checksum;
    the segment is the whole dictionary and starts at 0; no section is compressed.
    When the sections are [interleaved], the two for data and addresses are empty;
    when not, one of them has the data or address that every instruction needs. *)
Definition laid_out (interleaved checksum : bool) (dict data out : list Z) : Prop :=
  exists bseg bpos blen btarget bdata binst baddr bsum rest ndata ninst naddr,
    out = [if checksum then 5 else 1] ++ bseg ++ bpos ++ blen
          ++ btarget ++ [0] ++ bdata ++ binst ++ baddr ++ bsum ++ rest /\
    shortest bseg (zlen dict) /\ shortest bpos 0 /\
    shortest blen (zlen (btarget ++ [0] ++ bdata ++ binst ++ baddr ++ bsum ++ rest)) /\
    shortest btarget (zlen data) /\
    shortest bdata ndata /\ shortest binst ninst /\ shortest baddr naddr /\
    (if checksum then shortest bsum (adler_sum 0 data) else bsum = []) /\
    zlen rest = ndata + ninst + naddr /\ 0 < ninst /\
    (if interleaved then ndata = 0 /\ naddr = 0 else 0 < ndata \/ 0 < naddr).

(** ** Proofs *)

Lemma size_bytes_shortest : forall n, 0 <= n <= int32_max -> shortest (size_bytes n) n.
Proof.
  intros n N. unfold size_bytes. rewrite to_int32_id by (unfold int32_max in *; lia).
  destruct (encode_total I32 n I32_ok) as (l & E & V & _ & H); [exact N|]. unfold encode_bytes. rewrite E. split; assumption.
Qed.
Lemma sum_bytes_shortest : forall n, 0 <= n < 4294967296 -> shortest (encode_bytes I64 n) n.
Proof.
  intros n N. destruct (encode_total I64 n I64_ok) as (l & E & V & _ & H).
  { cbn [I64 kMaxVal]. unfold int64_max. lia. }
  unfold encode_bytes. rewrite E. split; assumption.
Qed.

Lemma zlen_pos : forall (l : list Z), l <> [] -> 0 < zlen l.
Proof. intros [|x l] N; [congruence|]. rewrite zlen_cons. pose proof (zlen_nonneg _ l). lia. Qed.

Lemma window_layout : forall w im dict ins items hist T,
  winv w im dict ins items hist T -> (wr_has_cks w = true -> wr_cks w = adler_sum 0 T) ->
  zlen dict + zlen T <= int32_max -> total w <= 2147483600 -> T <> [] ->
  laid_out (wr_il w) (wr_has_cks w) dict T (window_bytes w).
Proof.
  intros w im dict ins items hist T W CK L TO NT.
  pose proof W as [WC WM WCA WS WD WL WLA (B1 & B2 & B3) WN]. destruct WN as [[_ X]|(NI & _ & NW & ND)]; [contradiction|].
  pose proof (zlen_nonneg _ T). pose proof (zlen_nonneg _ dict).
  pose proof (zlen_nonneg _ (wr_inst w)). pose proof (zlen_nonneg _ (wr_data w)). pose proof (zlen_nonneg _ (wr_addr w)).
  unfold total in TO.
  destruct (size_bytes_ok (wr_len w)) as (_ & _ & VL1 & VE1); [lia|].
  destruct (size_bytes_ok (zlen (wr_data w))) as (_ & _ & VL2 & VE2); [unfold int32_max; lia|].
  destruct (size_bytes_ok (zlen (wr_inst w))) as (_ & _ & VL3 & VE3); [unfold int32_max; lia|].
  destruct (size_bytes_ok (zlen (wr_addr w))) as (_ & _ & VL4 & VE4); [unfold int32_max; lia|].
  set (bck := if wr_has_cks w then encode_bytes I64 (wr_cks w) else []).
  assert (zlen bck <= 10 /\ zlen bck = (if wr_has_cks w then varint_length (wr_cks w) else 0) /\
          (if wr_has_cks w then shortest bck (adler_sum 0 T) else bck = [])) as (KL & KE & KF).
  { unfold bck. destruct (wr_has_cks w).
    - rewrite CK by reflexivity. destruct (cks_bytes_ok (adler_sum 0 T) (adler_sum_range 0 T)) as (_ & _ & U3 & U4).
      split; [lia|]. split; [auto|]. apply sum_bytes_shortest. apply adler_sum_range.
    - rewrite zlen_nil. split; [lia|]. auto. }
  set (rest := wr_data w ++ wr_inst w ++ wr_addr w).
  set (tail := size_bytes (wr_len w) ++ [0] ++ size_bytes (zlen (wr_data w)) ++ size_bytes (zlen (wr_inst w)) ++ size_bytes (zlen (wr_addr w)) ++ bck ++ rest).
  assert (delta_length w = zlen tail) as DL.
  { unfold delta_length, tail, rest. zl. rewrite VE1, VE2, VE3, VE4, KE. lia. }
  assert (0 <= zlen tail <= int32_max) as DB.
  { split; [apply zlen_nonneg|]. unfold tail, rest. zl. unfold int32_max. lia. }
  exists (size_bytes (zlen dict)), (size_bytes 0), (size_bytes (zlen tail)), (size_bytes (zlen T)),
    (size_bytes (zlen (wr_data w))), (size_bytes (zlen (wr_inst w))), (size_bytes (zlen (wr_addr w))), bck, rest,
    (zlen (wr_data w)), (zlen (wr_inst w)), (zlen (wr_addr w)).
  rewrite <- WL. fold tail.
  split. { unfold window_bytes. fold bck. fold rest. rewrite WD, DL. reflexivity. }
  split; [apply size_bytes_shortest; lia|]. split; [apply size_bytes_shortest; unfold int32_max; lia|].
  split; [apply size_bytes_shortest; exact DB|]. split; [apply size_bytes_shortest; lia|].
  split; [apply size_bytes_shortest; unfold int32_max; lia|]. split; [apply size_bytes_shortest; unfold int32_max; lia|].
  split; [apply size_bytes_shortest; unfold int32_max; lia|]. split; [exact KF|].
  split; [unfold rest; zl; lia|]. split; [apply zlen_pos; exact NW|].
  destruct (wr_il w).
  - cbn [items_sec] in WS. unfold wsec in WS. injection WS as _ -> ->. split; reflexivity.
  - destruct (ND eq_refl) as [N|N]; [left|right]; apply zlen_pos; exact N.
Qed.

Lemma encode_chunk_layout : forall e dict im w f data e' out, einv e dict im w f -> ec_allowed e = true -> bytes_ok data ->
  zlen dict + zlen data <= int32_max -> zlen data <= 2147483594 -> data <> [] ->
  encode_chunk e data = Some (e', true, out) -> laid_out (wr_il w) (fl_checksum (ec_flags e)) dict data out.
Proof.
  intros e dict im w f data e' out [EN SZ CO BA WR RD] AL B L L2 NE EC. destruct (RD AL) as [WI TT].
  unfold encode_chunk in EC. rewrite AL, CO in EC. cbn [negb coder_verify] in EC.
  set (w1 := if fl_checksum (ec_flags e) then add_checksum w (compute_adler32 data) else w) in EC.
  assert ((if fl_checksum (ec_flags e) then coder_checksum (Binary w) (compute_adler32 data) else Binary w) = Binary w1) as EQ
    by (unfold w1; destruct (fl_checksum (ec_flags e)); reflexivity).
  cbv zeta in EC. rewrite EQ in EC. clear EQ.
  assert (winv w1 im dict [] [] [] [] /\ total w1 = 0 /\ shape w1 = shape w /\
          wr_has_cks w1 = fl_checksum (ec_flags e) /\ (wr_has_cks w1 = true -> wr_cks w1 = adler_sum 0 data)) as (WI1 & TT1 & SH1 & HC1 & CK1).
  { unfold w1. destruct (fl_checksum (ec_flags e)) eqn:FC.
    - split; [|split; [exact TT|split; [reflexivity|split; [reflexivity|]]]].
      + destruct WI as [[] ? ? ? ? ? ? ? ?]. constructor; auto. constructor; auto.
      + intros _. cbn. apply compute_adler32_ok. exact B.
    - split; [exact WI|]. split; [exact TT|]. split; [reflexivity|].
      assert (wr_has_cks w = false) as HF.
      { destruct WR as (_ & _ & _ & _ & _ & X). destruct (wr_has_cks w); [rewrite X in FC by reflexivity; discriminate|reflexivity]. }
      split; [exact HF|]. intros X; congruence. }
  clearbody w1.
  destruct (engine_encode_ok _ dict (ec_look e) data EN B NE L) as (l & EGE & GP). rewrite EGE in EC.
  cbn [coder_calls] in EC.
  destruct (writer_calls_ok l w1 im dict [] [] [] [] data WI1 (genuine_plan_good _ _ _ _ _ _ GP B) (genuine_plan_execute _ _ _ _ _ _ GP) L)
    as (w2 & items & hist & EW & WI2 & TO2 & CK2). rewrite EW in EC.
  pose proof (genuine_plan_cost _ _ _ _ _ _ GP) as CO2. rewrite zlen_nil in CO2.
  destruct (shape_cks _ _ CK2) as (SH2 & HC2 & CC2 & MP2).
  assert (shape w2 = shape w) as SH3 by congruence. unfold shape in SH3. injection SH3 as S1 S2 S3 S4 S5.
  assert (laid_out (wr_il w2) (wr_has_cks w2) dict data (window_bytes w2)) as LO.
  { eapply window_layout; [exact WI2| |exact L| |exact NE]. - rewrite HC2, CC2. exact CK1. - lia. }
  assert (wr_inst w2 <> []) as NI.
  { destruct (wi_ne _ _ _ _ _ _ _ WI2) as [[_ X]|(_ & _ & X & _)]; [contradiction|exact X]. }
  cbn [coder_output] in EC. unfold writer_output in EC.
  destruct (wr_inst w2) eqn:EI; [congruence|]. cbv zeta in EC.
  destruct (writer_init _ _) as [[w3 b]|] in EC; [|discriminate]. injection EC as _ <-.
  rewrite S1, HC2, HC1 in LO. exact LO.
Qed.

(** ** The theorems *)

(** C58.  After any history of calls, every chunk that is not empty becomes one
    window with the layout that was asked for. *)
Theorem C58_window_layout : forall dict fl look e l e1 rs data e2 out,
  bytes_ok dict -> zlen dict <= int32_max -> fl_json fl = false ->
  streaming_encoder dict fl look = Some e -> Forall (call_fits dict) l -> do_ecalls e l = Some (e1, rs) ->
  chunk_fits dict data -> data <> [] -> encode_chunk e1 data = Some (e2, true, out) ->
  laid_out (fl_interleaved fl) (fl_checksum fl) dict data out.
Proof.
  intros dict fl look e l e1 rs data e2 out B L J SE F DC CF NE EC.
  destruct (streaming_encoder_ok dict fl look B L) as (en & EN & SE'). rewrite SE in SE'. injection SE' as ->.
  destruct (new_encoder_inv en dict fl look true EN L J) as (im & EI).
  destruct (do_ecalls_ok _ _ _ _ _ _ EI F) as (w & a & rs' & DC' & EI' & K). rewrite DC in DC'. injection DC' as -> _.
  destruct a.
  2: { unfold encode_chunk in EC. cbn in EC. discriminate. }
  destruct CF as (CB & CL & CL2).
  pose proof (encode_chunk_layout _ _ _ _ _ _ _ _ EI' eq_refl CB CL CL2 NE EC) as LO.
  destruct K as [SH _]. unfold shape in SH. injection SH as S1 S2 S3 S4 S5. rewrite S1 in LO. exact LO.
Qed.
Print Assumptions C58_window_layout.

(** After any history of calls, StartEncoding succeeds and writes the header of a
    file; it announces the extensions if and only if one of them was asked for. *)
Theorem C58_header : forall dict fl look e l e1 rs,
  bytes_ok dict -> zlen dict <= int32_max -> fl_json fl = false ->
  streaming_encoder dict fl look = Some e -> Forall (call_fits dict) l -> do_ecalls e l = Some (e1, rs) ->
  exists e2, start_encoding e1 = Some (e2, true, file_start (fl_interleaved fl || fl_checksum fl)).
Proof.
  intros dict fl look e l e1 rs B L J SE F DC.
  destruct (streaming_encoder_ok dict fl look B L) as (en & EN & SE'). rewrite SE in SE'. injection SE' as ->.
  destruct (new_encoder_inv en dict fl look true EN L J) as (im & EI).
  destruct (do_ecalls_ok _ _ _ _ _ _ EI F) as (w & a & rs' & DC' & EI' & K). rewrite DC in DC'. injection DC' as -> _.
  destruct (start_encoding_ok _ _ _ _ _ EI') as (c & _ & ES & _). rewrite ES. eexists.
  cbn [set_coder ec_flags new_encoder new_custom_encoder]. rewrite (header_of fl J). unfold file_start, version_of.
  destruct (_ || _); reflexivity.
Qed.
Print Assumptions C58_header.

(** VCDiffEncoder::Encode: the header and, unless the target is empty, one window. *)
Theorem C58_file_layout : forall dict fl look target,
  bytes_ok dict -> fl_json fl = false -> chunk_fits dict target -> zlen target + 58 <= int32_max ->
  exists v w,
    encode (set_target_matching (set_format_flags (new_vcdiff_encoder dict) fl) look) target =
      Some (v, true, file_start (fl_interleaved fl || fl_checksum fl) ++ w) /\
    if list_eq_dec Z.eq_dec target [] then w = [] else laid_out (fl_interleaved fl) (fl_checksum fl) dict target w.
Proof.
  intros dict fl look target B J CF L58. pose proof CF as (CB & CL & CL2). pose proof (zlen_nonneg _ target).
  assert (zlen dict <= int32_max) as L by lia.
  destruct (streaming_encoder_ok dict fl look B L) as (en & EN & SE).
  destruct (new_encoder_inv en dict fl look true EN L J) as (im & EI).
  destruct (C58_header dict fl look _ [] _ _ B L J SE (Forall_nil _) eq_refl) as (e2 & ES).
  destruct (start_encoding_ok _ _ _ _ _ EI) as (c & _ & ES' & EI2). rewrite ES in ES'. injection ES' as E2 _.
  destruct (encode_chunk_ok e2 dict im _ _ target [] ltac:(rewrite E2; exact EI2) ltac:(rewrite E2; reflexivity) CB CL CL2)
    as (w' & out & EC & EI3 & _ & _ & O).
  exists {| ve_engine := en; ve_encoder := Some (set_coder (set_coder e2 (Binary w') true) (Binary w') false); ve_flags := fl; ve_look := look |}, out.
  split.
  - unfold encode. cbn [set_target_matching set_format_flags new_vcdiff_encoder ve_encoder ve_engine ve_flags ve_look].
    unfold streaming_encoder in SE. destruct (engine_init (new_engine dict)) as [[en' b]|]; [|discriminate].
    destruct b; [|discriminate]. injection SE as ->.
    unfold encode_stream. rewrite ES. cbn [encode_chunks]. rewrite EC.
    unfold finish_encoding. cbn [set_coder ec_allowed negb ec_coder coder_finish]. rewrite app_nil_r. reflexivity.
  - destruct (list_eq_dec Z.eq_dec target []) as [E|NE]; [destruct O as [[_ O]|[N _]]; [exact O|contradiction]|].
    eapply (C58_window_layout dict fl look _ [EStart]); [exact B|exact L|exact J|exact SE|repeat constructor| |exact CF|exact NE|exact EC].
    cbn [do_ecalls do_ecall]. rewrite ES. reflexivity.
Qed.
Print Assumptions C58_file_layout.

(** One target in the four layouts: a COPY of the dictionary and an ADD. *)
Definition c58_dict : list Z := [48;49;50;51;52;53;54;55;56;57;58;59;60;61;62;63;64;65;66;67;68;69;70;71;72;73;74;75;76;77;78;79].
Definition c58_target : list Z := c58_dict ++ [1;2].
Definition c58_out (interleaved checksum : bool) : option (list Z) :=
  match encode (set_format_flags (new_vcdiff_encoder c58_dict) {| fl_interleaved := interleaved; fl_checksum := checksum; fl_json := false |}) c58_target with
  | Some (_, true, out) => Some out
  | _ => None
  end.
Example C58_case :
  c58_out false false = Some [214;195;196;0;0; 1; 32; 0; 11; 34; 0; 2; 3; 1; 1;2; 115;32;3; 0] /\
  c58_out true false = Some [214;195;196;83;0; 1; 32; 0; 11; 34; 0; 0; 6; 0; 115;32;0;3;1;2] /\
  c58_out false true = Some [214;195;196;83;0; 5; 32; 0; 16; 34; 0; 2; 3; 1; 136;193;208;143;115; 1;2; 115;32;3; 0] /\
  c58_out true true = Some [214;195;196;83;0; 5; 32; 0; 16; 34; 0; 0; 6; 0; 136;193;208;143;115; 115;32;0;3;1;2].
Proof. vm_compute. repeat split. Qed.
