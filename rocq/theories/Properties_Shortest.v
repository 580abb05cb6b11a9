(** C64: no window with the same instructions is shorter than the one that the encoder
    writes. *)

From Verif Require Import Base ListFacts Spec SpecEncode SpecInstr SpecShort VarintFacts Varint AddrCache CodeTable InstructionMap CodeTableFacts Adler AdlerFacts BodyFacts InstructionMapFacts BlockHashFacts
  EncodeTable WriterFacts Engine EngineFacts Encoder EncoderFacts EncoderCalls Sound Properties_Encode Properties_Layout ShortFacts.
From Coq Require Import ZifyBool ZifyNat.

(** ** What [plain_window] means: such a window is one of the specification of the format *)

Lemma items_nothing : forall tbl ns ss L seg items s s' l, items_read tbl ns ss L seg items s s' l ->
  concat (map item_data items) = [] -> concat (map item_addr items) = [] -> snd s' = snd s.
Proof.
  assert (forall ns ss L seg h p s s' x, half_reads ns ss L seg h p s s' x -> p_data p = [] -> p_addr p = [] -> snd s' = snd s) as HALF.
  { intros ns ss L seg h p s s' x H D A. destruct H; cbn [p_data p_addr snd] in *; try discriminate; [reflexivity| |].
    - subst d. apply app_nil_r.
    - subst pa. match goal with X : addr_code _ _ _ _ _ _ _ |- _ => inversion X; subst end;
        match goal with X : varint [] _ |- _ => destruct X as [(x & y & E & _) _]; destruct x; discriminate end. }
  intros tbl ns ss L seg items s s' l H. induction H as [s|i l s s1 s2 s3 x1 x2 x3 OB LT H1 H2 IM IH]; intros D A; [reflexivity|].
  cbn [map concat] in D, A. apply app_eq_nil in D as [D1 D2]. apply app_eq_nil in A as [A1 A2].
  unfold item_data in D1. unfold item_addr in A1. apply app_eq_nil in D1 as [D3 D4]. apply app_eq_nil in A1 as [A3 A4].
  rewrite (IH D2 A2), (HALF _ _ _ _ _ _ _ _ _ H2 D4 A4). exact (HALF _ _ _ _ _ _ _ _ _ H1 D3 A3).
Qed.

Theorem C64_plain_window_reads : forall il ck allow dict prev bytes T l,
  T <> [] -> plain_window il ck dict bytes T l ->
  window_reads {| f_ext := il || ck; f_table := rfc_table; f_near := 4; f_same := 3; f_target := allow |} dict prev bytes T l.
Proof.
  intros il ck allow dict prev bytes T l NT W.
  inversion W as [bs bp bd bt bnd bni bna bck items hist T' l' data inst addr body rest V1 V2 V3 V4 V5 V6 V7 V8 IR E1 E2 E3]. subst T' l'.
  assert (0 <= zlen rest) by apply zlen_nonneg. unfold rest.
  replace (bs ++ bp ++ bd ++ bt ++ [0] ++ bnd ++ bni ++ bna ++ bck ++ body) with ((bs ++ bp) ++ bd ++ bt ++ [0] ++ bnd ++ bni ++ bna ++ bck ++ body) by (rewrite <- app_assoc; reflexivity).
  eapply window_reads_intro with (seg := dict) (items := items) (hist := hist); cbn [f_ext f_table f_near f_same f_target].
  - unfold byte_ok. destruct ck; lia.
  - eapply seg_dict; [destruct ck; reflexivity|destruct ck; reflexivity|exact V1|exact V2|]. apply slice_whole.
  - exact V3.
  - exact V4.
  - unfold byte_ok. lia.
  - reflexivity.
  - exact V5.
  - exact V6.
  - exact V7.
  - unfold checksum_field. cbn [f_ext]. destruct ck; [rewrite orb_true_r; exact V8|]. change (Z.testbit 1 2) with false. rewrite andb_false_r. exact V8.
  - unfold body. destruct il.
    + left. split; [split; [reflexivity|auto]|]. split; [reflexivity|]. left. reflexivity.
    + right. split; [|auto]. intros (_ & D & A). apply NT. pose proof (items_nothing _ _ _ _ _ _ _ _ _ IR (zlen_0_nil _ _ D) (zlen_0_nil _ _ A)) as X. exact X.
  - unfold rest, body. destruct il; rewrite !zlen_app; unfold data, inst, addr; lia.
  - exact IR.
Qed.
Print Assumptions C64_plain_window_reads.

(** ** The encoder *)

Lemma genuine_plan_long : forall look dict T b l T', genuine_plan look dict T b l T' -> Forall long l.
Proof. intros look dict T b l T' H. induction H; constructor; cbn [long]; auto; lia. Qed.

Lemma encode_chunk_shortest : forall e dict im w f data e' out, einv e dict im w f -> ec_allowed e = true -> bytes_ok data ->
  zlen dict + zlen data <= int32_max -> zlen data <= 2147483594 -> data <> [] ->
  make_map default_table default_last_mode = Some im -> f_table f = rfc_table -> f_near f = 4 -> f_same f = 3 ->
  encode_chunk e data = Some (e', true, out) ->
  exists ins, genuine_plan (ec_look e) dict [] false ins data /\
    plain_window (wr_il w) (fl_checksum (ec_flags e)) dict out data ins /\
    (forall out', plain_window (wr_il w) (fl_checksum (ec_flags e)) dict out' data ins -> zlen out <= zlen out').
Proof.
  intros e dict im w f data e' out [EN SZ CO BA WR RD] AL B L L2 NE MK FT FN FS EC. destruct (RD AL) as [WI TT].
  unfold encode_chunk in EC. rewrite AL, CO in EC. cbn [negb coder_verify] in EC.
  set (w1 := if fl_checksum (ec_flags e) then add_checksum w (compute_adler32 data) else w) in EC.
  assert ((if fl_checksum (ec_flags e) then coder_checksum (Binary w) (compute_adler32 data) else Binary w) = Binary w1) as EQ
    by (unfold w1; destruct (fl_checksum (ec_flags e)); reflexivity).
  cbv zeta in EC. rewrite EQ in EC. clear EQ.
  assert (winv w1 im dict [] [] [] [] /\ total w1 = 0 /\ shape w1 = shape w /\
          wr_has_cks w1 = fl_checksum (ec_flags e) /\ (wr_has_cks w1 = true -> wr_cks w1 = adler_sum 0 data)) as (WI1 & TT1 & SH1 & HC1 & CK1).
  { unfold w1. destruct (fl_checksum (ec_flags e)) eqn:FC.
    - split; [|split; [exact TT|split; [reflexivity|split; [reflexivity|]]]].
      + destruct WI as [[] ? ? ? ? ? ? ? ?]. constructor; auto. constructor; auto.
      + intros _. cbn. apply compute_adler32_ok. exact B.
    - split; [exact WI|]. split; [exact TT|]. split; [reflexivity|].
      assert (wr_has_cks w = false) as HF.
      { destruct WR as (_ & _ & _ & _ & _ & X). destruct (wr_has_cks w); [rewrite X in FC by reflexivity; discriminate FC|reflexivity]. }
      split; [exact HF|]. intros X; congruence. }
  clearbody w1.
  destruct (engine_encode_ok _ dict (ec_look e) data EN B NE L) as (l & EGE & GP). rewrite EGE in EC.
  cbn [coder_calls] in EC.
  pose proof (genuine_plan_good _ _ _ _ _ _ GP B) as GG.
  destruct (writer_calls_ok l w1 im dict [] [] [] [] data WI1 GG (genuine_plan_execute _ _ _ _ _ _ GP) L)
    as (w2 & items & hist & EW & WI2 & TO2 & CK2). rewrite EW in EC.
  pose proof (genuine_plan_cost _ _ _ _ _ _ GP) as CO2. rewrite zlen_nil in CO2.
  destruct (shape_cks _ _ CK2) as (SH2 & HC2 & CC2 & MP2).
  assert (shape w2 = shape w) as SH3 by congruence. unfold shape in SH3. injection SH3 as S1 S2 S3 S4 S5.
  unfold shape in SH1. injection SH1 as T1 T2 T3 T4 T5.
  destruct WR as (RT & RN & RS & _).
  assert (wr_inst w2 <> []) as NI.
  { destruct (wi_ne _ _ _ _ _ _ _ WI2) as [[_ X]|(_ & _ & X & _)]; [contradiction|exact X]. }
  cbn [coder_output] in EC. unfold writer_output in EC.
  destruct (wr_inst w2) eqn:EI; [congruence|]. cbv zeta in EC.
  destruct (writer_init _ _) as [[w3 b]|] in EC; [|discriminate EC]. injection EC as _ <-.
  cbn [app] in WI2. exists l. split; [exact GP|]. rewrite <- HC1, <- HC2, <- S1. split.
  - eapply window_plain; [exact WI2| | | | |exact L|lia].
    + rewrite S2, <- FT. exact RT.
    + congruence.
    + congruence.
    + rewrite HC2, CC2. exact CK1.
  - intros out' PW. eapply window_shortest; [exact WI2| |exact L|lia| |exact PW].
    + rewrite HC2, CC2. exact CK1.
    + intros items' hist' IR.
      pose proof (calls_short _ _ _ _ _ _ IR w1 im [] [] w2 MK ltac:(congruence) ltac:(congruence) WI1 GG (genuine_plan_long _ _ _ _ _ _ GP) L EW) as [G1 G2].
      split; [lia|]. intros NIL. rewrite T1, <- S1 in G2. specialize (G2 NIL).
      unfold total in TT1. pose proof (zlen_nonneg _ (wr_inst w1)). pose proof (zlen_nonneg _ (wr_data w1)). pose proof (zlen_nonneg _ (wr_addr w1)). lia.
Qed.

(** C64.  After any history of calls, for every chunk that is not empty the encoder has
    chosen instructions (a good plan, see C12) for which its window is a shortest one, among all
    that have the same layout, the whole dictionary as source segment, and a checksum
    if it was asked for. *)
Theorem C64_shortest_window : forall dict fl look e l e1 rs data e2 out,
  bytes_ok dict -> zlen dict <= int32_max -> fl_json fl = false ->
  streaming_encoder dict fl look = Some e -> Forall (call_fits dict) l -> do_ecalls e l = Some (e1, rs) ->
  chunk_fits dict data -> data <> [] -> encode_chunk e1 data = Some (e2, true, out) ->
  exists ins, genuine_plan look dict [] false ins data /\
    plain_window (fl_interleaved fl) (fl_checksum fl) dict out data ins /\
    (forall out', plain_window (fl_interleaved fl) (fl_checksum fl) dict out' data ins -> zlen out <= zlen out').
Proof.
  intros dict fl look e l e1 rs data e2 out B L J SE F DC CF NE EC.
  destruct (streaming_encoder_ok dict fl look B L) as (en & EN & SE'). rewrite SE in SE'. injection SE' as ->.
  destruct (new_encoder_inv en dict fl look true EN L J) as (im & EI).
  pose proof (wb_make _ _ (ei_base _ _ _ _ _ EI)) as MK. cbn [new_writer new_custom_writer wr_table wr_max_mode] in MK.
  destruct (do_ecalls_ok _ _ _ _ _ _ EI F) as (w & a & rs' & DC' & EI' & K). rewrite DC in DC'. injection DC' as -> _.
  destruct a.
  2: { unfold encode_chunk in EC. cbn in EC. discriminate EC. }
  destruct CF as (CB & CL & CL2).
  pose proof (encode_chunk_shortest _ _ _ _ _ _ _ _ EI' eq_refl CB CL CL2 NE MK eq_refl eq_refl eq_refl EC) as LO.
  destruct K as [SH _]. unfold shape in SH. injection SH as S1 S2 S3 S4 S5. rewrite S1 in LO. exact LO.
Qed.
Print Assumptions C64_shortest_window.

(** ** The writer by itself

    For other instructions the writer's choice need not be the best.  It takes the best
    mode for the address first and the best opcode for this mode then: after COPY 3, 5 and
    ADD of one byte, COPY 3, 5 is written with a SAME address, for which there is no
    opcode together with the ADD; with SELF there is. *)
Definition c64_dict : list Z := zrepeat 7 100.
Definition c64_calls : list instruction := [Copy 3 5; Add [9]; Copy 3 5].
Definition c64_target : list Z := [7;7;7;7;7; 9; 7;7;7;7;7].
Definition c64_better : list Z := [1; 100; 0; 10; 11; 0; 1; 2; 2; 9; 21; 164; 3; 3].

Lemma one_digit : forall b, 0 <= b < 128 -> varint [b] b.
Proof.
  intros b B. split; [exists [], b; split; [reflexivity|split; [constructor|exact B]]|]. cbn. apply Z.mod_small. lia.
Qed.
Definition bare (op : Z) (p q : piece) : item := {| i_op := op; i_first := p; i_second := q |}.
Definition at_addr (b : Z) : piece := {| p_size := []; p_data := []; p_addr := [b] |}.
Definition of_data (d : list Z) : piece := {| p_size := []; p_data := d; p_addr := [] |}.

Lemma read_self : forall L seg k n a hist T T', 0 < k -> n = k -> zlen T < L -> 0 <= a < zlen seg + zlen T -> a < 128 ->
  copy_bytewise (Z.to_nat n) seg T a = Some T' ->
  half_reads 4 3 L seg (HCopy k 0) (at_addr a) (hist, T) (a :: hist, T') [Copy a n].
Proof.
  intros L seg k n a hist T T' K -> LT AR AS X. apply (hr_copy _ _ _ _ k 0 [] k); auto; [left; auto|].
  apply addr_self; [apply one_digit; lia|exact AR].
Qed.

Lemma c64_items_written : items_read rfc_table 4 3 (zlen c64_target) c64_dict
  [bare 21 (at_addr 3) no_piece; bare 2 (of_data [9]) no_piece; bare 117 (at_addr 3) no_piece] ([], []) ([3; 3], c64_target) c64_calls.
Proof.
  apply (ir_cons _ _ _ _ _ (bare 21 (at_addr 3) no_piece) _ ([], []) ([3], [7;7;7;7;7]) ([3], [7;7;7;7;7]) ([3; 3], c64_target) [Copy 3 5] [] [Add [9]; Copy 3 5]).
  - unfold byte_ok. cbn. lia.
  - reflexivity.
  - apply (read_self _ _ 5); try reflexivity; split; (discriminate || reflexivity).
  - apply hr_noop.
  - apply (ir_cons _ _ _ _ _ (bare 2 (of_data [9]) no_piece) _ ([3], [7;7;7;7;7]) ([3], [7;7;7;7;7;9]) ([3], [7;7;7;7;7;9]) ([3; 3], c64_target) [Add [9]] [] [Copy 3 5]).
    + unfold byte_ok. cbn. lia.
    + reflexivity.
    + apply (hr_add _ _ _ _ 1 [] 1 [9] [3] [7;7;7;7;7]); [reflexivity|left; split; [reflexivity|auto]|reflexivity].
    + apply hr_noop.
    + apply (ir_cons _ _ _ _ _ (bare 117 (at_addr 3) no_piece) _ ([3], [7;7;7;7;7;9]) ([3; 3], c64_target) ([3; 3], c64_target) ([3; 3], c64_target) [Copy 3 5] [] []).
      * unfold byte_ok. cbn. lia.
      * reflexivity.
      * apply (hr_copy _ _ _ _ 5 6 [] 5 [3] 3); [reflexivity|left; split; [reflexivity|auto]| |vm_compute; reflexivity].
        apply (addr_same 4 3 [3] _ 0 3 3); [lia|unfold byte_ok; lia|reflexivity|split; [discriminate|reflexivity]].
      * apply hr_noop.
      * apply ir_nil.
Qed.
Lemma c64_items_better : items_read rfc_table 4 3 (zlen c64_target) c64_dict
  [bare 21 (at_addr 3) no_piece; bare 164 (of_data [9]) (at_addr 3)] ([], []) ([3; 3], c64_target) c64_calls.
Proof.
  apply (ir_cons _ _ _ _ _ (bare 21 (at_addr 3) no_piece) _ ([], []) ([3], [7;7;7;7;7]) ([3], [7;7;7;7;7]) ([3; 3], c64_target) [Copy 3 5] [] [Add [9]; Copy 3 5]).
  - unfold byte_ok. cbn. lia.
  - reflexivity.
  - apply (read_self _ _ 5); try reflexivity; split; (discriminate || reflexivity).
  - apply hr_noop.
  - apply (ir_cons _ _ _ _ _ (bare 164 (of_data [9]) (at_addr 3)) _ ([3], [7;7;7;7;7]) ([3], [7;7;7;7;7;9]) ([3; 3], c64_target) ([3; 3], c64_target) [Add [9]] [Copy 3 5] []).
    + unfold byte_ok. cbn. lia.
    + reflexivity.
    + apply (hr_add _ _ _ _ 1 [] 1 [9] [3] [7;7;7;7;7]); [reflexivity|left; split; [reflexivity|auto]|reflexivity].
    + apply (read_self _ _ 5); try reflexivity; split; (discriminate || reflexivity).
    + apply ir_nil.
Qed.

Theorem C64_writer_refuted : exists dict calls T out better,
  (match writer_init (new_writer false) (zlen dict) with
   | Some (w, true) => match writer_calls w calls with Some w' => option_map snd (writer_output w') | None => None end
   | _ => None
   end) = Some out /\
  plain_window false false dict out T calls /\ plain_window false false dict better T calls /\ zlen better < zlen out.
Proof.
  exists c64_dict, c64_calls, c64_target, [1; 100; 0; 11; 11; 0; 1; 3; 2; 9; 21; 2; 117; 3; 3], c64_better.
  split; [vm_compute; reflexivity|]. split; [|split; [|reflexivity]].
  - apply (plain_window_intro false false c64_dict [100] [0] [11] [11] [1] [3] [2] []
      [bare 21 (at_addr 3) no_piece; bare 2 (of_data [9]) no_piece; bare 117 (at_addr 3) no_piece] [3; 3] _ _); try exact c64_items_written; try (apply one_digit; vm_compute; split; [discriminate|reflexivity]).
    reflexivity.
  - apply (plain_window_intro false false c64_dict [100] [0] [10] [11] [1] [2] [2] []
      [bare 21 (at_addr 3) no_piece; bare 164 (of_data [9]) (at_addr 3)] [3; 3] _ _); try exact c64_items_better; try (apply one_digit; vm_compute; split; [discriminate|reflexivity]).
    reflexivity.
Qed.
Print Assumptions C64_writer_refuted.

(** ** A session

    Two chunks; the second is a COPY of the dictionary and an ADD.  Another window with
    these instructions is longer by one byte: the size has a leading zero. *)
Definition c64_session : option (list Z) :=
  match streaming_encoder c58_dict {| fl_interleaved := false; fl_checksum := false; fl_json := false |} true with
  | Some e =>
      match do_ecalls e [EStart; EChunk [5]] with
      | Some (e1, _) => match encode_chunk e1 c58_target with Some (_, true, out) => Some out | _ => None end
      | None => None
      end
  | None => None
  end.
Example C64_case :
  c64_session = Some [1; 32; 0; 11; 34; 0; 2; 3; 1; 1;2; 115;32;3; 0] /\
  plain_window false false c58_dict [1; 32; 0; 12; 34; 0; 2; 4; 1; 1;2; 19;128;32;3; 0] c58_target [Copy 0 32; Add [1;2]].
Proof.
  split; [vm_compute; reflexivity|].
  apply (plain_window_intro false false c58_dict [32] [0] [12] [34] [2] [4] [1] []
    [bare 19 {| p_size := [128; 32]; p_data := []; p_addr := [0] |} no_piece; bare 3 (of_data [1;2]) no_piece] [0] _ _);
    try (apply one_digit; vm_compute; split; [discriminate|reflexivity]); [reflexivity|].
  apply (ir_cons _ _ _ _ _ (bare 19 {| p_size := [128; 32]; p_data := []; p_addr := [0] |} no_piece) _ ([], []) ([0], c58_dict) ([0], c58_dict) ([0], c58_target) [Copy 0 32] [] [Add [1;2]]).
  - unfold byte_ok. cbn. lia.
  - reflexivity.
  - apply (hr_copy _ _ _ _ 0 0 [128; 32] 32 [0] 0); [reflexivity| | |vm_compute; reflexivity].
    + right. split; [reflexivity|]. split; [|reflexivity]. exists [128], 32. split; [reflexivity|]. split; [constructor; [lia|constructor]|lia].
    + apply addr_self; [apply one_digit; lia|split; [discriminate|reflexivity]].
  - apply hr_noop.
  - apply (ir_cons _ _ _ _ _ (bare 3 (of_data [1;2]) no_piece) _ ([0], c58_dict) ([0], c58_target) ([0], c58_target) ([0], c58_target) [Add [1;2]] [] []).
    + unfold byte_ok. cbn. lia.
    + reflexivity.
    + apply (hr_add _ _ _ _ 2 [] 2 [1;2] [0] c58_dict); [reflexivity|left; split; [reflexivity|auto]|reflexivity].
    + apply hr_noop.
    + apply ir_nil.
Qed.
