(** What EncodeChunk appends does not depend on what was encoded before. *)

From Verif Require Import Base ListFacts Spec SpecEncode SpecInstr CopyFacts Varint AddrCache CodeTable InstructionMap CodeTableFacts Adler AdlerFacts BodyFacts InstructionMapFacts
  EncodeTable WriterFacts RollingHash BlockHash BlockHashFacts Engine EngineFacts JsonWriter Encoder Sound EncoderFacts.
From Coq Require Import ZifyBool ZifyNat.

(** ** Writers as Init leaves them *)

(** The state of [w] is the one Init leaves; the sections are empty by [wbase]. *)
Definition clean (w : writer) (im : instruction_map) (n : Z) : Prop :=
  exists c, cache_init (wr_near w) (wr_same w) = Some c /\ w = inited w im n c.

Lemma clean_inited : forall w im n c, cache_init (wr_near w) (wr_same w) = Some c -> clean (inited w im n c) im n.
Proof. intros w im n c EC. exists c. split; [exact EC|reflexivity]. Qed.

Lemma clean_output : forall w im w' out, cache_init (wr_near w) (wr_same w) <> None -> wr_map w = Some im ->
  writer_output w = Some (w', out) -> clean w' im (wr_dict_size w).
Proof.
  intros w im w' out NC MP EO. unfold writer_output in EO.
  destruct (match wr_inst w with [] => (w, []) | _ => (set_sections w [] [] [] (wr_len w), window_bytes w) end) as [w1 o1] eqn:E1.
  assert (wr_map w1 = wr_map w /\ wr_near w1 = wr_near w /\ wr_same w1 = wr_same w /\ wr_dict_size w1 = wr_dict_size w) as (A & B & C & D)
    by (destruct (wr_inst w); injection E1 as <- <-; auto).
  unfold writer_init in EO. rewrite A, MP, B, C, D in EO.
  destruct (cache_init (wr_near w) (wr_same w)) as [c|] eqn:EC; [|contradiction NC; reflexivity].
  injection EO as <- <-. apply clean_inited. rewrite B, C. exact EC.
Qed.

Lemma clean_cache : forall w im n, wbase w im -> 0 <= n <= int32_max -> cache_init (wr_near w) (wr_same w) <> None.
Proof.
  intros w im n BA L. destruct (wbase_init w im [] BA) as (c & EC & _); [rewrite zlen_nil; unfold int32_max; lia|]. congruence.
Qed.

Lemma clean_checksum : forall w im n x, clean w im n -> clean (add_checksum w x) im n.
Proof.
  intros w im n x (c & EC & EW). exists c. split; [exact EC|]. rewrite EW at 1. reflexivity.
Qed.

(** ** The encoder *)

Lemma chunk_clean : forall e dict im w f data w' out, einv e dict im w f -> ec_allowed e = true -> clean w im (zlen dict) ->
  chunk_fits dict data -> encode_chunk e data = Some (set_coder e (Binary w') true, true, out) -> clean w' im (zlen dict).
Proof.
  intros e dict im w f data w' out E AL CL (B & L & L2) H. destruct E as [EN SZ CO BA WR RD]. destruct (RD AL) as [WI TT].
  unfold encode_chunk in H. rewrite AL, CO in H. cbn [negb coder_verify] in H.
  set (w1 := if fl_checksum (ec_flags e) then add_checksum w (compute_adler32 data) else w) in *.
  assert ((if fl_checksum (ec_flags e) then coder_checksum (Binary w) (compute_adler32 data) else Binary w) = Binary w1) as X
    by (unfold w1; destruct (fl_checksum (ec_flags e)); reflexivity).
  rewrite X in H.
  assert (clean w1 im (zlen dict)) as CL1 by (unfold w1; destruct (fl_checksum (ec_flags e)); [apply clean_checksum|]; exact CL).
  assert (winv w1 im dict [] [] [] []) as WI1.
  { unfold w1; destruct (fl_checksum (ec_flags e)); [|exact WI]. destruct WI as [[] ? ? ? ? ? ? ? ?]. constructor; auto. constructor; auto. }
  assert (wr_near w1 = wr_near w /\ wr_same w1 = wr_same w) as [NE1 SA1] by (unfold w1; destruct (fl_checksum (ec_flags e)); auto).
  clearbody w1. clear X.
  destruct (list_eq_dec Z.eq_dec data []) as [-> |NE].
  - unfold engine_encode in H. pose proof EN as (_ & _ & dh & dhs & EH & _). rewrite EH in H. rewrite zlen_nil in H. cbn [Z.eqb] in H.
    assert (w' = w1) as -> by (unfold set_coder in H; congruence). exact CL1.
  - destruct (engine_encode_ok _ dict (ec_look e) data EN B NE L) as (l & EGE & GP). rewrite EGE in H. cbn [coder_calls] in H.
    destruct (writer_calls_ok l w1 im dict [] [] [] [] data WI1 (genuine_plan_good _ _ _ _ _ _ GP B) (genuine_plan_execute _ _ _ _ _ _ GP) L)
      as (w2 & items & hist & EW & WI2 & TO2 & CK2). rewrite EW in H.
    destruct (shape_cks _ _ CK2) as (SH2 & _ & _ & MP2). unfold shape in SH2. injection SH2 as _ _ _ S4 S5.
    cbn [coder_output] in H. destruct (writer_output w2) as [[w3 o]|] eqn:EO; [|discriminate].
    assert (w' = w3) as -> by (unfold set_coder in H; congruence).
    rewrite <- (wi_dict _ _ _ _ _ _ _ WI2). apply (clean_output w2 im w3 o); [| |exact EO].
    + rewrite S4, S5, NE1, SA1. apply (clean_cache w im (zlen dict) BA). pose proof (zlen_nonneg _ dict). lia.
    + rewrite MP2. destruct CL1 as (c & _ & EW1). rewrite EW1. reflexivity.
Qed.

Definition ready (e : encoder) (dict : list Z) (im : instruction_map) (w : writer) : Prop :=
  ec_allowed e = true -> clean w im (zlen dict).

Lemma do_ecall_clean : forall c e dict im w f, einv e dict im w f -> ready e dict im w -> call_fits dict c ->
  exists w' a r o, do_ecall e c = Some (set_coder e (Binary w') a, r, o) /\
    einv (set_coder e (Binary w') a) dict im w' f /\ kept (ec_flags e) w w' /\ ready (set_coder e (Binary w') a) dict im w'.
Proof.
  intros c e dict im w f E RY CF.
  destruct (do_ecall_ok c e dict im w f E CF) as (w' & a & r & o & H & E1 & K).
  exists w', a, r, o. split; [exact H|]. split; [exact E1|]. split; [exact K|].
  intros AL. cbn [set_coder ec_allowed] in AL. subst a.
  pose proof (ei_coder _ _ _ _ _ E) as CO.
  destruct c as [|data|]; cbn [do_ecall call_fits] in *.
  - destruct (start_encoding_ok e dict im w f E) as (c & EC & H' & _). rewrite H in H'.
    assert (w' = inited w im (zlen dict) c) as -> by (unfold set_coder in H'; congruence). apply clean_inited. exact EC.
  - destruct (ec_allowed e) eqn:AL.
    + pose proof CF as (B & L & L2). destruct (encode_chunk_ok e dict im w f data [] E AL B L L2) as (w1 & o1 & H1 & _).
      assert (w' = w1 /\ r = true) as [-> ->] by (rewrite H in H1; unfold set_coder in H1; split; congruence).
      exact (chunk_clean e dict im w f data w1 o E AL (RY AL) CF H).
    + unfold encode_chunk in H. rewrite AL in H. cbn [negb] in H.
      assert (ec_allowed e = true) by (replace e with (set_coder e (Binary w') true) by congruence; reflexivity). congruence.
  - unfold finish_encoding in H. destruct (ec_allowed e) eqn:AL; cbn [negb] in H.
    + unfold set_coder in H. congruence.
    + assert (ec_allowed e = true) by (replace e with (set_coder e (Binary w') true) by congruence; reflexivity). congruence.
Qed.

Lemma do_ecalls_clean : forall l e dict im w f, einv e dict im w f -> ready e dict im w -> Forall (call_fits dict) l ->
  exists w' a rs, do_ecalls e l = Some (set_coder e (Binary w') a, rs) /\
    einv (set_coder e (Binary w') a) dict im w' f /\ kept (ec_flags e) w w' /\ ready (set_coder e (Binary w') a) dict im w'.
Proof.
  induction l as [|c l IH]; intros e dict im w f E RY F; cbn [do_ecalls].
  - pose proof (ei_coder _ _ _ _ _ E) as CO. exists w, (ec_allowed e), [].
    assert (set_coder e (Binary w) (ec_allowed e) = e) as SE by (destruct e; cbn in *; subst; reflexivity).
    rewrite SE. split; [reflexivity|]. split; [exact E|]. split; [apply kept_refl|exact RY].
  - inversion F as [|? ? CF F']; subst. destruct (do_ecall_clean c e dict im w f E RY CF) as (w1 & a1 & r & o & -> & E1 & K1 & RY1).
    destruct (IH _ _ _ _ _ E1 RY1 F') as (w2 & a2 & rs & -> & E2 & K2 & RY2). exists w2, a2. eexists. split; [reflexivity|].
    split; [exact E2|]. split; [eapply kept_trans; eauto|exact RY2].
Qed.

Lemma chunk_same : forall e dict im w f w0 data, einv e dict im w f -> clean w im (zlen dict) ->
  einv (set_coder e (Binary w0) true) dict im w0 f -> clean w0 im (zlen dict) -> kept (ec_flags e) w w0 -> ec_allowed e = true ->
  forall e1 r o, encode_chunk e data = Some (e1, r, o) -> exists e2, encode_chunk (set_coder e (Binary w0) true) data = Some (e2, r, o).
Proof.
  intros e dict im w f w0 data E (c & EC & EW) E0 (c0 & EC0 & EW0) [K1 K2] AL e1 r o H.
  pose proof (wb_empty _ _ (ei_base _ _ _ _ _ E)) as (A1 & A2 & A3). pose proof (wb_empty _ _ (ei_base _ _ _ _ _ E0)) as (B1 & B2 & B3).
  unfold shape in K1. injection K1 as X1 X2 X3 X4 X5.
  assert (c0 = c) as -> by congruence.
  unfold encode_chunk in *. rewrite AL, (ei_coder _ _ _ _ _ E) in H.
  cbn [set_coder ec_allowed negb ec_coder coder_verify ec_flags ec_engine ec_look coder_checksum] in *.
  assert ((if fl_checksum (ec_flags e) then Binary (add_checksum w0 (compute_adler32 data)) else Binary w0) =
          (if fl_checksum (ec_flags e) then Binary (add_checksum w (compute_adler32 data)) else Binary w)) as SC.
  { destruct (fl_checksum (ec_flags e)) eqn:FC.
    - f_equal. rewrite EW, EW0. destruct w, w0; cbn in *; subst; reflexivity.
    - destruct (K2 eq_refl) as [K3 K4]. f_equal. rewrite EW, EW0. destruct w, w0; cbn in *; subst; reflexivity. }
  rewrite SC.
  destruct (engine_encode (ec_engine e) (ec_look e) data) as [[l|]|]; [| |discriminate].
  - destruct (coder_calls _ l) as [c1|]; [|discriminate]. destruct (coder_output c1) as [[c2 o2]|]; [|discriminate].
    injection H as <- <- <-. eexists. reflexivity.
  - injection H as <- <- <-. eexists. reflexivity.
Qed.

(** ** The window of a chunk *)

(** What a new encoder appends for a chunk after StartEncoding. *)
Definition piece (dict : list Z) (fl : flags) (look : bool) (data : list Z) : list Z :=
  match streaming_encoder dict fl look with
  | Some e => match start_encoding e with
              | Some (e1, _, _) => match encode_chunk e1 data with Some (_, _, o) => o | None => [] end
              | None => []
              end
  | None => []
  end.

Lemma piece_of : forall dict fl look e l e1 rs data e2 out, bytes_ok dict -> zlen dict <= int32_max -> fl_json fl = false ->
  streaming_encoder dict fl look = Some e -> Forall (call_fits dict) l -> do_ecalls e l = Some (e1, rs) ->
  chunk_fits dict data -> encode_chunk e1 data = Some (e2, true, out) -> out = piece dict fl look data.
Proof.
  intros dict fl look e l e1 rs data e2 out B L J SE F DC CF EC.
  destruct (streaming_encoder_ok dict fl look B L) as (en & EN & SE'). rewrite SE in SE'. injection SE' as ->.
  destruct (new_encoder_inv en dict fl look true EN L J) as (im & EI).
  assert (ready (new_encoder en fl look) dict im (new_writer (fl_interleaved fl))) as RY by (intros X; discriminate X).
  destruct (do_ecalls_clean _ _ _ _ _ _ EI RY F) as (w & a & rs' & DC' & EI' & K & RY'). rewrite DC in DC'. injection DC' as -> _.
  destruct a.
  2: { unfold encode_chunk in EC. cbn in EC. discriminate. }
  unfold piece. rewrite SE. destruct (start_encoding_ok _ dict im _ _ EI) as (c & Ec & -> & EI1).
  set (e0 := new_encoder en fl look) in *. set (w0 := inited (new_writer (fl_interleaved fl)) im (zlen dict) c) in *.
  assert (kept (ec_flags e0) w w0) as K'.
  { destruct K as [KA KB]. split; [rewrite KA; reflexivity|]. intros X. destruct (KB X) as [-> ->]. auto. }
  assert (set_coder e0 (Binary w0) true = set_coder (set_coder e0 (Binary w) true) (Binary w0) true) as SS by reflexivity.
  destruct (chunk_same (set_coder e0 (Binary w) true) dict im w _ w0 data EI' (RY' eq_refl)) with (e1 := e2) (r := true) (o := out) as (e3 & H).
  - rewrite <- SS. exact EI1.
  - apply clean_inited. exact Ec.
  - exact K'.
  - reflexivity.
  - exact EC.
  - rewrite SS, H. reflexivity.
Qed.

Lemma chunks_pieces : forall chunks dict fl look e l e1 rs out, bytes_ok dict -> zlen dict <= int32_max -> fl_json fl = false ->
  streaming_encoder dict fl look = Some e -> Forall (call_fits dict) l -> do_ecalls e l = Some (e1, rs) -> ec_allowed e1 = true ->
  Forall (chunk_fits dict) chunks ->
  exists e2, encode_chunks e1 chunks out = Some (e2, true, out ++ concat (map (piece dict fl look) chunks)) /\ ec_allowed e2 = true /\
    exists w, ec_coder e2 = Binary w.
Proof.
  induction chunks as [|x chunks IH]; intros dict fl look e l e1 rs out B L J SE F DC AL FC; cbn [encode_chunks map concat].
  - exists e1. rewrite app_nil_r. split; [reflexivity|]. split; [exact AL|].
    destruct (streaming_encoder_ok dict fl look B L) as (en & EN & SE'). rewrite SE in SE'. injection SE' as ->.
    destruct (new_encoder_inv en dict fl look true EN L J) as (im & EI).
    destruct (do_ecalls_ok _ _ _ _ _ _ EI F) as (w & a & rs' & DC' & EI' & K). rewrite DC in DC'. injection DC' as -> _. exists w. reflexivity.
  - inversion FC as [|? ? CF FC']; subst.
    assert (exists e2 o, encode_chunk e1 x = Some (e2, true, o) /\ ec_allowed e2 = true) as (e2 & o & EC & AL2).
    { destruct (streaming_encoder_ok dict fl look B L) as (en & EN & SE'). rewrite SE in SE'. injection SE' as ->.
      destruct (new_encoder_inv en dict fl look true EN L J) as (im & EI).
      destruct (do_ecalls_ok _ _ _ _ _ _ EI F) as (w & a & rs' & DC' & EI' & K). rewrite DC in DC'. injection DC' as -> _.
      cbn [set_coder ec_allowed] in AL. subst a. destruct CF as (CB & CL & CL2).
      destruct (encode_chunk_ok _ dict im w _ x [] EI' eq_refl CB CL CL2) as (w' & o & EC & _).
      do 2 eexists. split; [exact EC|reflexivity]. }
    rewrite (piece_of dict fl look e l e1 rs x e2 o B L J SE F DC CF EC) in EC. rewrite EC.
    assert (exists rs2, do_ecalls e (l ++ [EChunk x]) = Some (e2, rs2)) as (rs2 & DC2).
    { clear - DC EC. revert e rs DC. induction l as [|y l IHl]; intros e rs DC; cbn [do_ecalls app] in *.
      - injection DC as -> <-. cbn [do_ecall]. rewrite EC. eexists. reflexivity.
      - destruct (do_ecall e y) as [[[e' r'] o']|]; [|discriminate]. destruct (do_ecalls e' l) as [[e'' rs'']|] eqn:DD; [|discriminate].
        injection DC as -> <-. destruct (IHl _ _ DD) as (rs2 & ->). eexists. reflexivity. }
    assert (Forall (call_fits dict) (l ++ [EChunk x])) as F2 by (apply Forall_app; split; [exact F|constructor; [exact CF|constructor]]).
    destruct (IH dict fl look e _ e2 rs2 (out ++ piece dict fl look x) B L J SE F2 DC2 AL2 FC') as (e3 & -> & AL3 & W).
    exists e3. rewrite <- app_assoc. split; [reflexivity|]. split; assumption.
Qed.

Lemma stream_pieces : forall dict fl look e l e1 rs chunks, bytes_ok dict -> zlen dict <= int32_max -> fl_json fl = false ->
  streaming_encoder dict fl look = Some e -> Forall (call_fits dict) l -> do_ecalls e l = Some (e1, rs) ->
  Forall (chunk_fits dict) chunks ->
  exists e2, encode_stream e1 chunks = Some (e2, true, write_header fl ++ concat (map (piece dict fl look) chunks)).
Proof.
  intros dict fl look e l e1 rs chunks B L J SE F DC FC. unfold encode_stream.
  assert (exists e2, start_encoding e1 = Some (e2, true, write_header fl) /\ ec_allowed e2 = true) as (e2 & ST & AL).
  { destruct (streaming_encoder_ok dict fl look B L) as (en & EN & SE'). rewrite SE in SE'. injection SE' as ->.
    destruct (new_encoder_inv en dict fl look true EN L J) as (im & EI).
    destruct (do_ecalls_ok _ _ _ _ _ _ EI F) as (w & a & rs' & DC' & EI' & K). rewrite DC in DC'. injection DC' as -> _.
    destruct (start_encoding_ok _ dict im _ _ EI') as (c & Ec & -> & EI1). eexists. split; reflexivity. }
  rewrite ST.
  assert (exists rs2, do_ecalls e (l ++ [EStart]) = Some (e2, rs2)) as (rs2 & DC2).
  { clear - DC ST. revert e rs DC. induction l as [|y l IHl]; intros e rs DC; cbn [do_ecalls app] in *.
    - injection DC as -> <-. cbn [do_ecall]. rewrite ST. eexists. reflexivity.
    - destruct (do_ecall e y) as [[[e' r'] o']|]; [|discriminate]. destruct (do_ecalls e' l) as [[e'' rs'']|] eqn:DD; [|discriminate].
      injection DC as -> <-. destruct (IHl _ _ DD) as (rs3 & ->). eexists. reflexivity. }
  assert (Forall (call_fits dict) (l ++ [EStart])) as F2 by (apply Forall_app; split; [exact F|constructor; [exact Logic.I|constructor]]).
  destruct (chunks_pieces chunks dict fl look e _ e2 rs2 (write_header fl) B L J SE F2 DC2 AL FC) as (e3 & -> & AL3 & (w & CO)).
  unfold finish_encoding. rewrite AL3, CO. cbn [negb coder_finish]. rewrite app_nil_r. eexists. reflexivity.
Qed.
