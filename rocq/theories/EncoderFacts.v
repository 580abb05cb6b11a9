(** The encoder (vcencoder.cc) with the binary writer. *)

From Verif Require Import Base ListFacts Spec SpecEncode SpecInstr CopyFacts Varint AddrCache CodeTable InstructionMap CodeTableFacts Adler AdlerFacts BodyFacts InstructionMapFacts
  EncodeTable WriterFacts RollingHash BlockHash BlockHashFacts Engine EngineFacts JsonWriter Encoder Sound.
From Coq Require Import ZifyBool ZifyNat.

(** ** Writers before Init *)

(** A writer between windows: constructed with a validated table, all sections
    empty; its map is made already or can be made. *)
Record wbase (w : writer) (im : instruction_map) : Prop := {
  wb_table : table_ok (wr_table w);
  wb_mode : wr_max_mode w = 1 + wr_near w + wr_same w;
  wb_mode255 : wr_max_mode w <= 255;
  wb_near : 0 <= wr_near w <= 253;
  wb_same : 0 <= wr_same w;
  wb_valid : validate (wr_table w) (wr_max_mode w) = Some true;
  wb_make : make_map (wr_table w) (wr_max_mode w) = Some im;
  wb_map : wr_map w = None \/ wr_map w = Some im;
  wb_empty : wr_inst w = [] /\ wr_data w = [] /\ wr_addr w = []
}.

Definition shape (w : writer) := (wr_il w, wr_table w, wr_max_mode w, wr_near w, wr_same w).

(** What Init leaves. *)
Definition inited (w : writer) (im : instruction_map) (n : Z) (c : cache) : writer := set_state w c n 0 (Some im) (-1).

Lemma wbase_init : forall w im dict, wbase w im -> zlen dict <= int32_max ->
  exists c, cache_init (wr_near w) (wr_same w) = Some c /\
    writer_init w (zlen dict) = Some (inited w im (zlen dict) c, true) /\
    winv (inited w im (zlen dict) c) im dict [] [] [] [] /\ total (inited w im (zlen dict) c) = 0.
Proof.
  intros w im dict W L. destruct W as [T M M2 N S V MK MP (E1 & E2 & E3)].
  set (w0 := set_state w (wr_cache w) (wr_dict_size w) (wr_len w) (Some im) (wr_last w)).
  assert (wcfg w0 im) as WC by (constructor; auto; apply make_map_ok; exact MK).
  destruct (writer_init_ok w0 im dict WC E1 E2 E3 L) as (w' & EI & W' & _ & _ & _ & TT).
  unfold writer_init in EI. cbn [w0 set_state wr_map wr_near wr_same] in EI.
  destruct (cache_init (wr_near w) (wr_same w)) as [c|] eqn:EC; [|discriminate]. injection EI as <-.
  exists c. split; [reflexivity|]. split.
  - unfold writer_init. rewrite EC. assert (match wr_map w with Some m => Some m | None => make_map (wr_table w) (wr_max_mode w) end = Some im) as ->
      by (destruct MP as [-> | ->]; auto). reflexivity.
  - split; [exact W'|exact TT].
Qed.

Lemma winv_base : forall w im dict, winv w im dict [] [] [] [] -> make_map (wr_table w) (wr_max_mode w) = Some im -> wbase w im.
Proof.
  intros w im dict W MK. pose proof W as [[T M M2 N S V MP MO] WM WCA WS WD WL WLA _ WN].
  constructor; auto. unfold wsec, items_sec in WS. destruct (wr_il w); injection WS as -> -> ->; auto.
Qed.

Lemma default_make : exists im, make_map default_table default_last_mode = Some im.
Proof.
  destruct (make_map default_table default_last_mode) as [im|] eqn:E; [eauto|].
  assert (match make_map default_table default_last_mode with Some _ => true | None => false end = true) as X by (vm_compute; reflexivity).
  rewrite E in X. discriminate.
Qed.

Lemma new_writer_base : forall il, exists im, wbase (new_writer il) im.
Proof.
  intros il. destruct default_make as [im E]. exists im.
  constructor; cbn [new_writer new_custom_writer wr_table wr_max_mode wr_near wr_same wr_map wr_inst wr_data wr_addr]; auto.
  - apply default_table_ok.
  - vm_compute; discriminate.
  - unfold kDefaultNearCacheSize; lia.
  - unfold kDefaultSameCacheSize; lia.
Qed.

Lemma shape_cks : forall w w', cks_of w' = cks_of w -> shape w' = shape w /\ wr_has_cks w' = wr_has_cks w /\ wr_cks w' = wr_cks w /\ wr_map w' = wr_map w.
Proof. intros w w' E. unfold cks_of, cfg_of, shape in *. injection E as F1 F2 F3 F4 F5 F6 F7 F8 F9. repeat split; congruence. Qed.

(** ** The streaming encoder *)

(** The format [f] describes what an encoder with writer [w] and flags [fl] writes. *)
Definition writes (w : writer) (fl : flags) (f : format) : Prop :=
  same_table (entry (wr_table w)) (f_table f) /\ f_near f = wr_near w /\ f_same f = wr_same w /\
  (wr_il w = true -> f_ext f = true) /\ (fl_checksum fl = true -> f_ext f = true) /\
  (wr_has_cks w = true -> fl_checksum fl = true).

(** Between calls. *)
Record einv (e : encoder) (dict : list Z) (im : instruction_map) (w : writer) (f : format) : Prop := {
  ei_engine : engine_ok (ec_engine e) dict;
  ei_size : zlen dict <= int32_max;
  ei_coder : ec_coder e = Binary w;
  ei_base : wbase w im;
  ei_writes : writes w (ec_flags e) f;
  ei_ready : ec_allowed e = true -> winv w im dict [] [] [] [] /\ total w = 0
}.

Lemma writes_shape : forall w w' fl f, writes w fl f -> shape w' = shape w -> (wr_has_cks w' = true -> fl_checksum fl = true) -> writes w' fl f.
Proof.
  intros w w' fl f (A & B & C & D & E & F) S G. unfold shape in S. injection S as S1 S2 S3 S4 S5.
  unfold writes. rewrite S1, S2, S4, S5. auto 10.
Qed.
Lemma wbase_shape : forall w w' im, wbase w im -> shape w' = shape w -> (wr_map w' = None \/ wr_map w' = Some im) ->
  wr_inst w' = [] /\ wr_data w' = [] /\ wr_addr w' = [] -> wbase w' im.
Proof.
  intros w w' im [T M M2 N S V MK MP E] SH MP' E'. unfold shape in SH. injection SH as S1 S2 S3 S4 S5.
  constructor; rewrite ?S2, ?S3, ?S4, ?S5; auto.
Qed.

Lemma start_encoding_ok : forall e dict im w f, einv e dict im w f ->
  exists c, cache_init (wr_near w) (wr_same w) = Some c /\
    start_encoding e = Some (set_coder e (Binary (inited w im (zlen dict) c)) true, true, write_header (ec_flags e)) /\
    einv (set_coder e (Binary (inited w im (zlen dict) c)) true) dict im (inited w im (zlen dict) c) f.
Proof.
  intros e dict im w f [EN SZ CO BA WR RD]. destruct (wbase_init w im dict BA SZ) as (c & EC & EI & WI & TT).
  exists c. split; [exact EC|]. unfold start_encoding. rewrite CO. assert (en_dict (ec_engine e) = dict) as -> by apply EN.
  cbn [coder_init]. rewrite EI. cbn [coder_verify negb coder_header]. split; [reflexivity|].
  constructor; cbn [set_coder ec_engine ec_coder ec_flags ec_allowed]; auto.
  apply (wbase_shape w); auto. apply BA.
Qed.

(** What a call does not change. *)
Definition kept (fl : flags) (w w' : writer) : Prop :=
  shape w' = shape w /\ (fl_checksum fl = false -> wr_has_cks w' = wr_has_cks w /\ wr_cks w' = wr_cks w).
Lemma kept_refl : forall fl w, kept fl w w.
Proof. split; auto. Qed.
Lemma kept_trans : forall fl w1 w2 w3, kept fl w1 w2 -> kept fl w2 w3 -> kept fl w1 w3.
Proof.
  intros fl w1 w2 w3 [A B] [C D]. split; [congruence|]. intros F. destruct (B F), (D F). split; congruence.
Qed.

Lemma encode_chunk_ok : forall e dict im w f data prev, einv e dict im w f -> ec_allowed e = true -> bytes_ok data ->
  zlen dict + zlen data <= int32_max -> zlen data <= 2147483594 ->
  exists w' out, encode_chunk e data = Some (set_coder e (Binary w') true, true, out) /\
    einv (set_coder e (Binary w') true) dict im w' f /\ kept (ec_flags e) w w' /\ bytes_ok out /\
    (data = [] /\ out = [] \/
     data <> [] /\ Spec.window strict f dict prev out data /\ zlen out <= zlen data + 53 /\
     hd 0 out = (if fl_checksum (ec_flags e) then 5 else 1) /\
     (forall l, engine_encode (ec_engine e) (ec_look e) data = Some (Some l) -> zlen out <= costs l + 47)).
Proof.
  intros e dict im w f data prev [EN SZ CO BA WR RD] AL B L L2. destruct (RD AL) as [WI TT].
  unfold encode_chunk. rewrite AL, CO. cbn [negb coder_verify].
  set (w1 := if fl_checksum (ec_flags e) then add_checksum w (compute_adler32 data) else w).
  assert ((if fl_checksum (ec_flags e) then coder_checksum (Binary w) (compute_adler32 data) else Binary w) = Binary w1) as ->
    by (unfold w1; destruct (fl_checksum (ec_flags e)); reflexivity).
  assert (winv w1 im dict [] [] [] [] /\ total w1 = 0 /\ shape w1 = shape w /\ wr_map w1 = wr_map w /\
          wr_has_cks w1 = fl_checksum (ec_flags e) /\ (wr_has_cks w1 = true -> wr_cks w1 = adler_sum 0 data) /\
          (wr_inst w1 = [] /\ wr_data w1 = [] /\ wr_addr w1 = []) /\ kept (ec_flags e) w w1) as (WI1 & TT1 & SH1 & MP1 & HC1 & CK1 & EM1 & KE1).
  { pose proof (wb_empty _ _ BA) as EM. unfold w1. destruct (fl_checksum (ec_flags e)) eqn:FC.
    - split; [|split; [exact TT|split; [reflexivity|split; [reflexivity|split; [reflexivity|split; [|split; [exact EM|split; [reflexivity|congruence]]]]]]]].
      + destruct WI as [[] ? ? ? ? ? ? ? ?]. constructor; auto. constructor; auto.
      + intros _. cbn. apply compute_adler32_ok. exact B.
    - split; [exact WI|]. split; [exact TT|]. split; [reflexivity|]. split; [reflexivity|].
      assert (wr_has_cks w = false) as HF.
      { destruct WR as (_ & _ & _ & _ & _ & X). destruct (wr_has_cks w); [rewrite X in FC by reflexivity; discriminate|reflexivity]. }
      split; [exact HF|]. split; [intros X; congruence|]. split; [exact EM|apply kept_refl]. }
  clearbody w1. destruct (list_eq_dec Z.eq_dec data []) as [-> |NE].
  - unfold engine_encode. pose proof EN as (_ & _ & dh & dhs & EH & _). rewrite EH. rewrite zlen_nil. cbn [Z.eqb].
    exists w1, []. split; [reflexivity|]. split; [|split; [exact KE1|split; [constructor|left; auto]]].
    constructor; cbn [set_coder ec_engine ec_coder ec_flags ec_allowed]; auto.
    + apply (wbase_shape w); auto. rewrite MP1. apply BA.
    + apply (writes_shape w); auto. congruence.
  - destruct (engine_encode_ok _ dict (ec_look e) data EN B NE L) as (l & EGE & GP). rewrite EGE.
    cbn [coder_calls].
    destruct (writer_calls_ok l w1 im dict [] [] [] [] data WI1 (genuine_plan_good _ _ _ _ _ _ GP B) (genuine_plan_execute _ _ _ _ _ _ GP) L)
      as (w2 & items & hist & -> & WI2 & TO2 & CK2).
    pose proof (genuine_plan_cost _ _ _ _ _ _ GP) as CO2. rewrite zlen_nil in CO2.
    destruct (shape_cks _ _ CK2) as (SH2 & HC2 & CC2 & MP2).
    assert (writes w1 (ec_flags e) f) as WR1 by (apply (writes_shape w); auto; congruence).
    set (f' := {| f_ext := f_ext f; f_table := entry (wr_table w2); f_near := f_near f; f_same := f_same f; f_target := f_target f |}).
    assert (shape w2 = shape w) as SH3 by congruence. unfold shape in SH3. injection SH3 as S1 S2 S3 S4 S5.
    assert (same_format f' f) as SF.
    { unfold same_format, f'; cbn. destruct WR as (A & _). rewrite S2. auto. }
    destruct (writer_output_ok w2 im dict l items hist data f' prev WI2) as (w3 & out & EO & WNR & BO & LO & HO & WI3 & CK3 & TT3); auto.
    { unfold fits, f'; cbn. destruct WR as (A & A2 & A3 & A4 & A5 & A6). rewrite S4, S5, S1, HC2, HC1. auto. }
    { rewrite HC2, CC2. exact CK1. } { lia. }
    pose proof (window_reads_window _ _ _ _ _ _ WNR) as WN.
    cbn [coder_output]. rewrite EO. exists w3, out. split; [reflexivity|].
    destruct (shape_cks _ _ CK3) as (SH4 & HC4 & CC4 & MP4).
    split; [|split; [apply (kept_trans _ _ w1); [exact KE1|split; [congruence|intros _; split; congruence]]|split; [exact BO|right; split; [exact NE|split; [exact (window_ext _ _ _ _ _ _ _ SF WN)|split; [lia|split; [rewrite HO, HC2, HC1; reflexivity|intros l' EL; injection EL as <-; lia]]]]]]].
    constructor; cbn [set_coder ec_engine ec_coder ec_flags ec_allowed]; auto.
    + apply (winv_base _ _ dict WI3). unfold shape in SH4. injection SH4 as _ -> -> _ _. rewrite S2, S3. apply BA.
    + apply (writes_shape w1); auto; congruence.
Qed.

(** ** Streams *)

Definition chunk_fits (dict c : list Z) : Prop :=
  bytes_ok c /\ zlen dict + zlen c <= int32_max /\ zlen c <= 2147483594.

Lemma encode_chunks_ok : forall chunks e dict im w f (ok : list Z -> list Z -> Prop) prev out, einv e dict im w f -> ec_allowed e = true ->
  Forall (chunk_fits dict) chunks ->
  (forall pre c post, chunks = pre ++ c :: post -> c <> [] -> ok (prev ++ concat pre) c) ->
  exists w' ws, encode_chunks e chunks out = Some (set_coder e (Binary w') true, true, out ++ ws) /\
    einv (set_coder e (Binary w') true) dict im w' f /\ bytes_ok ws /\
    windows strict strict f dict ok prev ws (prev ++ concat chunks) /\
    zlen ws <= zlen (concat chunks) + 53 * zlen chunks.
Proof.
  induction chunks as [|c chunks IH]; intros e dict im w f ok prev out E AL F OK; cbn [encode_chunks].
  - exists w, []. assert (set_coder e (Binary w) true = e) as -> 
      by (pose proof (ei_coder _ _ _ _ _ E) as CO; destruct e; cbn in *; subst; reflexivity).
    rewrite !app_nil_r. split; [reflexivity|]. split; [exact E|]. split; [constructor|]. cbn [concat] in *. rewrite ?app_nil_r. split; [constructor|].
    rewrite !zlen_nil. lia.
  - inversion F as [|? ? (B & L & L2) F']; subst.
    destruct (encode_chunk_ok e dict im w f c prev E AL B L L2) as (w1 & o1 & -> & E1 & _ & BO & C).
    destruct (IH (set_coder e (Binary w1) true) dict im w1 f ok (prev ++ c) (out ++ o1) E1 eq_refl F') as (w2 & ws & -> & E2 & BW & WS & LW).
    { intros pre c' post EQ NE. rewrite <- app_assoc. change (c ++ concat pre) with (concat (c :: pre)). apply (OK (c :: pre) c' post); [rewrite EQ; reflexivity|exact NE]. }
    exists w2, (o1 ++ ws). split; [rewrite <- app_assoc; reflexivity|]. split; [exact E2|]. split; [apply bytes_ok_app; auto|].
    cbn [concat]. rewrite !zlen_app, zlen_cons. rewrite <- app_assoc in WS. destruct C as [[-> ->]|(NE & WN & LN & _)].
    + cbn [app] in *. rewrite app_nil_r in WS. rewrite zlen_nil. split; [exact WS|]. lia.
    + split; [|lia]. apply ws_cons with (T := c); [destruct ws; exact WN| |exact WS].
      specialize (OK [] c chunks eq_refl NE). cbn [concat] in OK. rewrite app_nil_r in OK. exact OK.
Qed.

Lemma write_header_bytes : forall fl, bytes_ok (write_header fl) /\ zlen (write_header fl) = 5.
Proof. intros fl. unfold write_header. destruct (_ || _); split; try reflexivity; repeat constructor; unfold byte_ok; lia. Qed.

Lemma encode_stream_ok : forall e dict im w f (ok : list Z -> list Z -> Prop) chunks, einv e dict im w f -> 
  Forall (chunk_fits dict) chunks ->
  (forall pre c post, chunks = pre ++ c :: post -> c <> [] -> ok (concat pre) c) ->
  exists w' ws, encode_stream e chunks = Some (set_coder e (Binary w') false, true, write_header (ec_flags e) ++ ws) /\
    einv (set_coder e (Binary w') false) dict im w' f /\ bytes_ok ws /\
    windows strict strict f dict ok [] ws (concat chunks) /\
    zlen ws <= zlen (concat chunks) + 53 * zlen chunks.
Proof.
  intros e dict im w f ok chunks E F OK. unfold encode_stream.
  destruct (start_encoding_ok e dict im w f E) as (c & _ & -> & E1).
  destruct (encode_chunks_ok chunks _ dict im _ f ok [] (write_header (ec_flags e)) E1 eq_refl F) as (w2 & ws & -> & E2 & BW & WS & LW).
  { exact OK. }
  exists w2, ws. unfold finish_encoding. cbn [set_coder ec_allowed negb ec_coder coder_finish]. rewrite app_nil_r. split; [reflexivity|].
  split; [|split; [exact BW|split; [exact WS|exact LW]]].
  destruct E2 as [EN SZ CO BA WR RD]. constructor; cbn [set_coder ec_engine ec_coder ec_flags ec_allowed] in *; auto; discriminate.
Qed.

(** ** Encoders with the default code table *)

(** The format of the files they write. *)
Definition version_of (fl : flags) : Z := if fl_interleaved fl || fl_checksum fl then 83 else 0.

Lemma header_of : forall fl, fl_json fl = false -> write_header fl = file_header (version_of fl) 0.
Proof. intros fl J. unfold write_header, version_of. rewrite J, orb_false_r. destruct (_ || _); reflexivity. Qed.

Lemma new_encoder_inv : forall en dict fl look allow, engine_ok en dict -> zlen dict <= int32_max -> fl_json fl = false ->
  exists im, einv (new_encoder en fl look) dict im (new_writer (fl_interleaved fl)) (file_format (version_of fl) rfc_table 4 3 allow).
Proof.
  intros en dict fl look allow EN L J. destruct (new_writer_base (fl_interleaved fl)) as [im BA]. exists im.
  constructor; cbn [new_encoder new_custom_encoder ec_engine ec_coder ec_flags ec_allowed]; auto.
  - unfold create_writer. rewrite J. reflexivity.
  - unfold writes. cbn [file_format f_table f_near f_same f_ext new_writer new_custom_writer wr_table wr_near wr_same wr_il wr_has_cks].
    split; [apply default_same|]. split; [reflexivity|]. split; [reflexivity|]. unfold version_of.
    split; [intros ->; reflexivity|]. split; [intros ->; rewrite orb_true_r; reflexivity|discriminate].
  - discriminate.
Qed.

Lemma stream_file : forall e dict im w fl allow (ok : list Z -> list Z -> Prop) chunks, einv e dict im w (file_format (version_of fl) rfc_table 4 3 allow) ->
  ec_flags e = fl -> fl_json fl = false -> Forall (chunk_fits dict) chunks ->
  (forall pre c post, chunks = pre ++ c :: post -> c <> [] -> ok (concat pre) c) ->
  exists w' delta, encode_stream e chunks = Some (set_coder e (Binary w') false, true, delta) /\
    einv (set_coder e (Binary w') false) dict im w' (file_format (version_of fl) rfc_table 4 3 allow) /\ bytes_ok delta /\
    vcd_file strict strict allow ok dict delta (concat chunks) /\ no_code_table delta /\
    zlen delta <= zlen (concat chunks) + 53 * zlen chunks + 5.
Proof.
  intros e dict im w fl allow ok chunks E FL J F OK.
  destruct (encode_stream_ok e dict im w _ ok chunks E F OK) as (w' & ws & -> & E' & BW & WS & LW).
  exists w', (write_header (ec_flags e) ++ ws). destruct (write_header_bytes (ec_flags e)) as [HB HL].
  split; [reflexivity|]. split; [exact E'|]. split; [apply bytes_ok_app; auto|].
  rewrite FL, header_of in * by exact J. split; [|split].
  - assert (head strict strict (file_header (version_of fl) 0) (version_of fl) rfc_table 4 3) as HD.
    { constructor; auto; [|unfold byte_ok; lia]. unfold version_of. destruct (_ || _); auto. }
    apply file_intro with (version := version_of fl) (tbl := rfc_table) (ns := 4) (ss := 3); auto.
    + destruct ws; exact HD.
    + right. lia.
  - intros v ind tl EQ. injection EQ as _ <- _. reflexivity.
  - rewrite zlen_app, HL. lia.
Qed.

(** ** VCDiffEncoder *)

Lemma encode_first : forall dict fl look, bytes_ok dict -> zlen dict <= int32_max ->
  exists en, engine_ok en dict /\ forall target,
    encode (set_target_matching (set_format_flags (new_vcdiff_encoder dict) fl) look) target =
    match encode_stream (new_encoder en fl look) [target] with
    | None => None
    | Some (e', r, out) => Some ({| ve_engine := en; ve_encoder := Some e'; ve_flags := fl; ve_look := look |}, r, out)
    end.
Proof.
  intros dict fl look B L. destruct (engine_init_ok dict B L) as (en & EI & EN). exists en. split; [exact EN|].
  intros target. unfold encode. cbn [set_target_matching set_format_flags new_vcdiff_encoder ve_engine ve_encoder ve_flags ve_look].
  rewrite EI. reflexivity.
Qed.

(** ** Histories of calls *)

Definition call_fits (dict : list Z) (c : ecall) : Prop :=
  match c with EChunk data => chunk_fits dict data | _ => True end.

Lemma do_ecall_ok : forall c e dict im w f, einv e dict im w f -> call_fits dict c ->
  exists w' a r o, do_ecall e c = Some (set_coder e (Binary w') a, r, o) /\
    einv (set_coder e (Binary w') a) dict im w' f /\ kept (ec_flags e) w w'.
Proof.
  intros c e dict im w f E CF. pose proof (ei_coder _ _ _ _ _ E) as CO.
  assert (set_coder e (Binary w) (ec_allowed e) = e) as SE by (destruct e; cbn in *; subst; reflexivity).
  destruct c as [|data|]; cbn [do_ecall call_fits] in *.
  - destruct (start_encoding_ok e dict im w f E) as (c & _ & -> & E1). exists (inited w im (zlen dict) c). do 3 eexists. split; [reflexivity|].
    split; [exact E1|]. split; [reflexivity|]. auto.
  - destruct (ec_allowed e) eqn:AL.
    + destruct CF as (B & L & L2). destruct (encode_chunk_ok e dict im w f data [] E AL B L L2) as (w1 & o1 & -> & E1 & K & _).
      exists w1. do 3 eexists. split; [reflexivity|]. auto.
    + unfold encode_chunk. rewrite AL. cbn [negb]. exists w, false, false, []. rewrite SE. split; [reflexivity|]. split; [exact E|apply kept_refl].
  - unfold finish_encoding. destruct (ec_allowed e) eqn:AL; cbn [negb].
    + rewrite CO. cbn [coder_finish]. exists w, false, true, []. split; [reflexivity|]. split; [|apply kept_refl].
      destruct E as [EN SZ CO' BA WR RD]. constructor; cbn [set_coder ec_engine ec_coder ec_flags ec_allowed] in *; auto; discriminate.
    + exists w, false, false, []. rewrite SE. split; [reflexivity|]. split; [exact E|apply kept_refl].
Qed.

Lemma do_ecalls_ok : forall l e dict im w f, einv e dict im w f -> Forall (call_fits dict) l ->
  exists w' a rs, do_ecalls e l = Some (set_coder e (Binary w') a, rs) /\
    einv (set_coder e (Binary w') a) dict im w' f /\ kept (ec_flags e) w w'.
Proof.
  induction l as [|c l IH]; intros e dict im w f E F; cbn [do_ecalls].
  - pose proof (ei_coder _ _ _ _ _ E) as CO. exists w, (ec_allowed e), []. 
    assert (set_coder e (Binary w) (ec_allowed e) = e) as SE by (destruct e; cbn in *; subst; reflexivity).
    rewrite SE. split; [reflexivity|]. split; [exact E|apply kept_refl].
  - inversion F as [|? ? CF F']; subst. destruct (do_ecall_ok c e dict im w f E CF) as (w1 & a1 & r & o & -> & E1 & K1).
    destruct (IH _ _ _ _ _ E1 F') as (w2 & a2 & rs & -> & E2 & K2). exists w2, a2. eexists. split; [reflexivity|].
    split; [exact E2|]. eapply kept_trans; eauto.
Qed.

(** The output of a stream does not depend on what was encoded before. *)
Lemma stream_same : forall e dict im w f w0 a0 chunks, einv e dict im w f ->
  einv (set_coder e (Binary w0) a0) dict im w0 f -> kept (ec_flags e) w w0 ->
  Forall (chunk_fits dict) chunks ->
  exists r o e1 e2, encode_stream e chunks = Some (e1, r, o) /\ encode_stream (set_coder e (Binary w0) a0) chunks = Some (e2, r, o).
Proof.
  intros e dict im w f w0 a0 chunks E E0 [K1 K2] F.
  destruct (encode_stream_ok e dict im w f (fun _ _ => True) chunks E F) as (w1 & ws & H1 & _); [auto|].
  destruct (encode_stream_ok _ dict im w0 f (fun _ _ => True) chunks E0 F) as (w2 & ws2 & H2 & _); [auto|].
  cbn [set_coder ec_flags] in H2. rewrite H1, H2. exists true, (write_header (ec_flags e) ++ ws). do 2 eexists. split; [reflexivity|].
  do 2 f_equal. unfold encode_stream in H1, H2.
  destruct (start_encoding_ok _ _ _ _ _ E) as (c & C1 & S1 & E1). destruct (start_encoding_ok _ _ _ _ _ E0) as (c0 & C2 & S2 & E2).
  rewrite S1 in H1. rewrite S2 in H2. cbn [set_coder ec_flags ec_engine ec_look] in H2, E2.
  assert (c0 = c) as -> by (unfold shape in K1; injection K1 as _ _ _ X1 X2; congruence).
  pose proof (wb_empty _ _ (ei_base _ _ _ _ _ E)) as (A1 & A2 & A3). pose proof (wb_empty _ _ (ei_base _ _ _ _ _ E0)) as (B1 & B2 & B3).
  assert (forall x, add_checksum (inited w im (zlen dict) c) x = add_checksum (inited w0 im (zlen dict) c) x) as SC.
  { intros x. unfold shape in K1. injection K1 as X1 X2 X3 X4 X5. destruct w, w0; cbn in *; subst; reflexivity. }
  destruct (fl_checksum (ec_flags e)) eqn:FC.
  - destruct chunks as [|x chunks].
    + cbn [encode_chunks] in H1, H2. unfold finish_encoding in H1, H2. cbn [set_coder ec_allowed negb ec_coder coder_finish] in H1, H2. congruence.
    + cbn [encode_chunks] in H1, H2. unfold encode_chunk in H1, H2. cbn [set_coder ec_allowed negb ec_coder coder_verify ec_flags ec_engine ec_look coder_checksum] in H1, H2.
      rewrite FC in H1, H2. rewrite SC in H1.
      destruct (engine_encode (ec_engine e) (ec_look e) x) as [[l|]|]; [| |discriminate]; unfold set_coder in H1, H2; cbn [ec_engine ec_coder ec_flags ec_look ec_allowed] in H1, H2; [|congruence].
      destruct (coder_calls (Binary (add_checksum (inited w0 im (zlen dict) c) (compute_adler32 x))) l) as [c1|]; [|discriminate].
      destruct (coder_output c1) as [[c2 o]|]; [|discriminate]. congruence.
  - destruct (K2 eq_refl) as [K3 K4].
    assert (inited w0 im (zlen dict) c = inited w im (zlen dict) c) as EW.
    { unfold shape in K1. injection K1 as X1 X2 X3 X4 X5. destruct w, w0; cbn in *; subst; reflexivity. }
    rewrite EW in H2. unfold set_coder in H1, H2; cbn [ec_engine ec_coder ec_flags ec_look ec_allowed] in H1, H2. congruence.
Qed.

(** ** The constructor *)

Lemma streaming_encoder_ok : forall dict fl look, bytes_ok dict -> zlen dict <= int32_max ->
  exists en, engine_ok en dict /\ streaming_encoder dict fl look = Some (new_encoder en fl look).
Proof.
  intros dict fl look B L. destruct (engine_init_ok dict B L) as (en & EI & EN). exists en. split; [exact EN|].
  unfold streaming_encoder. rewrite EI. reflexivity.
Qed.

(** Chunks that fit together fit one by one. *)
Lemma chunks_fit : forall dict chunks, Forall bytes_ok chunks -> zlen dict + zlen (concat chunks) <= int32_max ->
  zlen (concat chunks) <= 2147483594 -> Forall (chunk_fits dict) chunks.
Proof.
  intros dict chunks F L L2. rewrite Forall_forall in *. intros c I. split; [apply F; exact I|].
  apply in_split in I as (a & b & ->). rewrite concat_app in *. cbn [concat] in *. rewrite !zlen_app in *.
  pose proof (zlen_nonneg _ (concat a)). pose proof (zlen_nonneg _ (concat b)). lia.
Qed.
Lemma chunks_within : forall mw mf chunks, Forall (fun c => zlen c <= mw) chunks -> zlen (concat chunks) <= mf ->
  forall pre c post, chunks = pre ++ c :: post -> c <> [] -> within mw mf (concat pre) c.
Proof.
  intros mw mf chunks F L pre c post -> _. rewrite Forall_forall in F. split; [apply F; apply in_or_app; right; left; reflexivity|].
  rewrite concat_app in L. cbn [concat] in L. rewrite !zlen_app in L. pose proof (zlen_nonneg _ (concat post)). lia.
Qed.
Lemma bytes_ok_concat : forall l, bytes_ok (concat l) -> Forall bytes_ok l.
Proof.
  induction l as [|x l IH]; intros H; constructor; cbn [concat] in H; apply bytes_ok_app in H as [H1 H2]; auto.
Qed.

(** A window says whether it has a checksum. *)
Lemma window_checksum : forall t f dict prev w T, Spec.window t f dict prev w T ->
  exists wh body H, w = wh ++ body /\ declares (f_ext f) wh H /\ h_ind H = hd 0 w /\
    h_checksum H = (if f_ext f && Z.testbit (hd 0 w) 2 then Some (adler_sum 0 T) else None).
Proof.
  intros t f dict prev w T W.
  destruct W as [ind sb seg bd dl bt di bnd nd bni ni bna na bcks items body hist T BI SG VD VT BDI DI VND VNI VNA CF LA DL IM].
  eexists ([ind] ++ sb ++ bd ++ bt ++ [di] ++ bnd ++ bni ++ bna ++ bcks), body,
    {| h_ind := ind; h_delta_len := dl; h_counted := zlen (bt ++ [di] ++ bnd ++ bni ++ bna ++ bcks); h_target_len := zlen T;
       h_data_len := nd; h_inst_len := ni; h_addr_len := na; h_checksum := if f_ext f && Z.testbit ind 2 then Some (adler_sum 0 T) else None |}.
  split; [rewrite <- !app_assoc; reflexivity|].
  split; [|cbn [h_ind h_checksum app hd]; split; reflexivity].
  eapply (declares_intro (f_ext f) ind sb bd dl bt (zlen T) di bnd nd bni ni bna na bcks); auto.
  - unfold segment_fields. destruct SG as [A B|b1 b2 len pos s A B V1 V2 _|b1 b2 len pos s A B _ V1 V2 _]; rewrite A, B; cbn [orb]; [reflexivity| |]; exists b1, len, b2, pos; auto.
  - unfold checksum_bytes, checksum_field in *. cbn [app hd]. destruct (f_ext f && Z.testbit ind 2); [eauto|auto].
Qed.
