(** C67, C68: the input that a decoder keeps between calls, and what that costs. *)

From Verif Require Import Base ListFacts Spec SpecEncode SpecInstr SpecParts SpecShort CodeTable EncodeTable CodeTableFacts JsonWriter Engine EngineFacts Encoder EncoderFacts Decoder Usable
  Stream Session Reuse Unique Files Chunked Count Kept Properties_Stream Properties_Decode Properties_Encode Properties_Layout Properties_Shortest.
From Coq Require Import ZifyBool ZifyNat.

(** ** C67

    [retained d]: the bytes in unparsed_bytes_ (and in that of a code table decoder
    inside), Kept.v. *)

(** After any calls that succeeded, what is retained is the end of the input. *)
Theorem C67_end_of_input : forall d dict chunks d' out,
  idle_plain d -> bytes_ok dict -> Forall bytes_ok chunks ->
  decode_chunks (start_decoding d dict) chunks [] = Some (d', true, out) ->
  exists used, concat chunks = used ++ retained d'.
Proof.
  intros d dict chunks d' out IP BD F DC. destruct (chunks_came d dict chunks d' out IP BD F DC) as (k & a & Ts & CM & DR & _).
  exact (came_kept _ _ _ _ CM _ _ DR).
Qed.
Print Assumptions C67_end_of_input.

(** Standard format without code table: exactly the input after the last complete
    window; all that was decoded has been output. *)
Theorem C67_standard : forall d dict chunks d' out ind W,
  idle_plain d -> bytes_ok dict -> Forall bytes_ok chunks ->
  concat chunks = file_header 0 ind ++ W -> Z.testbit ind 1 = false ->
  decode_chunks (start_decoding d dict) chunks [] = Some (d', true, out) ->
  exists ws Ts, W = ws ++ retained d' /\
    windows_parts (tol true) (tol true) (file_format 0 rfc_table 4 3 (target_allowed d)) dict (admits d) [] ws Ts /\ out = concat Ts.
Proof. exact kept_standard. Qed.
Print Assumptions C67_standard.

(** Before the header is complete: everything. *)
Theorem C67_header : forall d dict chunks d' out,
  idle_plain d -> bytes_ok dict -> Forall bytes_ok chunks -> zlen (concat chunks) < 5 ->
  decode_chunks (start_decoding d dict) chunks [] = Some (d', true, out) -> retained d' = concat chunks.
Proof. exact kept_header. Qed.
Print Assumptions C67_header.

Example C67_case : exists d',
  decode_chunks (start_decoding new_decoder []) [file_header 0 0; [1;0;0;7;1;0;1;1;0;97]; [2;1;0;0;9]] [] = Some (d', true, [97]) /\
  retained d' = [1;0;0;9].
Proof. eexists. vm_compute. auto. Qed.

(** ** C68 *)

(** vcdecoder.cc 905-925: a successful DecodeChunk ends with
    unparsed_bytes_.assign(...), which copies all that is retained.  [stored]: the
    number of bytes copied that way by these calls, up to the first that fails. *)
Fixpoint stored (d : dec) (chunks : list (list Z)) : Z :=
  match chunks with
  | [] => 0
  | x :: tl => match decode_chunk d x with CRet d' true _ => zlen (retained d') + stored d' tl | _ => 0 end
  end.

(** Never more than the size of the input, for each call. *)
Theorem C68_calls_times_size_partial : forall d dict chunks,
  idle_plain d -> bytes_ok dict -> Forall bytes_ok chunks ->
  stored (start_decoding d dict) chunks <= zlen chunks * zlen (concat chunks).
Proof.
  intros d dict chunks IP BD F.
  assert (forall l pre d1 o, Forall bytes_ok pre -> Forall bytes_ok l -> decode_chunks (start_decoding d dict) pre [] = Some (d1, true, o) ->
    stored d1 l <= zlen l * zlen (concat (pre ++ l))) as G.
  { induction l as [|x l IH]; intros pre d1 o FP FL DC; cbn [stored]; [rewrite zlen_nil; lia|]. inversion FL as [|? ? BX FL']; subst.
    pose proof (zlen_nonneg _ (concat (pre ++ x :: l))). pose proof (zlen_nonneg _ l). rewrite zlen_cons.
    destruct (decode_chunk d1 x) as [d2 [|] o2| |] eqn:E; try nia.
    assert (decode_chunks (start_decoding d dict) (pre ++ [x]) [] = Some (d2, true, o ++ o2)) as DC2.
    { rewrite decode_chunks_app, DC. cbn [decode_chunks]. rewrite E. reflexivity. }
    assert (Forall bytes_ok (pre ++ [x])) as FP2 by (apply Forall_app; auto).
    destruct (C67_end_of_input d dict (pre ++ [x]) d2 _ IP BD FP2 DC2) as (used & EQ).
    specialize (IH (pre ++ [x]) d2 _ FP2 FL' DC2). rewrite <- app_assoc in IH. cbn [app] in IH.
    assert (zlen (retained d2) <= zlen (concat (pre ++ x :: l))).
    { change (x :: l) with ([x] ++ l). rewrite app_assoc, concat_app, EQ, !zlen_app. pose proof (zlen_nonneg _ used). pose proof (zlen_nonneg _ (concat l)). lia. }
    nia. }
  exact (G chunks [] (start_decoding d dict) [] (Forall_nil _) F eq_refl).
Qed.
Print Assumptions C68_calls_times_size_partial.

Definition singles (l : list Z) : list (list Z) := map (fun b => [b]) l.
Lemma concat_singles : forall l, concat (singles l) = l.
Proof. induction l as [|b l IH]; [reflexivity|]. cbn. f_equal. exact IH. Qed.
Lemma singles_app : forall a b, singles (a ++ b) = singles a ++ singles b.
Proof. intros a b. apply map_app. Qed.
Lemma singles_ok : forall l, bytes_ok l -> Forall bytes_ok (singles l).
Proof. intros l B. unfold singles. apply Forall_map. unfold bytes_ok in B. eapply Forall_impl; [|exact B]. intros b H. repeat constructor; apply H. Qed.

Section OneWindow.
Variables (d : dec) (dict ws T : list Z).
Hypotheses (IP : idle_plain d) (BD : bytes_ok dict) (BW : bytes_ok ws) (NT : T <> [])
  (W : Spec.window strict (file_format 0 rfc_table 4 3 (target_allowed d)) dict [] ws T) (AD : admits d [] T)
  (SF : sizes_fit dict (file_header 0 0 ++ ws) T).
Let X := file_header 0 0 ++ ws.

Lemma one_head : head strict strict (file_header 0 0) 0 rfc_table 4 3.
Proof. apply head_default; [auto|unfold byte_ok; lia|reflexivity|reflexivity]. Qed.
Lemma one_bytes : bytes_ok X.
Proof. apply bytes_ok_app. split; [apply bytes_okb_ok; reflexivity|exact BW]. Qed.
Lemma one_bad : ~ bad_cache X.
Proof.
  apply no_code_table_bad. intros v ind tl E. unfold X, file_header in E. cbn [app] in E.
  assert (ind = 0) as -> by congruence. reflexivity.
Qed.
Lemma one_windows : windows strict strict (file_format 0 rfc_table 4 3 (target_allowed d)) dict (admits d) [] ws T.
Proof. rewrite <- (app_nil_r ws). eapply ws_cons; [exact W|exact AD|]. constructor. Qed.

Lemma one_file : vcd_file strict strict (target_allowed d) (within (max_window d) (max_file d)) dict X T.
Proof.
  apply (file_intro strict strict _ _ _ (file_header 0 0) 0 rfc_table 4 3); [|right; lia|exact one_windows].
  assert ((match ws with [] => strict | _ => strict end) = strict) as -> by (destruct ws; reflexivity). exact one_head.
Qed.
Lemma one_done : decode_stream d dict (singles X) = Some (true, T).
Proof.
  pose proof SF as (S1 & S2 & S3 & S4). eapply C05_decoder_complete with (t := strict); rewrite ?concat_singles; auto.
  - apply singles_ok. exact one_bytes.
  - exact one_bad.
  - exact one_file.
Qed.

Definition expected (pre rest : list Z) : Z := if zlen pre <? 5 then zlen pre else match rest with [] => 0 | _ => zlen pre - 5 end.
Lemma one_prefix : forall pre rest, X = pre ++ rest ->
  exists d1 o, decode_chunks (start_decoding d dict) (singles pre) [] = Some (d1, true, o) /\ zlen (retained d1) = expected pre rest.
Proof.
  intros pre rest EQ. pose proof one_bytes as BX. assert (bytes_ok pre) as BP by (rewrite EQ in BX; apply bytes_ok_app in BX; apply BX).
  destruct (C13_truncation strict d dict (file_header 0 0) 0 rfc_table 4 3 ws T (singles pre) rest IP BD eq_refl one_head) as (d1 & o & DC & _).
  { right; lia. } { exact one_windows. } { exact one_bytes. } { exact one_bad. } { exact SF. } { apply singles_ok; exact BP. }
  { rewrite concat_singles. exact EQ. }
  exists d1, o. split; [exact DC|]. unfold expected. destruct (Z.ltb_spec (zlen pre) 5) as [L5|L5].
  { rewrite (C67_header d dict (singles pre) d1 o IP BD (singles_ok _ BP)); rewrite ?concat_singles; auto. }
  assert (exists p, pre = file_header 0 0 ++ p /\ ws = p ++ rest) as (p & -> & EW).
  { unfold X in EQ. symmetry in EQ. apply app_eq_app in EQ as (l & [[E1 E2]|[E1 E2]]); [exists l; auto|].
    assert (l = []) as ->. { apply zlen_0_nil. assert (zlen (file_header 0 0) = zlen (pre ++ l)) as E by congruence. rewrite zlen_app in E. change (zlen (file_header 0 0)) with 5 in E. pose proof (zlen_nonneg _ l). lia. }
    rewrite app_nil_r in E1. cbn [app] in E2. exists []. rewrite app_nil_r. auto. }
  destruct (C67_standard d dict _ d1 o 0 p IP BD (singles_ok _ BP) ltac:(rewrite concat_singles; reflexivity) eq_refl DC) as (w1 & Ts & EP & WP & EO).
  rewrite zlen_app. change (zlen (file_header 0 0)) with 5.
  inversion WP as [prev E1 E2 E3|prev w T1 r Ts1 W1 K1 WP1 E1 E2 E3].
  - subst w1 Ts. cbn [app] in EP. subst p. destruct rest as [|b rest]; [|lia]. exfalso. rewrite app_nil_r in EW. rewrite <- EW in DC.
    pose proof one_done as DS. unfold decode_stream in DS. fold X in DC. rewrite DC in DS. injection DS as _ E. rewrite EO in E. cbn in E. congruence.
  - assert (same_format (file_format 0 rfc_table 4 3 (target_allowed d)) (file_format 0 rfc_table 4 3 (target_allowed d))) as SAME.
    { unfold same_format. cbn. repeat split; auto; lia. }
    rewrite EP, <- E2 in EW. rewrite <- !app_assoc in EW. rewrite <- (app_nil_r ws) in EW.
    destruct (window_inj _ _ _ _ _ _ _ _ _ _ _ _ SAME W W1 EW) as (_ & _ & NIL). symmetry in NIL. apply app_eq_nil in NIL as [_ NIL]. apply app_eq_nil in NIL as [-> ->].
    apply zlen_nil.
Qed.

Lemma one_stored : forall rest pre d1 o, X = pre ++ rest -> decode_chunks (start_decoding d dict) (singles pre) [] = Some (d1, true, o) ->
  rest <> [] -> 
  2 * stored d1 (singles rest) = zlen ws * (zlen ws - 1) + (if zlen pre <? 5 then 20 - zlen pre * (zlen pre + 1) else - ((zlen pre - 5) * (zlen pre - 4))).
Proof.
  assert (zlen X = 5 + zlen ws) as LX by (unfold X; rewrite zlen_app; reflexivity). pose proof (window_ne _ _ _ _ _ _ W) as WN.
  assert (0 < zlen ws) as LW by (destruct ws; [congruence|]; rewrite zlen_cons; pose proof (zlen_nonneg _ l); lia).
  induction rest as [|b rest IH]; intros pre d1 o EQ DC NE; [congruence|]. clear NE. cbn [singles map stored].
  assert (X = (pre ++ [b]) ++ rest) as EQ2 by (rewrite <- app_assoc; exact EQ).
  destruct (one_prefix _ _ EQ2) as (d2 & o2 & DC2 & KL). rewrite singles_app, decode_chunks_app, DC in DC2. cbn [singles map decode_chunks] in DC2.
  destruct (decode_chunk d1 [b]) as [d3 [|] o3| |] eqn:E; try discriminate DC2. injection DC2 as -> _.
  assert (decode_chunks (start_decoding d dict) (singles (pre ++ [b])) [] = Some (d2, true, o ++ o3)) as DC3.
  { rewrite singles_app, decode_chunks_app, DC. cbn [singles map decode_chunks]. rewrite E. reflexivity. }
  assert (zlen X = zlen pre + 1 + zlen rest) as LL by (rewrite EQ, zlen_app, zlen_cons; lia). pose proof (zlen_nonneg _ pre) as P0. pose proof (zlen_nonneg _ rest) as R0.
  rewrite KL. unfold expected. rewrite zlen_app, zlen_cons, zlen_nil.
  destruct rest as [|b2 rest].
  - cbn [singles map stored]. rewrite zlen_nil in LL.
    destruct (Z.ltb_spec (zlen pre + (1 + 0)) 5); destruct (Z.ltb_spec (zlen pre) 5); nia.
  - specialize (IH (pre ++ [b]) d2 _ EQ2 DC3 ltac:(discriminate)). rewrite zlen_app, zlen_cons, zlen_nil in IH. fold (singles (b2 :: rest)).
    destruct (Z.ltb_spec (zlen pre + (1 + 0)) 5); destruct (Z.ltb_spec (zlen pre) 5); try lia; try nia.
Qed.
End OneWindow.

(** A delta in the standard format with one window of n bytes that arrives byte by
    byte: n(n-1)/2 bytes are copied for the window and 10 for the header. *)
Theorem C68_one_window : forall d dict ws T,
  idle_plain d -> bytes_ok dict -> bytes_ok ws -> T <> [] ->
  Spec.window strict (file_format 0 rfc_table 4 3 (target_allowed d)) dict [] ws T -> admits d [] T ->
  sizes_fit dict (file_header 0 0 ++ ws) T ->
  decode_stream d dict (singles (file_header 0 0 ++ ws)) = Some (true, T) /\
  2 * stored (start_decoding d dict) (singles (file_header 0 0 ++ ws)) = zlen ws * (zlen ws - 1) + 20.
Proof.
  intros d dict ws T IP BD BW NT W AD SF. split.
  - apply one_done; assumption.
  - rewrite (one_stored d dict ws T IP BD BW NT W AD SF (file_header 0 0 ++ ws) [] _ [] eq_refl eq_refl); [|unfold file_header; discriminate].
    rewrite zlen_nil. cbn [Z.ltb]. change (0 <? 5) with true. cbv iota. lia.
Qed.
Print Assumptions C68_one_window.

(** So decoding is not linear: with default settings a delta that VCDiffEncoder makes of
    a target of n bytes has at most n + 58 bytes, and the decoder copies about n*n/2
    bytes if they arrive one by one. *)
Lemma plan_adds : forall T b l T', genuine_plan false [] T b l T' -> Forall (fun i => match i with Add _ => True | _ => False end) l.
Proof.
  intros T b l T' G. induction G as [T b|T x l T' ND G IH|T b a n T1 l T' N C X G IH]; constructor; auto.
  exfalso. rewrite zlen_nil in C. destruct C as [C|[C _]]; [lia|discriminate C].
Qed.
Lemma half_adds : forall ns ss L seg h p s s' l, half_reads ns ss L seg h p s s' l -> Forall (fun i => match i with Add _ => True | _ => False end) l ->
  snd s' = snd s ++ p_data p.
Proof.
  intros ns ss L seg h p s s' l H F. destruct H; cbn in *; rewrite ?app_nil_r; auto; inversion F; contradiction.
Qed.
Lemma items_adds : forall tbl ns ss L seg items s s' l, items_read tbl ns ss L seg items s s' l -> Forall (fun i => match i with Add _ => True | _ => False end) l ->
  snd s' = snd s ++ concat (map item_data items).
Proof.
  intros tbl ns ss L seg items s s' l H. induction H as [s|i l s s1 s2 s3 x1 x2 x3 B LT H1 H2 H3 IH]; intros F; [cbn; rewrite app_nil_r; reflexivity|].
  apply Forall_app in F as (F1 & F). apply Forall_app in F as (F2 & F3). rewrite (IH F3), (half_adds _ _ _ _ _ _ _ _ _ H2 F2), (half_adds _ _ _ _ _ _ _ _ _ H1 F1).
  cbn [map concat]. unfold item_data. rewrite !app_assoc. reflexivity.
Qed.
Lemma window_adds : forall bytes T l, plain_window false false [] bytes T l -> Forall (fun i => match i with Add _ => True | _ => False end) l -> zlen T <= zlen bytes.
Proof.
  intros bytes T l W F. destruct W as [bs bp bd bt bnd bni bna bck items hist T l data inst addr body rest V1 V2 V3 V4 V5 V6 V7 V8 IR].
  pose proof (items_adds _ _ _ _ _ _ _ _ _ IR F) as E. cbn [snd app] in E. fold data in E. subst T.
  unfold rest, body. cbn [app]. rewrite !zlen_cons, !zlen_app, !zlen_cons, !zlen_app.
  pose proof (zlen_nonneg _ bs). pose proof (zlen_nonneg _ bp). pose proof (zlen_nonneg _ bd). pose proof (zlen_nonneg _ bt). pose proof (zlen_nonneg _ bnd).
  pose proof (zlen_nonneg _ bni). pose proof (zlen_nonneg _ bna). pose proof (zlen_nonneg _ bck). pose proof (zlen_nonneg _ inst). pose proof (zlen_nonneg _ addr). lia.
Qed.

Lemma encoded : forall dict fl look target, bytes_ok dict -> fl_json fl = false -> fl_interleaved fl = false -> fl_checksum fl = false ->
  chunk_fits dict target -> target <> [] ->
  exists v ws ins, encode (set_target_matching (set_format_flags (new_vcdiff_encoder dict) fl) look) target = Some (v, true, file_header 0 0 ++ ws) /\ bytes_ok ws /\
    (forall allow, Spec.window strict (file_format 0 rfc_table 4 3 allow) dict [] ws target) /\ zlen ws <= zlen target + 53 /\
    genuine_plan look dict [] false ins target /\ plain_window false false dict ws target ins.
Proof.
  intros dict fl look target B J JI JC CF NE. pose proof CF as (CB & CL & CL2). pose proof (zlen_nonneg _ target).
  assert (zlen dict <= int32_max) as L by lia.
  destruct (streaming_encoder_ok dict fl look B L) as (en & EN & SE).
  destruct (new_encoder_inv en dict fl look true EN L J) as (im & EI).
  destruct (C58_header dict fl look _ [] _ _ B L J SE (Forall_nil _) eq_refl) as (e2 & ES).
  destruct (start_encoding_ok _ _ _ _ _ EI) as (c & _ & ES' & EI2). rewrite ES in ES'. injection ES' as E2 _.
  destruct (encode_chunk_ok e2 dict im _ _ target [] ltac:(rewrite E2; exact EI2) ltac:(rewrite E2; reflexivity) CB CL CL2)
    as (w' & out & EC & EI3 & _ & BO & O). destruct O as [[O _]|(_ & _ & LO & _)]; [contradiction|].
  destruct (C64_shortest_window dict fl look _ [EStart] e2 [(true, file_start (fl_interleaved fl || fl_checksum fl))] target (set_coder e2 (Binary w') true) out B L J SE ltac:(repeat constructor)) as (ins & GP & PW & _);
    [cbn [do_ecalls do_ecall]; rewrite ES; reflexivity|exact CF|exact NE|exact EC|].
  rewrite JI, JC in PW, ES. cbn [orb] in ES.
  exists {| ve_engine := en; ve_encoder := Some (set_coder (set_coder e2 (Binary w') true) (Binary w') false); ve_flags := fl; ve_look := look |}, out, ins.
  split; [|split; [exact BO|split; [|split; [exact LO|split; [exact GP|exact PW]]]]].
  - unfold encode. cbn [set_target_matching set_format_flags new_vcdiff_encoder ve_encoder ve_engine ve_flags ve_look].
    unfold streaming_encoder in SE. destruct (engine_init (new_engine dict)) as [[en' b]|]; [|discriminate].
    destruct b; [|discriminate]. injection SE as ->.
    unfold encode_stream. rewrite ES. cbn [encode_chunks]. rewrite EC.
    unfold finish_encoding. cbn [set_coder ec_allowed negb ec_coder coder_finish]. rewrite app_nil_r. reflexivity.
  - intros allow. pose proof (C64_plain_window_reads false false allow dict [] out target ins NE PW) as WR. apply window_reads_window in WR. exact WR.
Qed.

Theorem C68_refuted : forall n, 1 <= n <= 67108864 ->
  exists target v delta, zlen target = n /\ bytes_ok target /\
    encode (set_target_matching (new_vcdiff_encoder []) false) target = Some (v, true, delta) /\ zlen delta <= n + 58 /\
    decode_stream new_decoder [] (singles delta) = Some (true, target) /\
    n * (n - 1) <= 2 * stored (start_decoding new_decoder []) (singles delta).
Proof.
  intros n N. set (target := zrepeat 65 n).
  assert (zlen target = n) as LT by (apply zlen_zrepeat; lia). assert (bytes_ok target) as BT by (apply BodyFacts.bytes_ok_zrepeat; unfold byte_ok; lia).
  assert (target <> []) as NE by (intros E; rewrite E, zlen_nil in LT; lia).
  destruct (encoded [] VCD_STANDARD_FORMAT false target ltac:(constructor) eq_refl eq_refl eq_refl) as (v & ws & ins & E & BW & W & LW & GP & PW); [split; [exact BT|]; rewrite zlen_nil, LT; unfold int32_max; lia|exact NE|].
  exists target, v, (file_header 0 0 ++ ws). split; [exact LT|]. split; [exact BT|]. split; [exact E|].
  assert (zlen (file_header 0 0 ++ ws) = 5 + zlen ws) as LD by (rewrite zlen_app; reflexivity).
  split; [lia|].
  destruct (C68_one_window new_decoder [] ws target) as (DS & ST); auto.
  - exact ip_new.
  - constructor.
  - unfold admits, within. rewrite zlen_nil, LT. change (n <= 67108864 /\ 0 + n <= 67108864). lia.
  - unfold sizes_fit. rewrite zlen_nil, LT, LD. unfold int32_max. lia.
  - split; [exact DS|]. rewrite ST. pose proof (window_adds _ _ _ PW (plan_adds _ _ _ _ GP)). nia.
Qed.
Print Assumptions C68_refuted.

(** 17 bytes of window: 17*16/2 + 10 = 146 byte by byte, none in one piece. *)
Example C68_case :
  let ws := [1;0;0;13;7;0;7;1;0; 97;98;99;100;101;102;103; 8] in
  let delta := file_header 0 0 ++ ws in
  Spec.window strict (file_format 0 rfc_table 4 3 (target_allowed new_decoder)) [] [] ws [97;98;99;100;101;102;103] /\
  decode_stream new_decoder [] (singles delta) = Some (true, [97;98;99;100;101;102;103]) /\
  stored (start_decoding new_decoder []) (singles delta) = 146 /\
  stored (start_decoding new_decoder []) [delta] = 0.
Proof.
  cbv zeta. split; [|vm_compute; auto].
  assert (plain_window false false [] [1;0;0;13;7;0;7;1;0; 97;98;99;100;101;102;103; 8] [97;98;99;100;101;102;103] [Add [97;98;99;100;101;102;103]]) as W.
  { apply (plain_window_intro false false [] [0] [0] [13] [7] [7] [1] [0] [] [bare 8 (of_data [97;98;99;100;101;102;103]) no_piece] [] [97;98;99;100;101;102;103] [Add [97;98;99;100;101;102;103]]);
      try (apply one_digit; vm_compute; split; [discriminate|reflexivity]); [reflexivity|].
    change [Add [97;98;99;100;101;102;103]] with ([Add [97;98;99;100;101;102;103]] ++ [] ++ []).
    eapply ir_cons; [unfold byte_ok; cbn; lia|reflexivity| | |apply ir_nil].
    - apply (hr_add _ _ _ _ 7 [] 7 [97;98;99;100;101;102;103] [] []); [reflexivity|left; split; [reflexivity|auto]|reflexivity].
    - apply hr_noop. }
  pose proof (C64_plain_window_reads false false (target_allowed new_decoder) [] [] _ [97;98;99;100;101;102;103] _ ltac:(discriminate) W) as WR. apply window_reads_window in WR. exact WR.
Qed.
