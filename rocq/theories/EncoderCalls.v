(** Histories of calls on an encoder, of encodings with a VCDiffEncoder, and of
    windows written with the code table writer. *)

From Verif Require Import Base ListFacts Spec SpecEncode SpecInstr CopyFacts Varint AddrCache CodeTable InstructionMap CodeTableFacts Adler AdlerFacts BodyFacts InstructionMapFacts
  EncodeTable WriterFacts RollingHash BlockHash BlockHashFacts Engine EngineFacts JsonWriter JsonFacts Encoder EncoderFacts Sound.
From Coq Require Import ZifyBool ZifyNat.

(** ** Which calls are accepted *)

Fixpoint started (b : bool) (l : list (ecall * bool)) : bool :=
  match l with
  | [] => b
  | (EStart, true) :: tl => started true tl
  | (EFinish, true) :: tl => started false tl
  | _ :: tl => started b tl
  end.

Lemma do_ecall_allowed : forall c e e' r o, do_ecall e c = Some (e', r, o) -> ec_allowed e' = started (ec_allowed e) [(c, r)].
Proof.
  intros [|data|] e e' r o H; cbn [do_ecall started] in *.
  - unfold start_encoding in H. destruct (coder_init _ _) as [[c [|]]|]; [| |discriminate].
    + destruct (negb _); injection H as <- <- _; reflexivity.
    + injection H as <- <- _; reflexivity.
  - unfold encode_chunk in H. destruct (ec_allowed e) eqn:AL; cbn [negb] in H.
    + destruct (negb _); [injection H as <- <- _; rewrite AL; reflexivity|].
      destruct (engine_encode _ _ _) as [[l|]|]; [| |discriminate].
      * destruct (coder_calls _ _) as [c1|]; [|discriminate]. destruct (coder_output c1) as [[c2 o2]|]; [|discriminate].
        injection H as <- <- _. reflexivity.
      * injection H as <- <- _. reflexivity.
    + injection H as <- <- _. rewrite AL. reflexivity.
  - unfold finish_encoding in H. destruct (ec_allowed e) eqn:AL; cbn [negb] in H; injection H as <- <- _; [reflexivity|]. rewrite AL. reflexivity.
Qed.

Lemma do_ecalls_allowed : forall l e e' rs, do_ecalls e l = Some (e', rs) -> ec_allowed e' = started (ec_allowed e) (combine l (map fst rs)).
Proof.
  induction l as [|c l IH]; intros e e' rs H; cbn [do_ecalls] in H; [injection H as <- <-; reflexivity|].
  destruct (do_ecall e c) as [[[e1 r] o]|] eqn:E; [|discriminate]. destruct (do_ecalls e1 l) as [[e2 rs2]|] eqn:E2; [|discriminate].
  injection H as <- <-. cbn [map fst combine]. rewrite (IH _ _ _ E2), (do_ecall_allowed _ _ _ _ _ E).
  cbn [started]. destruct c, r; reflexivity.
Qed.

Lemma not_allowed : forall e, ec_allowed e = false ->
  (forall data, encode_chunk e data = Some (e, false, [])) /\ finish_encoding e = (e, false, []).
Proof. intros e A. unfold encode_chunk, finish_encoding. rewrite A. auto. Qed.

Lemma binary_allowed : forall e dict im w f, einv e dict im w f -> ec_allowed e = true ->
  (forall data, chunk_fits dict data -> exists e' out, encode_chunk e data = Some (e', true, out)) /\
  exists e', finish_encoding e = (e', true, []).
Proof.
  intros e dict im w f E A. split.
  - intros data (B & L & L2). destruct (encode_chunk_ok e dict im w f data [] E A B L L2) as (w' & out & -> & _). eauto.
  - unfold finish_encoding. rewrite A, (ei_coder _ _ _ _ _ E). cbn. eauto.
Qed.

(** The JSON writer stays a JSON writer. *)
Lemma json_kept : forall c e j e' r o, ec_coder e = Json j -> do_ecall e c = Some (e', r, o) ->
  ec_engine e' = ec_engine e /\ exists j', ec_coder e' = Json j'.
Proof.
  intros [|data|] e j e' r o J H; cbn [do_ecall] in H.
  - unfold start_encoding in H. rewrite J in H. cbn [coder_init] in H. destruct (negb _); injection H as <- <- _; cbn; eauto.
  - unfold encode_chunk in H. rewrite J in H. destruct (negb _); [injection H as <- _ _; eauto|]. destruct (negb _); [injection H as <- _ _; eauto|].
    assert ((if fl_checksum (ec_flags e) then coder_checksum (Json j) (compute_adler32 data) else Json j) = Json j) as EQ
      by (destruct (fl_checksum (ec_flags e)); reflexivity). rewrite EQ in H.
    destruct (engine_encode _ _ _) as [[l|]|]; [| |discriminate]; cbn in H; injection H as <- _ _; cbn; eauto.
  - unfold finish_encoding in H. destruct (negb _); injection H as <- _ _; cbn; eauto.
Qed.

Lemma json_failed : forall l e j dict e' rs, engine_ok (ec_engine e) dict -> ec_coder e = Json j ->
  do_ecalls e l = Some (e', rs) ->
  (is_ascii dict = false -> ec_allowed e = false -> Forall (fun r => r = (false, [])) rs) /\
  (is_ascii dict = true -> forall o, ~ In (EStart, (false, o)) (combine l rs)).
Proof.
  induction l as [|c l IH]; intros e j dict e' rs K J H; cbn [do_ecalls] in H.
  - injection H as _ <-. split; [constructor|]. intros _ o [].
  - destruct (do_ecall e c) as [[[e1 r] o]|] eqn:E; [|discriminate]. destruct (do_ecalls e1 l) as [[e2 rs2]|] eqn:E2; [|discriminate].
    injection H as <- <-. destruct (json_kept _ _ _ _ _ _ J E) as (KE & j1 & J1). rewrite <- KE in K.
    destruct (IH e1 j1 dict e2 rs2 K J1 E2) as (I1 & I2). rewrite KE in K. split.
    + intros A AL. assert (ec_allowed e1 = false /\ (r, o) = (false, [])) as [AL1 RO].
      { destruct c as [|data|]; cbn [do_ecall] in E.
        - rewrite (json_start e dict j K J), A in E. injection E as <- <- <-. cbn. auto.
        - rewrite (proj1 (not_allowed e AL)) in E. injection E as <- <- <-. auto.
        - rewrite (proj2 (not_allowed e AL)) in E. injection E as <- <- <-. auto. }
      constructor; [exact RO|]. apply (I1 A AL1).
    + intros A o' [IN|IN]; [|exact (I2 A o' IN)]. injection IN as -> -> ->. cbn [do_ecall] in E.
      rewrite (json_start e dict j K J), A in E. discriminate.
Qed.

Lemma binary_start : forall l e dict im w f e' rs, einv e dict im w f -> Forall (call_fits dict) l ->
  do_ecalls e l = Some (e', rs) -> forall o, ~ In (EStart, (false, o)) (combine l rs).
Proof.
  induction l as [|c l IH]; intros e dict im w f e' rs E F H o IN; cbn [do_ecalls] in H.
  - injection H as _ <-. destruct IN.
  - destruct (do_ecall e c) as [[[e1 r] o1]|] eqn:E1; [|discriminate]. destruct (do_ecalls e1 l) as [[e2 rs2]|] eqn:E2; [|discriminate].
    injection H as <- <-. inversion F as [|? ? CF F']; subst.
    destruct (do_ecall_ok c e dict im w f E CF) as (w1 & a1 & r' & o' & E3 & EI & _). rewrite E1 in E3. injection E3 as -> -> ->.
    destruct IN as [IN|IN].
    + injection IN as -> -> ->. cbn [do_ecall] in E1. destruct (start_encoding_ok _ _ _ _ _ E) as (c & _ & E4 & _). rewrite E4 in E1. discriminate.
    + exact (IH _ _ _ _ _ _ _ EI F' E2 o IN).
Qed.

(** ** Streams as sequences of calls *)

Lemma chunks_calls : forall chunks e out e' o, encode_chunks e chunks out = Some (e', true, o) ->
  exists rs, do_ecalls e (map EChunk chunks) = Some (e', rs).
Proof.
  induction chunks as [|c chunks IH]; intros e out e' o H; cbn [encode_chunks map do_ecalls do_ecall] in *; [injection H as <- _; eauto|].
  destruct (encode_chunk e c) as [[[e1 [|]] o1]|]; [|discriminate|discriminate]. destruct (IH _ _ _ _ H) as (rs & ->). eauto.
Qed.
Lemma do_ecalls_app : forall a b e e1 rs, do_ecalls e a = Some (e1, rs) ->
  do_ecalls e (a ++ b) = match do_ecalls e1 b with Some (e2, rs2) => Some (e2, rs ++ rs2) | None => None end.
Proof.
  induction a as [|c a IH]; intros b e e1 rs H; cbn [app do_ecalls] in *; [injection H as <- <-; destruct (do_ecalls e b) as [[? ?]|]; reflexivity|].
  destruct (do_ecall e c) as [[[e2 r] o]|]; [|discriminate]. destruct (do_ecalls e2 a) as [[e3 rs3]|] eqn:E; [|discriminate].
  injection H as <- <-. rewrite (IH b _ _ _ E). destruct (do_ecalls e3 b) as [[? ?]|]; reflexivity.
Qed.
Lemma stream_calls : forall chunks e e' o, encode_stream e chunks = Some (e', true, o) ->
  exists rs, do_ecalls e (EStart :: map EChunk chunks ++ [EFinish]) = Some (e', rs).
Proof.
  intros chunks e e' o H. unfold encode_stream in H. cbn [do_ecalls do_ecall].
  destruct (start_encoding e) as [[[e1 [|]] o1]|]; [|discriminate|discriminate].
  destruct (encode_chunks e1 chunks o1) as [[[e2 [|]] o2]|] eqn:E; [|discriminate|discriminate].
  destruct (chunks_calls _ _ _ _ _ E) as (rs & E2). rewrite (do_ecalls_app _ _ _ _ _ E2). cbn [do_ecalls do_ecall].
  destruct (finish_encoding e2) as [[e3 r] o3]. injection H as <- _ _. eauto.
Qed.

(** ** Repeated encodings *)

Fixpoint encodes (v : vcdiff_encoder) (targets : list (list Z)) : option vcdiff_encoder :=
  match targets with
  | [] => Some v
  | t :: tl => match encode v t with Some (v', _, _) => encodes v' tl | None => None end
  end.

Definition fresh (dict : list Z) (fl : flags) (look : bool) : vcdiff_encoder :=
  set_target_matching (set_format_flags (new_vcdiff_encoder dict) fl) look.

Lemma encodes_same : forall ts dict fl look target, bytes_ok dict -> zlen dict <= int32_max -> fl_json fl = false ->
  Forall (chunk_fits dict) ts -> chunk_fits dict target ->
  exists v va vb out, encodes (fresh dict fl look) ts = Some v /\
    encode (fresh dict fl look) target = Some (va, true, out) /\ encode v target = Some (vb, true, out).
Proof.
  intros ts dict fl look target B L J F CF.
  destruct (encode_first dict fl look B L) as (en & EN & EF). fold (fresh dict fl look) in EF.
  destruct (new_encoder_inv en dict fl look true EN L J) as (im & EI).
  set (w0 := new_writer (fl_interleaved fl)) in *. set (f := file_format _ _ _ _ _) in *. set (e0 := new_encoder en fl look) in *.
  assert (forall w a t, einv (set_coder e0 (Binary w) a) dict im w f -> kept (ec_flags e0) w0 w -> chunk_fits dict t ->
     exists w' a' o e1, encode_stream (set_coder e0 (Binary w) a) [t] = Some (set_coder e0 (Binary w') a', true, o) /\
       encode_stream e0 [t] = Some (e1, true, o) /\
       einv (set_coder e0 (Binary w') a') dict im w' f /\ kept (ec_flags e0) w0 w') as STEP.
  { intros w a t I K C. destruct (encode_stream_ok _ dict im w f (fun _ _ => True) [t] I) as (w' & ws & E & I' & _); [constructor; [exact C|constructor]|auto|].
    destruct (stream_same e0 dict im w0 f w a [t] EI I K) as (r & o & e1 & e2 & S1 & S2); [constructor; [exact C|constructor]|].
    exists w', false. rewrite S2 in E. injection E as -> -> ->. do 2 eexists. split; [exact S2|]. split; [exact S1|]. split; [exact I'|].
    destruct (stream_calls _ _ _ _ S2) as (rs & DC).
    destruct (do_ecalls_ok (EStart :: map EChunk [t] ++ [EFinish]) _ _ _ _ _ I) as (w2 & a2 & rs2 & DC2 & I2 & K2).
    { constructor; [exact Logic.I|]. constructor; [exact C|]. constructor; [exact Logic.I|constructor]. }
    rewrite DC in DC2. injection DC2 as E1 E2. assert (w2 = w') as -> by congruence.
    eapply kept_trans; [exact K|exact K2]. }
  assert (set_coder e0 (Binary w0) false = e0) as SE by (unfold e0, new_encoder, new_custom_encoder, set_coder, create_writer; cbn; rewrite J; reflexivity).
  assert (forall ts v, Forall (chunk_fits dict) ts ->
    (v = fresh dict fl look \/ exists w a, ve_encoder v = Some (set_coder e0 (Binary w) a) /\
        einv (set_coder e0 (Binary w) a) dict im w f /\ kept (ec_flags e0) w0 w) ->
    exists v' vb out e1, encodes v ts = Some v' /\ encode_stream e0 [target] = Some (e1, true, out) /\ encode v' target = Some (vb, true, out)) as ALL.
  { clear ts F. induction ts as [|t ts IH]; intros v F H; cbn [encodes].
    - destruct H as [-> |(w & a & EV & I & K)].
      + destruct (STEP w0 false target) as (w' & a' & o & e1 & S1 & S2 & _); [rewrite SE; exact EI|apply kept_refl|exact CF|].
        eexists (fresh dict fl look), _, o, e1. split; [reflexivity|]. split; [exact S2|]. rewrite EF, S2. reflexivity.
      + destruct (STEP w a target I K CF) as (w' & a' & o & e1 & S1 & S2 & _).
        eexists v, _, o, e1. split; [reflexivity|]. split; [exact S2|]. unfold encode. rewrite EV, S1. reflexivity.
    - inversion F as [|? ? C F']; subst. destruct H as [-> |(w & a & EV & I & K)].
      + destruct (STEP w0 false t) as (w' & a' & o & e1 & S1 & S2 & I' & K'); [rewrite SE; exact EI|apply kept_refl|exact C|].
        rewrite EF. rewrite SE in S1. rewrite S1. apply IH; [exact F'|]. right. exists w', a'. auto.
      + destruct (STEP w a t I K C) as (w' & a' & o & e1 & S1 & S2 & I' & K').
        unfold encode. rewrite EV, S1. apply IH; [exact F'|]. right. exists w', a'. auto. }
  destruct (ALL ts (fresh dict fl look) F (or_introl eq_refl)) as (v' & vb & out & e1 & A1 & A2 & A3).
  exists v'. rewrite EF, A2. do 3 eexists. split; [exact A1|]. split; [reflexivity|exact A3].
Qed.

(** ** Windows written with the writer itself *)

(** One window: the calls, perhaps AddChecksum, then Output. *)
Definition write_window (w : writer) (x : list instruction * option Z) : option (writer * list Z) :=
  match writer_calls w (fst x) with
  | None => None
  | Some w1 => writer_output (match snd x with Some c => add_checksum w1 c | None => w1 end)
  end.
Fixpoint write_windows (w : writer) (l : list (list instruction * option Z)) : option (writer * list (list Z)) :=
  match l with
  | [] => Some (w, [])
  | x :: tl =>
      match write_window w x with
      | None => None
      | Some (w1, o) => match write_windows w1 tl with None => None | Some (w2, os) => Some (w2, o :: os) end
      end
  end.

(** What a window is to mean. *)
Definition window_fits (dict : list Z) (cks : bool) (x : list instruction * option Z) (T : list Z) : Prop :=
  Forall good_instruction (fst x) /\ execute_all dict [] (fst x) = Some T /\ T <> [] /\
  zlen dict + zlen T <= int32_max /\ costs (fst x) <= 2147483600 /\ bytes_ok T /\
  snd x = (if cks then Some (adler_sum 0 T) else None).

Lemma write_windows_ok : forall l Ts w im dict f cks prev (ok : list Z -> list Z -> Prop),
  winv w im dict [] [] [] [] -> total w = 0 -> fits w f -> (cks = true -> f_ext f = true) -> (cks = false -> wr_has_cks w = false) ->
  Forall2 (window_fits dict cks) l Ts ->
  (forall pre T post, Ts = pre ++ T :: post -> ok (prev ++ concat pre) T) ->
  exists w' os, write_windows w l = Some (w', os) /\
    windows strict strict f dict ok prev (concat os) (prev ++ concat Ts) /\
    Forall (fun o => bytes_ok o /\ hd 0 o = if cks then 5 else 1) os.
Proof.
  induction l as [|x l IH]; intros Ts w im dict f cks prev ok W TT FI FE FC F2 OK; inversion F2 as [|? T ? Ts' XF F2']; subst; cbn [write_windows].
  - exists w, []. cbn [concat]. rewrite app_nil_r. split; [reflexivity|]. split; constructor.
  - destruct XF as (G & X & NT & L & C & BT & CK). unfold write_window.
    destruct (writer_calls_ok (fst x) w im dict [] [] [] [] T W G X L) as (w1 & items & hist & -> & W1 & TO1 & K1).
    set (w2 := match snd x with Some c => add_checksum w1 c | None => w1 end).
    destruct (shape_cks _ _ K1) as (SH & HC & CC & MP). unfold shape in SH. injection SH as S1 S2 S3 S4 S5.
    assert (winv w2 im dict (fst x) items hist T /\ total w2 = total w1 /\ wr_has_cks w2 = cks /\ (cks = true -> wr_cks w2 = adler_sum 0 T) /\ fits w2 f /\
            (wr_il w2 = wr_il w /\ wr_table w2 = wr_table w /\ wr_near w2 = wr_near w /\ wr_same w2 = wr_same w)) as (W2 & TO2 & HC2 & CK2 & FI2 & SS).
    { destruct FI as (A1 & A2 & A3 & A4 & A5). unfold w2. rewrite CK. destruct cks.
      - split; [destruct W1 as [[] ? ? ? ? ? ? ? ?]; constructor; auto; constructor; auto|]. split; [reflexivity|]. split; [reflexivity|]. split; [reflexivity|].
        split; [|cbn; auto]. unfold fits; cbn. rewrite S1, S2, S4, S5. auto.
      - split; [exact W1|]. split; [reflexivity|]. split; [rewrite HC; auto|]. split; [congruence|]. split; [|auto].
        unfold fits. rewrite S1, S2, S4, S5, HC. auto. }
    clearbody w2. destruct (writer_output_ok w2 im dict (fst x) items hist T f prev W2 FI2) as (w3 & o & -> & WNR & BO & LO & HO & W3 & K3 & TT3); auto; [intros XX; apply CK2; congruence|lia|].
    pose proof (window_reads_window _ _ _ _ _ _ WNR) as WN.
    destruct (shape_cks _ _ K3) as (SH3 & HC3 & CC3 & MP3). unfold shape in SH3. injection SH3 as R1 R2 R3 R4 R5. destruct SS as (Q1 & Q2 & Q3 & Q4).
    destruct (IH Ts' w3 im dict f cks (prev ++ T) ok W3 TT3) as (w' & os & -> & WS & FO); auto.
    + destruct FI2 as (A1 & A2 & A3 & A4 & A5). unfold fits. rewrite R1, R2, R4, R5, HC3. auto.
    + intros ->. congruence.
    + intros pre T' post E. rewrite <- app_assoc. apply (OK (T :: pre) T' post). rewrite E. reflexivity.
    + exists w', (o :: os). split; [reflexivity|]. cbn [concat]. rewrite <- app_assoc in WS. split.
      * apply ws_cons with (T := T); [destruct (concat os); exact WN| |exact WS].
        specialize (OK [] T Ts' eq_refl). cbn [concat] in OK. rewrite app_nil_r in OK. exact OK.
      * constructor; [|exact FO]. split; [exact BO|]. rewrite HO, HC2. reflexivity.
Qed.
