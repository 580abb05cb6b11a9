(** C65, C66: an encoder with a code table writer of the caller. *)

From Verif Require Import Base ListFacts Spec SpecEncode CodeTable EncodeTable JsonWriter Adler Engine EngineFacts Encoder EncoderFacts EncoderCalls
  Writers SpecWriters WritersFacts Properties_Encode.
From Coq Require Import ZifyBool ZifyNat.

(** ** C65: the calls of the writer *)

Definition fits_call (dict : list Z) (c : ecall) : Prop :=
  match c with EChunk data => bytes_ok data /\ zlen dict + zlen data <= int32_max | _ => True end.

(** Whatever the writer is and replies, and whatever is called on the encoder: every
    call of the encoder makes the calls of the writer in [calls_for]. *)
Theorem C65_session : forall S (k : writer_class S) dict fl look s e l e' rs,
  bytes_ok dict -> zlen dict <= int32_max -> encoder_with_writer dict fl look s = Some e -> Forall (fits_call dict) l ->
  g_session k e l = Some (e', rs) ->
  calls_for_all dict fl look false l rs.
Proof.
  intros S k dict fl look s e l e' rs B L EW F H. destruct (with_writer_ok S dict fl look s B L) as (e0 & E0 & GI & _).
  rewrite E0 in EW. injection EW as ->. destruct (g_session_ok _ _ _ _ _ _ _ _ _ _ GI F H) as (R & _). exact R.
Qed.
Print Assumptions C65_session.

(** After any history, the calls recorded for a call of the encoder are made with the
    writer as it is, in this order and up to the first reply false; the encoder
    returns true exactly if there was no such reply and there was something to do, and
    it outputs what the writer appends. *)
Theorem C65_calls_made : forall S (k : writer_class S) dict fl look s e l e1 rs c e2 ok out calls,
  bytes_ok dict -> zlen dict <= int32_max -> encoder_with_writer dict fl look s = Some e -> Forall (fits_call dict) (l ++ [c]) ->
  g_session k e l = Some (e1, rs) -> g_do k e1 c = Some (e2, ok, out, calls) ->
  calls_for dict fl look (started false (combine l (map (fun r => fst (fst r)) rs))) c ok calls /\
  exists r, made k (ge_state e1) calls (ge_state e2) r out /\ (ok = true <-> r = true /\ calls <> []).
Proof.
  intros S k dict fl look s e l e1 rs c e2 ok out calls B L EW F H D. destruct (with_writer_ok S dict fl look s B L) as (e0 & E0 & GI & _).
  rewrite E0 in EW. injection EW as ->. apply Forall_app in F. destruct F as (F1 & F2). inversion F2 as [|x y F3 _]; subst x y.
  destruct (g_session_ok _ _ _ _ _ _ _ _ _ _ GI F1 H) as (_ & GI1). destruct (g_do_ok _ _ _ _ _ _ _ _ _ _ _ _ GI1 F3 D) as (_ & CF & r & M & O).
  split; [exact CF|]. exists r. split; [exact M|]. destruct O as [-> | (-> & _ & ->)].
  - split; [|intros (-> & _); reflexivity]. intros ->. split; [reflexivity|]. intros ->. inversion CF.
  - split; [discriminate|]. intros (_ & N). congruence.
Qed.
Print Assumptions C65_calls_made.

(** The pattern that codetablewriter_interface.h promises. *)
Theorem C65_pattern : forall S (k : writer_class S) dict fl look s e l e' rs,
  bytes_ok dict -> zlen dict <= int32_max -> encoder_with_writer dict fl look s = Some e -> Forall (fits_call dict) l ->
  g_session k e l = Some (e', rs) ->
  pattern false (flat_map snd rs) = true /\ forall n b, ~ In (WInstruction (Run n b)) (flat_map snd rs).
Proof.
  intros S k dict fl look s e l e' rs B L EW F H. pose proof (C65_session S k dict fl look s e l e' rs B L EW F H) as CA.
  split; [eapply pattern_for_all; eauto|]. clear - CA. induction CA as [on|on c ok out calls l rs CF CA IH]; [intros n b []|].
  intros n b IN. cbn [flat_map snd] in IN. apply in_app_iff in IN. destruct IN as [IN | IN]; [|exact (IH n b IN)]. clear - CF IN.
  destruct CF as [on|on|on|data|data| |data ins NE GP| |]; cbn [In] in IN; repeat match goal with H : _ \/ _ |- _ => destruct H as [H | H]; [discriminate H|] end; try contradiction.
  - destruct (fl_checksum fl); cbn [In] in IN; [destruct IN as [IN | []]; discriminate IN|exact IN].
  - apply in_app_iff in IN. destruct IN as [IN | IN].
    + destruct (fl_checksum fl); cbn [In] in IN; [destruct IN as [IN | []]; discriminate IN|exact IN].
    + apply in_app_iff in IN. destruct IN as [IN | [IN | []]]; [|discriminate IN].
      apply in_map_iff in IN. destruct IN as (i & E & IN). assert (i = Run n b) as -> by congruence. clear E NE.
      induction GP as [T b'|T d ins T' ND GP IH|T b' a m T1 ins T' N C X GP IH]; cbn [In] in IN; [exact IN|..].
      all: destruct IN as [IN | IN]; [discriminate IN|exact (IH IN)].
Qed.
Print Assumptions C65_pattern.

(** If the writer never runs into undefined behaviour, then the encoder does not. *)
Theorem C65_total : forall S (k : writer_class S) dict fl look s l,
  bytes_ok dict -> zlen dict <= int32_max -> Forall (fits_call dict) l -> never_undefined k ->
  exists e e' rs, encoder_with_writer dict fl look s = Some e /\ g_session k e l = Some (e', rs).
Proof.
  intros S k dict fl look s l B L F T. destruct (with_writer_ok S dict fl look s B L) as (e & E & GI & _). exists e.
  pose proof (g_session_total S k T l e dict fl look false GI F) as N. destruct (g_session k e l) as [[e' rs]|]; [eauto|congruence].
Qed.
Print Assumptions C65_total.

(** The library's own encoder is this one with the library's writers: same returned
    values, same output. *)
Theorem C65_library : forall dict fl look e l,
  streaming_encoder dict fl look = Some e ->
  exists g, encoder_with_writer dict fl look (create_writer fl) = Some g /\
    option_map snd (do_ecalls e l) = option_map (fun x => map fst (snd x)) (g_session library_writer g l).
Proof.
  intros dict fl look e l H. unfold streaming_encoder in H. unfold encoder_with_writer. destruct (engine_init (new_engine dict)) as [[en [|]]|]; [|discriminate..].
  injection H as <-. eexists. split; [reflexivity|]. rewrite library_session. reflexivity.
Qed.
Print Assumptions C65_library.

(** *** A writer that carries out the instructions

    Its output is the data that they stand for. *)
Definition replay_writer (dict : list Z) : writer_class (list Z) := {|
  k_init := fun _ _ => Some ([], true);
  k_verify_dictionary := fun s _ => Some (s, true);
  k_header := fun s _ => Some (s, []);
  k_verify_chunk := fun s _ => Some (s, true);
  k_checksum := fun s _ => Some s;
  k_call := fun s i => Some (match execute dict s i with Some s' => s' | None => s end);
  k_output := fun s => Some ([], s);
  k_finish := fun s => Some (s, [])
|}.

Lemma replay_instructions : forall dict l s T s' r out, execute_all dict s l = Some T ->
  made (replay_writer dict) s (map WInstruction l ++ [WOutput]) s' r out -> s' = [] /\ out = T.
Proof.
  intros dict. induction l as [|i l IH]; intros s T s' r out X M; cbn [map app execute_all] in *.
  - injection X as <-. inversion M as [|a c b o E|a c s1 o1 l0 s2 ok o2 E M1]; subst; cbn in E; [discriminate E|]. injection E as <- <-.
    inversion M1; subst. rewrite app_nil_r. auto.
  - destruct (execute dict s i) as [s0|] eqn:EX; [|discriminate].
    inversion M as [|a c b o E|a c s1 o1 l0 s2 ok o2 E M1]; subst; cbn [one_call replay_writer k_call] in E; rewrite EX in E; [discriminate E|]. injection E as <- <-.
    cbn [app]. exact (IH _ _ _ _ _ X M1).
Qed.

Lemma replay_chunk : forall dict cks data l s' r out, execute_all dict [] l = Some data ->
  made (replay_writer dict) [] (WVerifyChunk data :: map WChecksum cks ++ map WInstruction l ++ [WOutput]) s' r out -> s' = [] /\ out = data.
Proof.
  intros dict cks data l s' r out X M. inversion M as [|a c b o E|a c s1 o1 l0 s2 ok o2 E M1]; subst; cbn in E; [discriminate E|]. injection E as <- <-. cbn [app].
  clear M. revert o2 M1. induction cks as [|x cks IH]; intros o2 M1; cbn [map app] in M1; [eapply replay_instructions; eauto|].
  inversion M1 as [|a c b o E|a c s1 o1 l0 s2 ok o2' E M2]; subst; cbn in E; [discriminate E|]. injection E as <- <-. cbn [app]. exact (IH _ M2).
Qed.

Lemma replay_harmless : forall dict calls s' r out,
  Forall (fun c => match c with WInstruction _ | WOutput => False | _ => True end) calls -> made (replay_writer dict) [] calls s' r out -> s' = [] /\ out = [].
Proof.
  intros dict. induction calls as [|c calls IH]; intros s' r out F M; [inversion M; auto|]. inversion F as [|x y F1 F2]; subst x y.
  inversion M as [|a x b o E|a x s1 o1 l0 s2 ok o2 E M1]; subst.
  - destruct c; cbn in E; try discriminate E; contradiction.
  - assert (s1 = [] /\ o1 = []) as (-> & ->) by (destruct c; cbn in E; try contradiction; split; congruence). cbn [app]. exact (IH _ _ _ F2 M1).
Qed.

Lemma replay_session : forall dict fl look l e on e' rs, ginv e dict fl look on -> ge_state e = [] -> Forall (gcall_fits dict) l ->
  g_session (replay_writer dict) e l = Some (e', rs) ->
  forall data out calls, In (EChunk data, (true, out, calls)) (combine l rs) -> out = data.
Proof.
  intros dict fl look. induction l as [|c l IH]; intros e on e' rs GI ST F H data out calls IN; cbn [g_session] in H; [injection H as <- <-; destruct IN|].
  destruct (g_do _ e c) as [[[[e1 ok] o] w]|] eqn:E; [|discriminate]. destruct (g_session _ e1 l) as [[e2 rs2]|] eqn:E2; [|discriminate].
  injection H as <- <-. inversion F as [|x y F1 F2]; subst x y. destruct (g_do_ok _ _ _ _ _ _ _ _ _ _ _ _ GI F1 E) as (GI1 & CF & r & M & O). rewrite ST in M.
  assert (ge_state e1 = [] /\ (forall d, c = EChunk d -> ok = true -> o = d)) as (ST1 & OUT).
  { destruct CF as [on|on|on|d|d| |d ins NE GP| |].
    7:{ destruct (replay_chunk dict (if fl_checksum fl then [adler_sum 0 d] else []) d ins (ge_state e1) r o (genuine_plan_execute _ _ _ _ _ _ GP)) as (-> & ->).
        { destruct (fl_checksum fl); exact M. }
        split; [reflexivity|]. intros d' E' _. congruence. }
    6:{ destruct (replay_harmless dict (WVerifyChunk [] :: (if fl_checksum fl then [WChecksum (adler_sum 0 [])] else [])) (ge_state e1) r o) as (-> & ->);
          [destruct (fl_checksum fl); repeat constructor|exact M|]. split; [reflexivity|]. intros d' E' _. congruence. }
    all: match type of M with made _ _ ?w _ _ _ => destruct (replay_harmless dict w (ge_state e1) r o) as (-> & ->); [repeat constructor|exact M|] end; split; [reflexivity|]; intros d' E' OK;
      first [discriminate E' | discriminate OK]. }
  destruct IN as [IN | IN]; [|exact (IH e1 _ e2 rs2 GI1 ST1 F2 E2 data out calls IN)].
  assert (c = EChunk data) as -> by congruence. assert (ok = true) as -> by congruence. assert (out = o) as -> by congruence. apply OUT; reflexivity.
Qed.

Theorem C65_replay : forall dict fl look l,
  bytes_ok dict -> zlen dict <= int32_max -> Forall (fits_call dict) l ->
  exists e e' rs, encoder_with_writer dict fl look [] = Some e /\ g_session (replay_writer dict) e l = Some (e', rs) /\
    forall data out calls, In (EChunk data, (true, out, calls)) (combine l rs) -> out = data.
Proof.
  intros dict fl look l B L F. destruct (C65_total (list Z) (replay_writer dict) dict fl look [] l B L F) as (e & e' & rs & E & H).
  { intros s c. destruct c; discriminate. }
  exists e, e', rs. split; [exact E|]. split; [exact H|]. destruct (with_writer_ok (list Z) dict fl look [] B L) as (e0 & E0 & GI & ST).
  rewrite E0 in E. injection E as <-. exact (replay_session dict fl look l e0 false e' rs GI ST F H).
Qed.
Print Assumptions C65_replay.

Definition run_writer {S} (k : writer_class S) (dict : list Z) (fl : flags) (s : S) (l : list ecall) : option (list (bool * list Z * list wcall)) :=
  match encoder_with_writer dict fl true s with
  | Some e => match g_session k e l with Some (_, rs) => Some rs | None => None end
  | None => None
  end.
Example C65_case :
  run_writer (replay_writer c01_dict) c01_dict (flags_of false true) []
    [EChunk [1]; EStart; EChunk ([7; 8] ++ c01_dict); EChunk []; EFinish; EFinish] =
  Some [(false, [], []);
        (true, [], [WInit 60; WVerifyDictionary c01_dict; WHeader (flags_of false true)]);
        (true, [7; 8] ++ c01_dict, [WVerifyChunk ([7; 8] ++ c01_dict); WChecksum (adler_sum 0 ([7; 8] ++ c01_dict)); WInstruction (Add [7; 8]);
                                    WInstruction (Copy 0 60); WOutput]);
        (true, [], [WVerifyChunk []; WChecksum 0]);
        (true, [], [WFinish]);
        (false, [], [])].
Proof. vm_compute. reflexivity. Qed.

(** ** C66: after a failed StartEncoding *)

(** vcencoder.h promises that EncodeChunk and FinishEncoding return false if
    StartEncoding returned false.  A writer whose second Init fails: the second
    StartEncoding returns false, and the calls after it are carried out. *)
Definition once_writer : writer_class bool := {|
  k_init := fun used _ => Some (true, negb used);
  k_verify_dictionary := fun s _ => Some (s, true);
  k_header := fun s _ => Some (s, [72]);
  k_verify_chunk := fun s _ => Some (s, true);
  k_checksum := fun s _ => Some s;
  k_call := fun s _ => Some s;
  k_output := fun s => Some (s, [79]);
  k_finish := fun s => Some (s, [70])
|}.
Theorem C66_refuted : exists (k : writer_class bool) dict fl s l rs1 rs2,
  never_undefined k /\
  run_writer k dict fl s (l ++ [EStart; EChunk [1]; EFinish]) = Some (rs1 ++ [(false, [], rs2); (true, [79], [WVerifyChunk [1]; WInstruction (Add [1]); WOutput]); (true, [70], [WFinish])]).
Proof.
  exists once_writer, [], (flags_of false false), false, [EStart], [(true, [72], [WInit 0; WVerifyDictionary []; WHeader (flags_of false false)])], [WInit 0].
  split; [intros s c; destruct c; discriminate|]. vm_compute. reflexivity.
Qed.
Print Assumptions C66_refuted.

(** What holds for every writer: as long as no StartEncoding has succeeded, the other
    calls return false, output nothing and do not call the writer. *)
Theorem C66_never_started_partial : forall S (k : writer_class S) dict fl look s e l e1 rs,
  bytes_ok dict -> zlen dict <= int32_max -> encoder_with_writer dict fl look s = Some e -> Forall (fits_call dict) l ->
  g_session k e l = Some (e1, rs) -> (forall out calls, ~ In (EStart, (true, out, calls)) (combine l rs)) ->
  (forall data, g_chunk k e1 data = Some (e1, false, [], [])) /\ g_finish k e1 = Some (e1, false, [], []).
Proof.
  intros S k dict fl look s e l e1 rs B L EW F H NS. destruct (with_writer_ok S dict fl look s B L) as (e0 & E0 & GI & _).
  rewrite E0 in EW. injection EW as ->. destruct (g_session_ok _ _ _ _ _ _ _ _ _ _ GI F H) as (_ & [_ _ _ ON]).
  assert (started false (combine l (map (fun r => fst (fst r)) rs)) = false) as ST.
  { clear - NS. revert rs NS. induction l as [|c l IH]; intros rs NS; [reflexivity|]. destruct rs as [|[[ok out] calls] rs]; [reflexivity|].
    cbn [map combine fst started]. destruct c, ok; try (exfalso; apply (NS out calls); left; reflexivity); apply IH; intros o w IN; apply (NS o w); right; exact IN. }
  rewrite ST in ON. unfold g_chunk, g_finish. rewrite ON. auto.
Qed.
Print Assumptions C66_never_started_partial.

(** And with a writer whose replies to Init and VerifyDictionary depend on what they
    are called with only: once StartEncoding has failed, nothing ever succeeds.  (For the
    library's own writers see C28_failed_start.) *)
Theorem C66_failed_start_partial : forall S (k : writer_class S) ri rd dict fl look s e l e1 rs out,
  (forall s n s' b, k_init k s n = Some (s', b) -> b = ri n) -> (forall s d s' b, k_verify_dictionary k s d = Some (s', b) -> b = rd d) ->
  encoder_with_writer dict fl look s = Some e -> g_session k e l = Some (e1, rs) ->
  In (EStart, (false, out)) (combine l (map fst rs)) ->
  Forall (fun r => fst r = (false, [])) rs.
Proof.
  intros S k ri rd dict fl look s e l e1 rs out RI RD EW H IN. assert (replies_fixed k ri rd) as RF by (split; assumption).
  assert (ge_allowed e = false) as A.
  { unfold encoder_with_writer in EW. destruct (engine_init _) as [[en [|]]|]; [|discriminate..]. injection EW as <-. reflexivity. }
  destruct (ri (zlen (en_dict (ge_engine e))) && rd (en_dict (ge_engine e))) eqn:R.
  - exfalso. exact (fixed_no_failure S k ri rd RF l e e1 rs out R H IN).
  - exact (fixed_all_false S k ri rd RF l e e1 rs A R H).
Qed.
Print Assumptions C66_failed_start_partial.

(** Only dictionaries of less than three bytes suit this writer. *)
Definition picky_writer : writer_class (list Z) := {|
  k_init := k_init (replay_writer []);
  k_verify_dictionary := fun s d => Some (s, zlen d <? 3);
  k_header := k_header (replay_writer []);
  k_verify_chunk := k_verify_chunk (replay_writer []);
  k_checksum := k_checksum (replay_writer []);
  k_call := k_call (replay_writer []);
  k_output := k_output (replay_writer []);
  k_finish := k_finish (replay_writer [])
|}.
Example C66_case :
  (forall s n s' b, k_init picky_writer s n = Some (s', b) -> b = true) /\
  (forall s d s' b, k_verify_dictionary picky_writer s d = Some (s', b) -> b = (zlen d <? 3)) /\
  run_writer picky_writer [1; 2; 3] (flags_of false false) [] [EStart; EChunk [65]; EFinish] =
    Some [(false, [], [WInit 3; WVerifyDictionary [1; 2; 3]]); (false, [], []); (false, [], [])] /\
  option_map (map fst) (run_writer library_writer [200] json_flags (create_writer json_flags) [EStart; EChunk [65]; EFinish]) =
    Some [(false, []); (false, []); (false, [])] /\
  option_map (map fst) (run_writer once_writer [1] (flags_of false false) true [EChunk [1]; EStart; EChunk [1]; EFinish]) =
    Some [(false, []); (false, []); (false, []); (false, [])].
Proof.
  split; [intros s n s' b H; cbn in H; congruence|]. split; [intros s d s' b H; cbn in H; congruence|].
  split; [|split]; vm_compute; reflexivity.
Qed.
