(** The streaming encoder with any writer: proofs. *)

From Verif Require Import Base ListFacts Spec SpecEncode CodeTable EncodeTable JsonWriter Adler AdlerFacts Engine EngineFacts Encoder EncoderFacts EncoderCalls Writers SpecWriters.
From Coq Require Import ZifyBool ZifyNat.

Record ginv {S} (e : gencoder S) (dict : list Z) (fl : flags) (look on : bool) : Prop := {
  gi_engine : engine_ok (ge_engine e) dict;
  gi_flags : ge_flags e = fl;
  gi_look : ge_look e = look;
  gi_on : ge_allowed e = on
}.

Lemma ginv_set : forall S (e : gencoder S) dict fl look on s b, ginv e dict fl look on -> ginv (ge_set e s b) dict fl look b.
Proof. intros S e dict fl look on s b [A1 A2 A3 A4]. constructor; auto. Qed.

Lemma engine_empty : forall en look, engine_encode en look [] = Some None.
Proof. intros en look. unfold engine_encode. destruct (en_hash en); reflexivity. Qed.

Lemma made_app : forall S (k : writer_class S) s l1 s1 o1 l2 s2 ok o2, made k s l1 s1 true o1 -> made k s1 l2 s2 ok o2 ->
  made k s (l1 ++ l2) s2 ok (o1 ++ o2).
Proof.
  intros S k s l1 s1 o1 l2 s2 ok o2 M. remember true as t eqn:T. revert s2 ok o2 l2. induction M as [s|s c s' o E|s c s1 o1 l s1' ok1 o1' E M IH]; intros s2 ok o2 l2 M2.
  - exact M2.
  - discriminate T.
  - rewrite <- app_assoc. cbn [app]. eapply made_true; [exact E|]. apply IH; auto.
Qed.

Lemma g_calls_made : forall S (k : writer_class S) l s s', g_calls k s l = Some s' -> made k s (map WInstruction l) s' true [].
Proof.
  intros S k. induction l as [|i l IH]; intros s s' H; cbn [g_calls] in H; [injection H as <-; constructor|].
  destruct (k_call k s i) as [s1|] eqn:E; [|discriminate]. cbn [map]. change (@nil Z) with (@nil Z ++ []). apply (made_true k s _ s1 []).
  - cbn [one_call]. rewrite E. reflexivity.
  - apply IH. exact H.
Qed.

Lemma made_one : forall S (k : writer_class S) s c s' o, one_call k s c = Some (s', true, o) -> made k s [c] s' true o.
Proof. intros S k s c s' o H. rewrite <- (app_nil_r o). eapply made_true; [exact H|constructor]. Qed.

Definition gcall_fits (dict : list Z) (c : ecall) : Prop :=
  match c with EChunk data => bytes_ok data /\ zlen dict + zlen data <= int32_max | _ => True end.

Lemma g_do_ok : forall S (k : writer_class S) e dict fl look on c e' ok out calls,
  ginv e dict fl look on -> gcall_fits dict c -> g_do k e c = Some (e', ok, out, calls) ->
  ginv e' dict fl look (now_on on c ok) /\ calls_for dict fl look on c ok calls /\
  exists r, made k (ge_state e) calls (ge_state e') r out /\ (ok = r \/ ok = false /\ on = false /\ calls = []).
Proof.
  intros S k e dict fl look on c e' ok out calls GI F H. pose proof GI as [EN FL LO ON].
  assert (en_dict (ge_engine e) = dict) as ED by (destruct EN as (X & _); exact X).
  destruct c as [|data|]; cbn [g_do] in H.
  - unfold g_start in H. rewrite ED in H. destruct (k_init k (ge_state e) (zlen dict)) as [[s1 [|]]|] eqn:E1; [| |discriminate].
    + assert (one_call k (ge_state e) (WInit (zlen dict)) = Some (s1, true, [])) as O1 by (cbn [one_call]; rewrite E1; reflexivity).
      destruct (k_verify_dictionary k s1 dict) as [[s2 [|]]|] eqn:E2; [| |discriminate].
      * assert (one_call k s1 (WVerifyDictionary dict) = Some (s2, true, [])) as O2 by (cbn [one_call]; rewrite E2; reflexivity).
        destruct (k_header k s2 (ge_flags e)) as [[s3 o]|] eqn:E3; [|discriminate]. injection H as <- <- <- <-. rewrite FL in *.
        split; [eapply ginv_set; eauto|]. split; [constructor|]. exists true. split; [|left; reflexivity].
        apply (made_true k _ _ s1 [] _ _ true o O1). apply (made_true k _ _ s2 [] _ _ true o O2). apply made_one. cbn [one_call]. rewrite E3. reflexivity.
      * injection H as <- <- <- <-. rewrite ON. split; [eapply ginv_set; eauto|]. split; [constructor|]. exists false. split; [|left; reflexivity].
        apply (made_true k _ _ s1 [] _ _ false [] O1). apply made_false. cbn [one_call]. rewrite E2. reflexivity.
    + injection H as <- <- <- <-. rewrite ON. split; [eapply ginv_set; eauto|]. split; [constructor|]. exists false. split; [|left; reflexivity].
      apply made_false. cbn [one_call]. rewrite E1. reflexivity.
  - destruct F as (B & L). unfold g_chunk in H. rewrite ON in H. destruct on; cbn [negb] in H.
    2:{ injection H as <- <- <- <-. split; [exact GI|]. split; [constructor|]. exists true. split; [constructor|]. right. auto. }
    destruct (k_verify_chunk k (ge_state e) data) as [[s1 [|]]|] eqn:E1; [| |discriminate].
    2:{ injection H as <- <- <- <-. split; [eapply ginv_set; eauto|]. split; [constructor|]. exists false. split; [|left; reflexivity].
        apply made_false. cbn [one_call]. rewrite E1. reflexivity. }
    assert (one_call k (ge_state e) (WVerifyChunk data) = Some (s1, true, [])) as O1 by (cbn [one_call]; rewrite E1; reflexivity).
    rewrite FL in H. rewrite (compute_adler32_ok data B) in H.
    set (c2 := if fl_checksum fl then [WChecksum (adler_sum 0 data)] else []) in *.
    destruct (if fl_checksum fl then k_checksum k s1 (adler_sum 0 data) else Some s1) as [s2|] eqn:E2; [|discriminate].
    assert (made k s1 c2 s2 true []) as M2.
    { subst c2. destruct (fl_checksum fl); [|injection E2 as <-; constructor]. apply made_one. cbn [one_call]. rewrite E2. reflexivity. }
    assert (data = [] \/ data <> []) as [D | NE] by (destruct data; [left; reflexivity|right; discriminate]).
    + subst data. rewrite engine_empty in H. injection H as <- <- <- <-. split; [eapply ginv_set; eauto|]. split; [apply for_chunk_empty|].
      exists true. split; [|left; reflexivity]. apply (made_true k _ _ s1 [] _ _ true [] O1). exact M2.
    + destruct (engine_encode_ok _ dict look data EN B NE L) as (l & EGE & GP). rewrite LO, EGE in H.
      destruct (g_calls k s2 l) as [s3|] eqn:E3; [|discriminate]. destruct (k_output k s3) as [[s4 o]|] eqn:E4; [|discriminate].
      injection H as <- <- <- <-. split; [eapply ginv_set; eauto|]. split; [apply for_chunk; auto|].
      exists true. split; [|left; reflexivity]. apply (made_true k _ _ s1 [] _ _ true o O1).
      apply (made_app S k s1 c2 s2 [] _ s4 true o M2). apply (made_app S k s2 _ s3 [] _ s4 true o (g_calls_made _ _ _ _ _ E3)).
      apply made_one. cbn [one_call]. rewrite E4. reflexivity.
  - unfold g_finish in H. rewrite ON in H. destruct on; cbn [negb] in H.
    2:{ injection H as <- <- <- <-. split; [exact GI|]. split; [constructor|]. exists true. split; [constructor|]. right. auto. }
    destruct (k_finish k (ge_state e)) as [[s o]|] eqn:E1; [|discriminate]. injection H as <- <- <- <-.
    split; [eapply ginv_set; eauto|]. split; [constructor|]. exists true. split; [|left; reflexivity]. apply made_one. cbn [one_call]. rewrite E1. reflexivity.
Qed.

Lemma g_session_ok : forall S (k : writer_class S) l e dict fl look on e' rs,
  ginv e dict fl look on -> Forall (gcall_fits dict) l -> g_session k e l = Some (e', rs) ->
  calls_for_all dict fl look on l rs /\ ginv e' dict fl look (started on (combine l (map (fun r => fst (fst r)) rs))).
Proof.
  intros S k. induction l as [|c l IH]; intros e dict fl look on e' rs GI F H; cbn [g_session] in H.
  - injection H as <- <-. split; [constructor|]. exact GI.
  - destruct (g_do k e c) as [[[[e1 ok] out] calls]|] eqn:E; [|discriminate]. destruct (g_session k e1 l) as [[e2 rs2]|] eqn:E2; [|discriminate].
    injection H as <- <-. inversion F as [|x y F1 F2]; subst x y.
    destruct (g_do_ok _ _ _ _ _ _ _ _ _ _ _ _ GI F1 E) as (GI1 & CF & _). destruct (IH _ _ _ _ _ _ _ GI1 F2 E2) as (CA & GI2).
    split; [constructor; auto|]. cbn [map fst combine started]. destruct c, ok; exact GI2.
Qed.

Lemma g_calls_total : forall S (k : writer_class S), never_undefined k -> forall l s, g_calls k s l <> None.
Proof.
  intros S k T. induction l as [|i l IH]; intros s; cbn [g_calls]; [discriminate|].
  pose proof (T s (WInstruction i)) as TI. cbn [one_call] in TI. destruct (k_call k s i); [apply IH|]. exfalso. apply TI. reflexivity.
Qed.

Lemma g_do_total : forall S (k : writer_class S) e dict fl look on c, never_undefined k -> ginv e dict fl look on -> gcall_fits dict c -> g_do k e c <> None.
Proof.
  intros S k e dict fl look on c T [EN FL LO ON] F.
  destruct c as [|data|]; cbn [g_do].
  - unfold g_start. pose proof (T (ge_state e) (WInit (zlen (en_dict (ge_engine e))))) as T1. cbn [one_call] in T1.
    destruct (k_init k _ _) as [[s1 [|]]|]; [|discriminate|intros _; exact (T1 eq_refl)].
    pose proof (T s1 (WVerifyDictionary (en_dict (ge_engine e)))) as T2. cbn [one_call] in T2.
    destruct (k_verify_dictionary k _ _) as [[s2 [|]]|]; [|discriminate|intros _; exact (T2 eq_refl)].
    pose proof (T s2 (WHeader (ge_flags e))) as T3. cbn [one_call] in T3. destruct (k_header k _ _) as [[s3 o]|]; [discriminate|intros _; exact (T3 eq_refl)].
  - unfold g_chunk. destruct (negb (ge_allowed e)); [discriminate|].
    pose proof (T (ge_state e) (WVerifyChunk data)) as T1. cbn [one_call] in T1.
    destruct (k_verify_chunk k _ _) as [[s1 [|]]|]; [|discriminate|intros _; exact (T1 eq_refl)].
    destruct (if fl_checksum (ge_flags e) then k_checksum k s1 (compute_adler32 data) else Some s1) as [s2|] eqn:E2.
    2:{ destruct (fl_checksum (ge_flags e)); [|discriminate E2]. pose proof (T s1 (WChecksum (compute_adler32 data))) as T2. cbn [one_call] in T2. rewrite E2 in T2. intros _. exact (T2 eq_refl). }
    destruct F as (B & L). destruct data as [|b data0] eqn:D; [rewrite engine_empty; discriminate|]. rewrite <- D in *.
    destruct (engine_encode_ok _ dict (ge_look e) data EN B) as (l & -> & _); [congruence|exact L|].
    pose proof (g_calls_total S k T l s2) as T3. destruct (g_calls k s2 l) as [s3|]; [|congruence].
    pose proof (T s3 WOutput) as T4. cbn [one_call] in T4. destruct (k_output k s3) as [[s4 o]|]; [discriminate|intros _; exact (T4 eq_refl)].
  - unfold g_finish. destruct (negb (ge_allowed e)); [discriminate|].
    pose proof (T (ge_state e) WFinish) as T4. cbn [one_call] in T4. destruct (k_finish k _) as [[s4 o]|]; [discriminate|intros _; exact (T4 eq_refl)].
Qed.

Lemma g_session_total : forall S (k : writer_class S), never_undefined k -> forall l e dict fl look on,
  ginv e dict fl look on -> Forall (gcall_fits dict) l -> g_session k e l <> None.
Proof.
  intros S k T. induction l as [|c l IH]; intros e dict fl look on GI F; cbn [g_session]; [discriminate|].
  inversion F as [|x y F1 F2]; subst x y. pose proof (g_do_total _ _ _ _ _ _ _ _ T GI F1) as D.
  destruct (g_do k e c) as [[[[e1 ok] out] calls]|] eqn:E; [|congruence].
  destruct (g_do_ok _ _ _ _ _ _ _ _ _ _ _ _ GI F1 E) as (GI1 & _).
  pose proof (IH _ _ _ _ _ GI1 F2) as D2. destruct (g_session k e1 l) as [[e2 rs]|]; [discriminate|congruence].
Qed.

Lemma with_writer_ok : forall S dict fl look (s : S), bytes_ok dict -> zlen dict <= int32_max ->
  exists e, encoder_with_writer dict fl look s = Some e /\ ginv e dict fl look false /\ ge_state e = s.
Proof.
  intros S dict fl look s B L. destruct (engine_init_ok dict B L) as (en & EI & EN). unfold encoder_with_writer. rewrite EI.
  exists (ge_new en fl look s). split; [reflexivity|]. split; [constructor; [exact EN|reflexivity..]|reflexivity].
Qed.

(** ** The writers of the library *)

Definition gen_of (e : encoder) : gencoder coder :=
  {| ge_engine := ec_engine e; ge_state := ec_coder e; ge_flags := ec_flags e; ge_look := ec_look e; ge_allowed := ec_allowed e |}.

Lemma library_calls : forall l c, g_calls library_writer c l = coder_calls c l.
Proof.
  induction l as [|i l IH]; intros c; cbn [g_calls].
  - destruct c; reflexivity.
  - cbn [library_writer k_call]. destruct c as [w|j]; cbn [coder_calls writer_calls fold_left].
    + destruct (writer_call w i) as [w1|]; [|reflexivity]. rewrite IH. reflexivity.
    + rewrite IH. reflexivity.
Qed.

Lemma library_do : forall c e, 
  do_ecall e c = match g_do library_writer (gen_of e) c with
                 | Some (e', ok, out, _) => Some ({| ec_engine := ge_engine e'; ec_coder := ge_state e'; ec_flags := ge_flags e'; ec_look := ge_look e'; ec_allowed := ge_allowed e' |}, ok, out)
                 | None => None
                 end.
Proof.
  intros c e. destruct c as [|data|]; cbn [do_ecall g_do].
  - unfold start_encoding, g_start. cbn [gen_of ge_engine ge_state ge_flags ge_allowed library_writer k_init k_verify_dictionary k_header].
    destruct (coder_init (ec_coder e) (zlen (en_dict (ec_engine e)))) as [[c [|]]|]; [|reflexivity..].
    destruct (coder_verify c (en_dict (ec_engine e))); reflexivity.
  - unfold encode_chunk, g_chunk. cbn [gen_of ge_engine ge_state ge_flags ge_allowed ge_look library_writer k_verify_chunk k_checksum k_output].
    destruct (ec_allowed e) eqn:A; cbn [negb]; [|destruct e; cbn in *; subst; reflexivity].
    destruct (coder_verify (ec_coder e) data); cbn [negb]; [|destruct e; cbn in *; subst; reflexivity].
    destruct (fl_checksum (ec_flags e)).
    all: destruct (engine_encode (ec_engine e) (ec_look e) data) as [[l|]|]; [|reflexivity..]; rewrite library_calls;
      match goal with |- context [coder_calls ?x l] => destruct (coder_calls x l) as [c1|]; [|reflexivity] end;
      destruct (coder_output c1) as [[c2 out]|]; reflexivity.
  - unfold finish_encoding, g_finish. cbn [gen_of ge_engine ge_state ge_flags ge_allowed ge_look library_writer k_finish].
    destruct (ec_allowed e) eqn:A; cbn [negb]; [reflexivity|]. destruct e; cbn in *; subst; reflexivity.
Qed.

Lemma library_session : forall l e,
  option_map snd (do_ecalls e l) = option_map (fun x => map fst (snd x)) (g_session library_writer (gen_of e) l).
Proof.
  induction l as [|c l IH]; intros e; [reflexivity|]. cbn [do_ecalls g_session]. rewrite library_do.
  destruct (g_do library_writer (gen_of e) c) as [[[[e1 ok] out] w]|]; [|reflexivity].
  specialize (IH {| ec_engine := ge_engine e1; ec_coder := ge_state e1; ec_flags := ge_flags e1; ec_look := ge_look e1; ec_allowed := ge_allowed e1 |}).
  replace (gen_of _) with e1 in IH by (destruct e1; reflexivity).
  destruct (do_ecalls _ l) as [[e2 rs]|], (g_session library_writer e1 l) as [[e3 rs3]|]; cbn [option_map snd] in *; try discriminate IH; [|reflexivity].
  injection IH as ->. reflexivity.
Qed.

(** ** The pattern of the calls *)

Lemma pattern_app : forall l1 b l2, pattern b l1 = true -> pattern false l2 = true -> pattern b (l1 ++ l2) = true.
Proof.
  induction l1 as [|c l1 IH]; intros b l2 H1 H2; cbn [app pattern] in *; [destruct b; [discriminate H1|exact H2]|].
  destruct c; try (apply IH; assumption); apply andb_true_iff in H1; destruct H1 as (H1 & H3); apply andb_true_iff; split; auto.
Qed.

Lemma pattern_instructions : forall l b, pattern b (map WInstruction l ++ [WOutput]) = true.
Proof. induction l as [|i l IH]; intros b; cbn [map app pattern]; [reflexivity|apply IH]. Qed.

Lemma pattern_for : forall dict fl look on c ok calls, calls_for dict fl look on c ok calls -> pattern false calls = true.
Proof.
  intros dict fl look on c ok calls H. destruct H; try reflexivity.
  - cbn [pattern]. destruct (fl_checksum fl); reflexivity.
  - cbn [pattern]. destruct (fl_checksum fl); cbn [app pattern]; rewrite pattern_instructions; reflexivity.
Qed.

Lemma pattern_for_all : forall dict fl look on l rs, calls_for_all dict fl look on l rs -> pattern false (flat_map snd rs) = true.
Proof.
  intros dict fl look on l rs H. induction H as [on|on c ok out calls l rs CF CA IH]; [reflexivity|]. cbn [flat_map snd].
  apply pattern_app; [eapply pattern_for; eauto|exact IH].
Qed.

(** ** Replies that do not change *)

Definition replies_fixed {S} (k : writer_class S) (ri : Z -> bool) (rd : list Z -> bool) : Prop :=
  (forall s n s' b, k_init k s n = Some (s', b) -> b = ri n) /\ (forall s d s' b, k_verify_dictionary k s d = Some (s', b) -> b = rd d).

Lemma fixed_start : forall S (k : writer_class S) ri rd e e' ok out calls, replies_fixed k ri rd -> g_start k e = Some (e', ok, out, calls) ->
  ok = ri (zlen (en_dict (ge_engine e))) && rd (en_dict (ge_engine e)) /\ (ok = false -> out = [] /\ ge_allowed e' = ge_allowed e) /\ ge_engine e' = ge_engine e.
Proof.
  intros S k ri rd e e' ok out calls (RI & RD) H. unfold g_start in H.
  destruct (k_init k _ _) as [[s1 [|]]|] eqn:E1; [| |discriminate]; rewrite <- (RI _ _ _ _ E1).
  - destruct (k_verify_dictionary k _ _) as [[s2 [|]]|] eqn:E2; [| |discriminate]; rewrite <- (RD _ _ _ _ E2).
    + destruct (k_header k _ _) as [[s3 o]|]; [|discriminate]. injection H as <- <- <- <-. split; [reflexivity|]. split; [discriminate|reflexivity].
    + injection H as <- <- <- <-. auto.
  - injection H as <- <- <- <-. auto.
Qed.

Lemma fixed_all_false : forall S (k : writer_class S) ri rd, replies_fixed k ri rd -> forall l e e' rs,
  ge_allowed e = false -> ri (zlen (en_dict (ge_engine e))) && rd (en_dict (ge_engine e)) = false -> g_session k e l = Some (e', rs) ->
  Forall (fun r => fst r = (false, [])) rs.
Proof.
  intros S k ri rd RF. induction l as [|c l IH]; intros e e' rs A R H; cbn [g_session] in H; [injection H as <- <-; constructor|].
  destruct (g_do k e c) as [[[[e1 ok] out] calls]|] eqn:E; [|discriminate]. destruct (g_session k e1 l) as [[e2 rs2]|] eqn:E2; [|discriminate].
  injection H as <- <-. destruct c as [|data|]; cbn [g_do] in E.
  - destruct (fixed_start _ _ _ _ _ _ _ _ _ RF E) as (O & F & EN). rewrite R in O. subst ok. destruct (F eq_refl) as (-> & A1).
    constructor; [reflexivity|]. apply (IH e1 e2); [congruence|rewrite EN; exact R|exact E2].
  - unfold g_chunk in E. rewrite A in E. cbn [negb] in E. injection E as <- <- <- <-. constructor; [reflexivity|]. apply (IH e e2); assumption.
  - unfold g_finish in E. rewrite A in E. cbn [negb] in E. injection E as <- <- <- <-. constructor; [reflexivity|]. apply (IH e e2); assumption.
Qed.

Lemma fixed_no_failure : forall S (k : writer_class S) ri rd, replies_fixed k ri rd -> forall l e e' rs o,
  ri (zlen (en_dict (ge_engine e))) && rd (en_dict (ge_engine e)) = true -> g_session k e l = Some (e', rs) -> ~ In (EStart, (false, o)) (combine l (map fst rs)).
Proof.
  intros S k ri rd RF. induction l as [|c l IH]; intros e e' rs o R H; cbn [g_session] in H; [injection H as <- <-; intros []|].
  destruct (g_do k e c) as [[[[e1 ok] out] calls]|] eqn:E; [|discriminate]. destruct (g_session k e1 l) as [[e2 rs2]|] eqn:E2; [|discriminate].
  injection H as <- <-. cbn [map fst combine]. assert (ge_engine e1 = ge_engine e) as EN.
  { destruct c as [|data|]; cbn [g_do] in E; [destruct (fixed_start _ _ _ _ _ _ _ _ _ RF E) as (_ & _ & EN); exact EN| |].
    - unfold g_chunk in E. destruct (negb (ge_allowed e)); [injection E as <- _ _ _; reflexivity|].
      destruct (k_verify_chunk k _ _) as [[s1 [|]]|]; [| |discriminate]; [|injection E as <- _ _ _; reflexivity].
      destruct (if fl_checksum (ge_flags e) then _ else _) as [s2|]; [|discriminate].
      destruct (engine_encode _ _ _) as [[ins|]|]; [| |discriminate]; [|injection E as <- _ _ _; reflexivity].
      destruct (g_calls k s2 ins) as [s3|]; [|discriminate]. destruct (k_output k s3) as [[s4 oo]|]; [|discriminate]. injection E as <- _ _ _. reflexivity.
    - unfold g_finish in E. destruct (negb (ge_allowed e)); [injection E as <- _ _ _; reflexivity|].
      destruct (k_finish k _) as [[s1 oo]|]; [|discriminate]. injection E as <- _ _ _. reflexivity. }
  intros [IN | IN]; [|rewrite <- EN in R; exact (IH e1 e2 rs2 o R E2 IN)].
  assert (c = EStart) as -> by congruence. assert (ok = false) as OK by congruence. cbn [g_do] in E.
  destruct (fixed_start _ _ _ _ _ _ _ _ _ RF E) as (O & _). congruence.
Qed.
