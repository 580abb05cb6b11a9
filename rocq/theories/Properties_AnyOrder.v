(** C74: the calls of a streaming decoder in any order. *)

From Verif Require Import Base ListFacts Spec CodeTable Decoder Session Reuse DecoderCalls Properties_Decode Properties_Stream.
From Coq Require Import ZifyBool ZifyNat.

Definition default_settings : dsettings := {| ds_file := 67108864; ds_window := 67108864; ds_allow := true |}.

(** Whatever calls are made, in whatever order, of a new decoder: each returns and
    appends what it would in its own session on a decoder never used before ([expect],
    DecoderCalls.v).  StartDecoding and SetAllowVcdTarget are ignored while a session is
    open; DecodeChunk and FinishDecoding fail while none is; a session ends with
    FinishDecoding or with the first DecodeChunk that returns false; the limits hold
    from when they are set.  As long as no session has been given a code table
    (C14_stale_code_table_refuted). *)
Theorem C74_any_order : forall l rs defined g, expect default_settings Closed l = (rs, defined, g) -> Forall no_code_table g ->
  dops_run new_decoder l = (rs, defined).
Proof. intros l rs defined g E F. eapply follows_run; [|exact E|exact F]. split; reflexivity. Qed.
Print Assumptions C74_any_order.

(** The same from any settings on. *)
Theorem C74_any_settings : forall s l rs defined g, expect s Closed l = (rs, defined, g) -> Forall no_code_table g ->
  dops_run (fresh s) l = (rs, defined).
Proof. intros s l rs defined g E F. eapply follows_run; [|exact E|exact F]. split; reflexivity. Qed.
Print Assumptions C74_any_settings.

(** In particular no order of calls, and no setting of the limits in the middle of a
    session, leads to undefined behaviour. *)
Definition call_ok (o : dop) : Prop :=
  match o with OStart dict => bytes_ok dict | OChunk x => bytes_ok x | _ => True end.

Definition safe (e : session) (d : dec) : Prop :=
  match e with Closed => True | Open _ _ _ => let '(Dec c _) := d in sound_core c end.

Lemma safe_step : forall s e d o, follows s e d -> safe e d -> call_ok o -> no_code_table (given e o) ->
  match dop_run d o, expected s e o with
  | Some (d', _), Some (_, e', _) => safe e' d'
  | _, _ => False
  end.
Proof.
  intros s e d o FO SF CO NC. pose proof (follows_step s e d o FO NC) as FS.
  destruct e as [|s0 dict0 calls].
  - destruct d as [c n]. destruct FO as (ST & SD). destruct o as [dict|x| |n0|n0|b]; cbn [dop_run expected call_ok] in *; try exact Logic.I.
    + cbn [start_decoding safe]. rewrite SD. split; [exact CO|]. split; [constructor|]. left. split; [reflexivity|]. split; [reflexivity|]. split; reflexivity.
    + destruct (decode_chunk (Dec c n) x); [exact Logic.I|contradiction|contradiction].
    + destruct (set_maximum_target_window_size (Dec c n) n0). destruct (2147483647 <? n0); exact Logic.I.
  - destruct FO as (c & -> & ST & SD & UN & SB). unfold stands, cfg in ST. injection ST as E1 E2 E3 E4. cbn [safe] in SF.
    assert (forall a b al p, sound_core (set_limits c a b al p)) as SL.
    { intros a b al p. destruct SF as (S1 & S2 & S3). split; [exact S1|]. split; [exact S2|]. destruct S3 as [S3|S3]; [left; exact S3|right]. destruct S3; constructor; auto. }
    destruct o as [dict|x| |n0|n0|b]; cbn [dop_run expected call_ok] in *; try exact Logic.I.
    + cbn [start_decoding safe]. rewrite SD. exact SF.
    + destruct (plain_chunk_safe c x E4 SF CO SD) as (d' & ok & out & E & SO).
      { intros N. rewrite (UN N). exact NC. }
      rewrite E in FS |- *. destruct (decode_chunk (replay s0 dict0 calls) x) as [d2 [|] o2| |]; try contradiction; [|exact Logic.I].
      destruct FS as (Q & _). destruct SO as (c' & -> & SO); [congruence|]. exact SO.
    + cbn [set_maximum_target_file_size]. apply SL.
    + cbn [set_maximum_target_window_size]. change kTargetSizeLimit with 2147483647 in *. destruct (2147483647 <? n0); [exact SF|apply SL].
    + cbn [set_allow_vcd_target safe]. rewrite SD. exact SF.
Qed.

Lemma safe_run : forall l s e d rs defined g, follows s e d -> safe e d -> Forall call_ok l -> expect s e l = (rs, defined, g) -> Forall no_code_table g ->
  defined = true /\ length rs = length l.
Proof.
  induction l as [|o l IH]; intros s e d rs defined g FO SF F E NC; cbn [expect] in E; [injection E as <- <- <-; auto|].
  inversion F as [|? ? CO F1]; subst. pose proof (safe_step s e d o FO SF CO) as ST. pose proof (follows_step s e d o FO) as FS.
  destruct (expected s e o) as [[[s' e'] r]|].
  - destruct (expect s' e' l) as [[rs1 df1] g1] eqn:E1. injection E as <- <- <-. inversion NC as [|? ? N NC1]; subst. specialize (ST N). specialize (FS N).
    destruct (dop_run d o) as [[d' r']|]; [|contradiction]. destruct FS as (-> & FO').
    destruct (IH _ _ _ _ _ _ FO' ST F1 E1 NC1) as (-> & L). split; [reflexivity|]. cbn [length]. congruence.
  - injection E as <- <- <-. inversion NC as [|? ? N NC1]; subst. specialize (ST N). destruct (dop_run d o) as [[d' r']|]; contradiction.
Qed.

Theorem C74_wrong_order_is_safe : forall s l rs defined g,
  Forall call_ok l -> expect s Closed l = (rs, defined, g) -> Forall no_code_table g ->
  exists results, dops_run (fresh s) l = (results, true) /\ length results = length l.
Proof.
  intros s l rs defined g CO E NC. exists rs. assert (follows s Closed (fresh s)) as FO by (split; reflexivity).
  destruct (safe_run l s Closed (fresh s) rs defined g FO Logic.I CO E NC) as (-> & L).
  split; [eapply C74_any_settings; eauto|exact L].
Qed.
Print Assumptions C74_wrong_order_is_safe.

(** A chunk and a FinishDecoding too early; a StartDecoding and a SetAllowVcdTarget in
    the middle of a session (with another dictionary, to no effect); a session that
    fails; then one in two chunks. *)
Example C74_case :
  let l := [OChunk hello_delta; OFinish; OMaxWindow 2147483648; OStart ex_dict; OChunk (ztake 7 hello_delta); OStart [1;2;3]; OAllow false;
            OChunk (zdrop 7 hello_delta); OFinish; OFinish; OStart ex_dict; OMaxFile 5; OChunk hello_delta; OChunk hello_delta;
            OMaxFile 6; OStart ex_dict; OChunk (ztake 12 hello_delta); OChunk (zdrop 12 hello_delta); OFinish] in
  let '(rs, defined, g) := expect default_settings Closed l in
  rs = [(false, []); (false, []); (false, []); (true, []); (true, []); (true, []); (true, []);
        (true, [104;101;108;108;111;33]); (true, []); (false, []); (true, []); (true, []); (false, []); (false, []);
        (true, []); (true, []); (true, []); (true, [104;101;108;108;111;33]); (true, [])] /\
  defined = true /\ Forall no_code_table g /\ dops_run new_decoder l = (rs, defined).
Proof.
  cbv zeta.
  match goal with |- let '(_, _) := ?X in _ => destruct X as [[rs defined] g] eqn:E end.
  assert (Forall no_code_table g) as F.
  { assert (g = snd (expect default_settings Closed _)) as -> by (rewrite E; reflexivity). clear E.
    match goal with |- Forall _ ?X => let y := eval vm_compute in X in change X with y end.
    repeat (constructor; [intros v ind tl X; try discriminate X; injection X as <- <- <-; reflexivity|]). constructor. }
  split; [|split; [|split; [exact F|exact (C74_any_order _ _ _ _ E F)]]].
  - assert (rs = fst (fst (expect default_settings Closed _))) as -> by (rewrite E; reflexivity). vm_compute. reflexivity.
  - assert (defined = snd (fst (expect default_settings Closed _))) as -> by (rewrite E; reflexivity). vm_compute. reflexivity.
Qed.
