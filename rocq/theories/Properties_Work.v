(** C45: the encoder's search takes time linear in the size of the input. *)

From Verif Require Import Base ListFacts Spec SpecEncode RollingHash BlockHash Engine EngineFacts Encoder EncodeTable EncoderFacts EncoderCalls Properties_Encode EncodeCount.
From Coq Require Import ZifyBool ZifyNat.

Lemma do_ecalls_engine : forall l e e' rs, do_ecalls e l = Some (e', rs) -> ec_engine e' = ec_engine e /\ ec_look e' = ec_look e.
Proof.
  induction l as [|c l IH]; intros e e' rs E; cbn [do_ecalls] in E; [injection E as <- _; auto|].
  destruct (do_ecall e c) as [[[e1 r] o]|] eqn:E1; [|discriminate]. destruct (do_ecalls e1 l) as [[e2 rs2]|] eqn:E2; [|discriminate].
  injection E as <- _. destruct (IH _ _ _ E2) as [-> ->].
  destruct c as [|data|]; cbn [do_ecall] in E1.
  - unfold start_encoding in E1. destruct (coder_init _ _) as [[cd [|]]|]; [|injection E1 as <- _ _; auto|discriminate].
    destruct (negb _); injection E1 as <- _ _; auto.
  - unfold encode_chunk in E1. destruct (negb _); [injection E1 as <- _ _; auto|]. destruct (negb _); [injection E1 as <- _ _; auto|]. cbv zeta in E1.
    destruct (engine_encode _ _ _) as [[calls|]|]; [|injection E1 as <- _ _; auto|discriminate].
    destruct (coder_calls _ _) as [c1|]; [|discriminate]. destruct (coder_output c1) as [[c2 out]|]; [|discriminate]. injection E1 as <- _ _. auto.
  - injection E1 as E1. unfold finish_encoding in E1. destruct (negb _); injection E1 as <- _ _; auto.
Qed.

(** [init_steps dict 0 true] (EncodeCount.v) counts, for HashedDictionary::Init, the
    elements of the tables filled and the blocks added; [engine_steps], for EncodeChunk,
    the iterations of the loop over the target, the blocks compared, the bytes
    compared to extend matches, and the tables and blocks of the target's index.
    Both are bounded by the sizes of dictionary and chunk, whatever the data. *)
Theorem C45_encode_linear : forall dict fl look e l e' rs data,
  bytes_ok dict -> streaming_encoder dict fl look = Some e -> do_ecalls e l = Some (e', rs) ->
  bytes_ok data -> zlen dict + zlen data <= 2147483647 ->
  0 <= init_steps dict 0 true <= zlen dict + 3 /\
  engine_steps (ec_engine e') (ec_look e') data <= 4664 * zlen data + 3.
Proof.
  intros dict fl look e l e' rs data BD SE DC B L. pose proof (zlen_nonneg _ data). 
  split; [apply init_steps_bound; unfold int32_max; lia|].
  destruct (do_ecalls_engine _ _ _ _ DC) as [-> _].
  destruct (engine_init_ok dict BD) as (en & EI & OK); [unfold int32_max; lia|].
  unfold streaming_encoder in SE. rewrite EI in SE. injection SE as <-. cbn [new_encoder new_custom_encoder ec_engine].
  apply (engine_steps_linear en dict); [exact OK|exact B|unfold int32_max; lia].
Qed.
Print Assumptions C45_encode_linear.

(** A dictionary of 96 equal bytes and a target with one other byte in every 31:
    the worst kind of data, where every block of the dictionary matches at most positions. *)
Definition hard_dict : list Z := zrepeat 7 96.
Definition hard_target : list Z := concat (repeat (zrepeat 7 30 ++ [8]) 2).
Definition hard_steps (look : bool) : option Z :=
  match engine_init (new_engine hard_dict) with
  | Some (en, true) => Some (engine_steps en look hard_target)
  | _ => None
  end.
Example C45_case : zlen hard_target = 62 /\ hard_steps false = Some 2778 /\ hard_steps true = Some 3241.
Proof. vm_compute. auto. Qed.
