(** C43: long repetitions are found. *)

From Verif Require Import Base ListFacts Spec SpecEncode SpecFind Engine EngineFacts Finds.

(** What an ADD of the engine may contain.  If it has 32 bytes or more in common with the
    dictionary, and these contain a whole block of the dictionary (at a multiple of
    16), then more than 16 earlier blocks of the dictionary share the slot of that
    block.  [T] is the target data before the ADD. *)
Theorem C43_dictionary_matches : forall dict look target en l l1 d l2 T i j n b,
  bytes_ok dict -> bytes_ok target -> zlen dict + zlen target <= int32_max ->
  engine_init (new_engine dict) = Some (en, true) -> engine_encode en look target = Some (Some l) ->
  l = l1 ++ Add d :: l2 -> execute_all dict [] l1 = Some T ->
  common dict i d j n b -> 32 <= n -> 16 < crowd (zlen dict) dict b.
Proof. exact found_dict. Qed.
Print Assumptions C43_dictionary_matches.

(** With target matching, the same for repetitions of earlier target data. *)
Theorem C43_target_matches : forall dict target en l l1 d l2 T i j n b,
  bytes_ok dict -> bytes_ok target -> zlen dict + zlen target <= int32_max ->
  engine_init (new_engine dict) = Some (en, true) -> engine_encode en true target = Some (Some l) ->
  l = l1 ++ Add d :: l2 -> execute_all dict [] l1 = Some T ->
  common target i d j n b -> i < zlen T + j -> 32 <= n -> 16 < crowd (zlen target) target b.
Proof. exact found_target. Qed.
Print Assumptions C43_target_matches.

(** A dictionary of at most 17 blocks has no crowded slot: no ADD contains 47 bytes of it. *)
Theorem C43_small_dictionary : forall dict look target en l d i j s,
  bytes_ok dict -> bytes_ok target -> target <> [] -> zlen dict < 288 -> zlen target <= 2147483000 ->
  engine_init (new_engine dict) = Some (en, true) -> engine_encode en look target = Some (Some l) -> In (Add d) l ->
  slice dict i 47 = Some s -> slice d j 47 = Some s -> False.
Proof.
  intros dict look target en l d i j s BD BT NE LD LT EI EE IN S1 S2. unfold int32_max in *.
  destruct (in_split _ _ IN) as (l1 & l2 & ->).
  assert (exists T, execute_all dict [] l1 = Some T) as (T & X).
  { destruct (engine_init_ok dict BD) as (en' & EI' & EN); [unfold int32_max; lia|]. rewrite EI in EI'. injection EI' as <-.
    destruct (engine_encode_ok en dict look target EN BT NE) as (l' & EE' & GP); [unfold int32_max; lia|].
    rewrite EE in EE'. injection EE' as <-. apply genuine_plan_execute in GP. clear - GP. revert GP. generalize (@nil Z).
    induction l1 as [|x l1 IH]; intros T0 GP; cbn [app execute_all] in *; [eauto|].
    destruct (execute dict T0 x) as [T1|]; [|discriminate]. eapply IH; eauto. }
  destruct (slice_inv _ _ _ _ _ S1) as (A1 & A2 & A3 & A4 & A5).
  set (b := (i + 15) / 16).
  assert (16 * b <= i + 15 < 16 * b + 16) as BB.
  { unfold b. pose proof (Z.div_mod (i + 15) 16 ltac:(lia)). pose proof (Z.mod_pos_bound (i + 15) 16 ltac:(lia)). lia. }
  clearbody b.
  assert (16 < crowd (zlen dict) dict b) as C.
  { eapply (found_dict dict look target en _ l1 d l2 T i j 47 b); eauto; [unfold int32_max; lia|].
    split; [exists s; auto|]. split; lia. }
  pose proof (crowd_le (zlen dict) dict b ltac:(lia)). lia.
Qed.
Print Assumptions C43_small_dictionary.

(** 20 different blocks whose bytes have the same sum.  In an index with at most 256
    slots the slot of a block depends only on the sum of its bytes, since the
    multiplier 257 of the hash is 1 modulo 256. *)
Definition crowded_dict : list Z :=
  concat (map (fun k => [k; 40 - k] ++ zrepeat 7 14) [1;2;3;4;5;6;7;8;9;10;11;12;13;14;15;16;17;18;19;20]).

Definition instructions_for (dict : list Z) (look : bool) (target : list Z) : option (list instruction) :=
  match engine_init (new_engine dict) with
  | Some (en, true) => match engine_encode en look target with Some (Some l) => Some l | _ => None end
  | _ => None
  end.

(** Without the condition on crowded slots the claim is false: the last 47 bytes of
    this dictionary of 320 bytes are encoded as new data. *)
Theorem C43_every_match_refuted : exists dict target,
  bytes_ok dict /\ zlen target = 47 /\ slice dict 273 47 = Some target /\
  instructions_for dict true target = Some [Add target].
Proof.
  exists crowded_dict, (zdrop 273 crowded_dict).
  split; [apply bytes_okb_ok; vm_compute; reflexivity|]. split; [vm_compute; reflexivity|]. split; vm_compute; reflexivity.
Qed.
Print Assumptions C43_every_match_refuted.

(** The first theorem applied to this case: all its hypotheses hold. *)
Example C43_dictionary_case :
  instructions_for crowded_dict true (zdrop 273 crowded_dict) = Some ([] ++ Add (zdrop 273 crowded_dict) :: []) /\
  execute_all crowded_dict [] [] = Some [] /\
  common crowded_dict 273 (zdrop 273 crowded_dict) 0 47 18 /\ crowd (zlen crowded_dict) crowded_dict 18 = 18.
Proof.
  split; [vm_compute; reflexivity|]. split; [reflexivity|]. split; [|vm_compute; reflexivity].
  split; [exists (zdrop 273 crowded_dict); split; vm_compute; reflexivity|]. split; lia.
Qed.

(** The second theorem: the same blocks as the target, with their last 47 bytes once more. *)
Example C43_target_case :
  match instructions_for [] true (crowded_dict ++ zdrop 273 crowded_dict) with
  | Some [Add d] => d = crowded_dict ++ zdrop 273 crowded_dict /\
      common d 273 d 320 47 18 /\ 273 < zlen (@nil Z) + 320 /\ crowd (zlen d) d 18 = 18
  | _ => False
  end.
Proof.
  vm_compute. split; [reflexivity|].
  split; [split; [eexists; split; reflexivity|split; discriminate]|]. split; reflexivity.
Qed.

(** The third: an ADD beside a COPY of all of a dictionary of 60 bytes, found although it is not at a block boundary in the target. *)
Example C43_small_case :
  let dict := map (fun k => k * k mod 251) [0;1;2;3;4;5;6;7;8;9;10;11;12;13;14;15;16;17;18;19;20;21;22;23;24;25;26;27;28;29;30;31;32;33;34;35;36;37;38;39;40;41;42;43;44;45;46;47;48;49;50;51;52;53;54;55;56;57;58;59] in
  instructions_for dict false ([9;9;9] ++ zdrop 5 dict ++ [1;2]) = Some [Add [9;9;9]; Copy 5 55; Add [1;2]].
Proof. vm_compute. reflexivity. Qed.
