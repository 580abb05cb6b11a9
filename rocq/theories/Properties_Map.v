(** C62: whether a code table that Validate accepts can be used for encoding.

    [make_map t m]: the constructor of VCDiffInstructionMap, [None] when it accesses memory
    outside the arrays that it has allocated.  [tget (inst1 t) op]: the type of the first
    instruction of the entry [op] of the table (0 is NOOP), and so on. *)

From Verif Require Import Base Spec AddrCache CodeTable CodeTableFacts InstructionMap InstructionMapFacts EncodeTable MapTotal.
From Coq Require Import ZifyBool ZifyNat.

(** For a table that Validate accepts, the constructor stays inside its arrays exactly if
    every entry with a NOOP before its instruction has a size which is not above all sizes
    of first instructions.  Missing for the full claim: the other tables, for which it is
    false. *)
Theorem C62_partial : forall t m, table_ok t -> 0 <= m <= 255 -> validate t m = Some true ->
  (make_map t m <> None <->
   forall op, 0 <= op < 256 -> tget (inst1 t) op = 0 -> tget (inst2 t) op <> 0 ->
     exists op', 0 <= op' < 256 /\ tget (size2 t) op <= tget (size1 t) op').
Proof. intros t m T M V. pose proof (make_map_total t m T M V) as H. unfold byte_ok in H. exact H. Qed.
Print Assumptions C62_partial.

(** The default code table with the last entry replaced by "NOOP, ADD of 200 bytes". *)
Definition set_last (l : list Z) (x : Z) : list Z := firstn 255 l ++ [x].
Definition late_add : table :=
  {| inst1 := set_last (inst1 default_table) 0; inst2 := set_last (inst2 default_table) 1;
     size1 := set_last (size1 default_table) 0; size2 := set_last (size2 default_table) 200;
     mode1 := set_last (mode1 default_table) 0; mode2 := set_last (mode2 default_table) 0 |}.

Definition array_okb (l : list Z) : bool := (length l =? 256)%nat && bytes_okb l.
Lemma array_okb_ok : forall l, array_okb l = true -> array_ok l.
Proof.
  intros l H. unfold array_okb in H. apply andb_true_iff in H as [A B]. apply Nat.eqb_eq in A. split; [exact A|]. apply bytes_okb_ok. exact B.
Qed.
Lemma late_add_ok : table_ok late_add.
Proof.
  split; [|split; [|split; [|split; [|split]]]]; apply array_okb_ok; reflexivity.
Qed.

(** Validate accepts it (as does the decoder, which uses no instruction map), but making
    the map for encoding accesses memory outside an array. *)
Theorem C62_refuted : exists t, table_ok t /\ validate t 8 = Some true /\ make_map t 8 = None.
Proof.
  exists late_add. split; [exact late_add_ok|]. assert (validate late_add 8 = Some true) as V by (vm_compute; reflexivity). split; [exact V|].
  destruct (make_map late_add 8) as [im|] eqn:E; [exfalso|reflexivity].
  assert (make_map late_add 8 <> None) as N by congruence. apply (C62_partial late_add 8 late_add_ok) in V; [|lia].
  destruct (proj1 V N 255) as (op & B & L); [lia|reflexivity|discriminate|].
  change (tget (size2 late_add) 255) with 200 in L. assert (forallb (fun x => x <? 200) (size1 late_add) = true) as A by (vm_compute; reflexivity).
  rewrite forallb_forall in A. assert (In (tget (size1 late_add) op) (size1 late_add)) as I by (apply tget_in; [apply late_add_ok|unfold byte_ok; lia]).
  apply A in I. lia.
Qed.
Print Assumptions C62_refuted.

(** The writer does not call Validate: with a table that has no instructions at all Init
    succeeds, and an ADD is written as its data without an opcode. *)
Definition no_table : table :=
  {| inst1 := zrepeat 0 256; inst2 := zrepeat 0 256; size1 := zrepeat 0 256; size2 := zrepeat 0 256;
     mode1 := zrepeat 0 256; mode2 := zrepeat 0 256 |}.
Theorem C62_unchecked : exists t w w1, table_ok t /\ validate t 8 = Some false /\
  writer_init (new_custom_writer false 4 3 t 8) 0 = Some (w, true) /\
  writer_add w [65; 66] = Some w1 /\ wr_inst w1 = [] /\ wr_data w1 = [65; 66].
Proof.
  exists no_table. do 2 eexists.
  split; [split; [|split; [|split; [|split; [|split]]]]; apply array_okb_ok; reflexivity|].
  split; [vm_compute; reflexivity|]. split; [vm_compute; reflexivity|]. split; [vm_compute; reflexivity|]. split; reflexivity.
Qed.
Print Assumptions C62_unchecked.

(** ** Cases *)

(** The default code table, and the table above with ADD of 18 bytes, the largest size of a
    first instruction. *)
Definition last_add (n : Z) : table :=
  {| inst1 := inst1 late_add; inst2 := inst2 late_add; size1 := size1 late_add; size2 := set_last (size2 default_table) n;
     mode1 := mode1 late_add; mode2 := mode2 late_add |}.
Example C62_case : table_ok default_table /\ validate default_table 8 = Some true /\ make_map default_table 8 <> None /\
  table_ok (last_add 18) /\ validate (last_add 18) 8 = Some true /\ make_map (last_add 18) 8 <> None /\ last_add 200 = late_add.
Proof.
  assert (table_ok default_table) as T0 by (split; [|split; [|split; [|split; [|split]]]]; apply array_okb_ok; reflexivity).
  assert (table_ok (last_add 18)) as T1 by (split; [|split; [|split; [|split; [|split]]]]; apply array_okb_ok; reflexivity).
  assert (validate default_table 8 = Some true) as V0 by (vm_compute; reflexivity).
  assert (validate (last_add 18) 8 = Some true) as V1 by (vm_compute; reflexivity).
  assert (forall t, table_ok t -> validate t 8 = Some true -> existsb (fun x => 18 <=? x) (size1 t) = true ->
    forallb (fun op => negb (tget (inst1 t) op =? 0) || (tget (size2 t) op <=? 18)) opcodes = true -> make_map t 8 <> None) as K.
  { intros t T V E F. apply (C62_partial t 8 T); [lia|exact V|]. intros op B I1 I2. apply existsb_exists in E as (x & IX & LX).
    destruct T as (_ & _ & T3 & _). destruct (in_tget _ _ T3 IX) as (o & BO & <-). exists o. split; [exact BO|].
    rewrite forallb_forall in F. specialize (F op (proj2 (opcodes_in op) B)). rewrite I1 in F. cbn [Z.eqb negb orb] in F. lia. }
  split; [exact T0|]. split; [exact V0|]. split; [apply K; auto; vm_compute; reflexivity|].
  split; [exact T1|]. split; [exact V1|]. split; [apply K; auto; vm_compute; reflexivity|reflexivity].
Qed.
