(** Facts about code table validation (codetable.cc). *)

From Verif Require Import Base Spec AddrCache CodeTable DecodeTable.
From Coq Require Import ZifyBool ZifyNat.

Lemma opcodes_in : forall op, In op opcodes <-> byte_ok op.
Proof.
  intros op. unfold opcodes. rewrite in_map_iff. unfold byte_ok. split.
  - intros (n & <- & H). apply in_seq in H. lia.
  - intros H. exists (Z.to_nat op). split; [lia|]. apply in_seq. lia.
Qed.

(** The two halves of an entry are well formed. *)
Definition half_okb (t : table) (max_mode op : Z) : bool :=
  validate_opcode (tget (inst1 t) op) (tget (size1 t) op) (tget (mode1 t) op) max_mode &&
  validate_opcode (tget (inst2 t) op) (tget (size2 t) op) (tget (mode2 t) op) max_mode.
(** The entry is a single instruction, without size, of type plus mode [i]. *)
Definition coversb (t : table) (i op : Z) : bool :=
  (tget (size1 t) op =? 0) && (tget (inst2 t) op =? VCD_NOOP) &&
  (tget (inst1 t) op + tget (mode1 t) op =? i).

Lemma tget_byte : forall l op, array_ok l -> byte_ok op -> byte_ok (tget l op).
Proof.
  intros l op [L B] O. unfold tget. unfold bytes_ok in B. rewrite Forall_forall in B. apply B. apply nth_In. unfold byte_ok in O. lia.
Qed.

Lemma validate_fold : forall t m l has ok,
  table_ok t -> 0 <= m <= 255 -> Forall byte_ok l -> zlen has = 259 ->
  exists has', fold_left (validate_step t m) l (Some (has, ok)) = Some (has', ok && forallb (half_okb t m) l) /\
    zlen has' = 259 /\
    forall i, 0 <= i < 4 + m -> (get has' i = Some true <-> get has i = Some true \/ existsb (coversb t i) l = true).
Proof.
  intros t m l. induction l as [|op l IH]; intros has ok T M F L.
  { exists has. cbn [fold_left forallb existsb]. rewrite andb_true_r. split; [reflexivity|]. split; [exact L|].
    intros. split; auto. intros [H0|H0]; [exact H0|discriminate]. }
  inversion F as [|? ? B F']; subst.
  cbn [fold_left]. unfold validate_step at 2.
  assert (ok && forallb (half_okb t m) (op :: l) =
    (validate_opcode (tget (inst2 t) op) (tget (size2 t) op) (tget (mode2 t) op) m &&
       (validate_opcode (tget (inst1 t) op) (tget (size1 t) op) (tget (mode1 t) op) m && ok)) && forallb (half_okb t m) l) as EQ.
  { cbn [forallb]. unfold half_okb at 1. 
    destruct ok, (validate_opcode (tget (inst1 t) op) _ _ m), (validate_opcode (tget (inst2 t) op) _ _ m); reflexivity. }
  rewrite EQ. clear EQ. cbv zeta.
  match goal with |- context [?v && forallb _ l] => set (ok2 := v) end.
  destruct T as (T1 & T2 & T3 & T4 & T5 & T6).
  pose proof (tget_byte _ _ T1 B) as B1. pose proof (tget_byte _ _ T5 B) as B5. unfold byte_ok in B1, B5.
  assert (table_ok t) as T by (repeat (split; auto)).
  cbn [existsb]. unfold coversb at 1.
  destruct ((tget (size1 t) op =? 0) && (tget (inst2 t) op =? VCD_NOOP)) eqn:CB; cbn [andb].
  - destruct (Z.ltb_spec (tget (inst1 t) op + tget (mode1 t) op) (VCD_LAST_INSTRUCTION_TYPE + m + 1)) as [LT|GE].
    + destruct (put_some _ has (tget (inst1 t) op + tget (mode1 t) op) true) as [has1 P].
      { unfold VCD_LAST_INSTRUCTION_TYPE in LT. lia. }
      rewrite P. destruct (put_inv _ _ _ _ _ P) as (R & L1 & G1a & G1).
      destruct (IH has1 ok2 T M F' (eq_trans L1 L)) as (has' & E & L' & G'). exists has'. split; [exact E|]. split; [exact L'|].
      intros i Hi. rewrite G' by exact Hi. destruct (Z.eqb_spec (tget (inst1 t) op + tget (mode1 t) op) i) as [EI|NI].
      * subst i. rewrite G1a. split; auto.
      * rewrite G1 by congruence. cbn [orb]. tauto.
    + destruct (IH has ok2 T M F' L) as (has' & E & L' & G'). exists has'. split; [exact E|]. split; [exact L'|].
      intros i Hi. rewrite G' by exact Hi. unfold VCD_LAST_INSTRUCTION_TYPE in GE.
      destruct (Z.eqb_spec (tget (inst1 t) op + tget (mode1 t) op) i) as [EI|NI]; [lia|]. cbn [orb]. tauto.
  - destruct (IH has ok2 T M F' L) as (has' & E & L' & G'). exists has'. split; [exact E|]. split; [exact L'|].
    intros i Hi. rewrite G' by exact Hi. cbn [orb]. tauto.
Qed.

Lemma validate_eq : forall t m, table_ok t -> 0 <= m <= 255 ->
  exists b, validate t m = Some b /\
    (b = true <-> (forall op, byte_ok op -> half_okb t m op = true) /\
                  (forall i, 1 <= i < 4 + m -> exists op, byte_ok op /\ coversb t i op = true)).
Proof.
  intros t m T M. unfold validate.
  destruct (validate_fold t m opcodes (zrepeat false 259) true T M) as (has & E & L & G).
  { apply Forall_forall. intros x Hx. apply opcodes_in. exact Hx. }
  { rewrite zlen_zrepeat; lia. }
  rewrite E. eexists. split; [reflexivity|]. cbn [andb]. rewrite andb_true_iff. rewrite !forallb_forall.
  assert (forall i, 0 <= i < 4 + m -> (match get has i with Some b => b | None => false end) = true <-> exists op, byte_ok op /\ coversb t i op = true) as C.
  { intros i Hi. destruct (get_some _ has i ltac:(lia)) as [b GB]. rewrite GB.
    assert (b = true <-> get has i = Some true) as -> by (rewrite GB; split; congruence).
    rewrite G by exact Hi. rewrite existsb_exists. split.
    - intros [H|(op & H1 & H2)]; [|exists op; split; [apply opcodes_in|]; auto].
      exfalso. assert (Forall (fun b => b = false) (zrepeat false 259)) as X by (apply Forall_forall; intros x Hx; apply repeat_spec in Hx; exact Hx).
      pose proof (Forall_get _ _ _ _ _ X H). discriminate.
    - intros (op & H1 & H2). right. exists op. split; [apply opcodes_in|]; auto. }
  split.
  - intros [H1 H2]. split; [intros op O; apply H1, opcodes_in, O|]. intros i Hi. apply C; [lia|].
    specialize (H2 i). rewrite orb_true_iff in H2. destruct H2 as [H2|H2].
    { apply in_map_iff. exists (Z.to_nat i). split; [lia|]. apply in_seq. unfold VCD_LAST_INSTRUCTION_TYPE. lia. }
    { unfold VCD_NOOP in H2. lia. }
    exact H2.
  - intros [H1 H2]. split; [intros op O; apply H1, opcodes_in, O|]. intros i Hi.
    apply in_map_iff in Hi as (n & <- & Hn). apply in_seq in Hn. unfold VCD_LAST_INSTRUCTION_TYPE in Hn.
    unfold VCD_NOOP. destruct (Z.eqb_spec (Z.of_nat n) 0) as [|NZ]; [reflexivity|]. cbn [orb].
    apply C; [lia|]. apply H2. lia.
Qed.

Lemma table_of_bytes_ok : forall s, bytes_ok s -> zlen s = 1536 -> table_ok (table_of_bytes s).
Proof.
  intros s B L.
  assert (forall k, 0 <= k <= 1280 -> array_ok (ztake 256 (zdrop k s))) as A.
  { intros k K. split; [|auto using bytes_ok_ztake, bytes_ok_zdrop].
    assert (zlen (ztake 256 (zdrop k s)) = 256) as X by (rewrite zlen_ztake by lia; rewrite zlen_zdrop by lia; lia).
    Local Transparent zlen. unfold zlen in X. Local Opaque zlen. lia. }
  pose proof (A 0) as A0. rewrite zdrop_0 in A0.
  unfold table_ok, table_of_bytes; cbn. repeat split; try (apply A; lia); apply A0; lia.
Qed.

Lemma last_mode_range : forall ns ss, 0 <= last_mode ns ss <= 255.
Proof. intros. unfold last_mode, to_uchar. lia. Qed.

Lemma use_code_table_ok : forall cur new m, table_ok cur -> table_ok new -> 0 <= m <= 255 ->
  exists t b, use_code_table cur new m = Some (t, b) /\ table_ok t /\ t = (if b then new else cur) /\
    validate new m = Some b.
Proof.
  intros cur new m T1 T2 M. unfold use_code_table. destruct (validate_eq new m T2 M) as (b & -> & _).
  destruct b; eauto 10.
Qed.
