(** When the constructor of the instruction map stays inside its arrays. *)

From Verif Require Import Base Spec AddrCache CodeTable CodeTableFacts InstructionMap InstructionMapFacts.
From Coq Require Import ZifyBool ZifyNat.

Lemma find_max_from : forall l m, m <= fold_left (fun m x => if m <? x then x else m) l m /\
  (forall x, In x l -> x <= fold_left (fun m x => if m <? x then x else m) l m) /\
  (fold_left (fun m x => if m <? x then x else m) l m = m \/ In (fold_left (fun m x => if m <? x then x else m) l m) l).
Proof.
  induction l as [|y l IH]; intros m; cbn [fold_left In]; [split; [lia|split; [tauto|left; reflexivity]]|].
  destruct (IH (if m <? y then y else m)) as (A & B & C). split; [|split].
  - destruct (Z.ltb_spec m y); lia.
  - intros x [<-|H]; [|auto]. destruct (Z.ltb_spec m y); lia.
  - destruct C as [C|C]; [|tauto]. rewrite C. destruct (Z.ltb_spec m y); auto.
Qed.
Lemma find_max_ge : forall l x, In x l -> x <= find_max_size l.
Proof. intros l x H. apply (find_max_from l 0). exact H. Qed.
Lemma find_max_in : forall l, find_max_size l = 0 \/ In (find_max_size l) l.
Proof. intros l. apply (find_max_from l 0). Qed.

Lemma tget_in : forall l op, array_ok l -> byte_ok op -> In (tget l op) l.
Proof. intros l op [L _] B. apply nth_In. unfold byte_ok in B. lia. Qed.
Lemma in_tget : forall l x, array_ok l -> In x l -> exists op, byte_ok op /\ tget l op = x.
Proof.
  intros l x [L _] H. destruct (In_nth l x 0 H) as (n & N & E). exists (Z.of_nat n). split; [unfold byte_ok; lia|].
  unfold tget. rewrite Nat2Z.id. exact E.
Qed.

(** What the entry [op] asks of the first map. *)
Definition first_wants (t : table) (op : Z) : option (Z * Z) :=
  if tget (inst2 t) op =? 0 then Some (tget (inst1 t) op + tget (mode1 t) op, tget (size1 t) op)
  else if tget (inst1 t) op =? 0 then Some (tget (inst2 t) op + tget (mode2 t) op, tget (size2 t) op)
  else None.
Definition first_fits (t : table) (num mx op : Z) : Prop :=
  match first_wants t op with Some (r, s) => r < num /\ s <= mx | None => True end.

Lemma first_none : forall t l, fold_left (first_pass t) l None = None.
Proof. intros t. induction l; auto. Qed.
Lemma second_none : forall t fm l, fold_left (second_pass t fm) l None = None.
Proof. intros t fm. induction l; auto. Qed.

Lemma first_add_total : forall m inst size mode op,
  match first_add m inst size mode op with
  | Some m' => inst + mode < f_num m /\ size <= f_max m /\ f_num m' = f_num m /\ f_max m' = f_max m
  | None => ~ (inst + mode < f_num m /\ size <= f_max m)
  end.
Proof.
  intros m inst size mode op. unfold first_add.
  destruct (Z.ltb_spec (inst + mode) (f_num m)); cbn [andb]; [|lia]. destruct (Z.leb_spec size (f_max m)); [|lia].
  destruct (_ =? kNoOpcode); cbn [f_num f_max]; lia.
Qed.

Ltac first_step t l m op IH FF :=
  match goal with |- context [first_add m ?i ?s ?md op] =>
    let A := fresh "A" in let m1 := fresh "m1" in
    pose proof (first_add_total m i s md op) as A; destruct (first_add m i s md op) as [m1|];
    [let A1 := fresh in let A2 := fresh in let A3 := fresh in let A4 := fresh in
     destruct A as (A1 & A2 & A3 & A4); specialize (IH m1); rewrite A3, A4 in IH; destruct (fold_left (first_pass t) l (Some m1));
     [let B1 := fresh in let B2 := fresh in destruct IH as (B1 & B2); split; [|exact B2];
      let o := fresh in let O := fresh in intros o O; destruct O as [O|O]; [subst o; rewrite FF; auto|auto]
     |let o := fresh in let B1 := fresh in let B2 := fresh in destruct IH as (o & B1 & B2); exists o; split; [right; exact B1|exact B2]]
    |rewrite first_none; exists op; split; [left; reflexivity|rewrite FF; exact A]]
  end.

Lemma first_total : forall t l m, match fold_left (first_pass t) l (Some m) with
  | Some m' => (forall op, In op l -> first_fits t (f_num m) (f_max m) op) /\ f_num m' = f_num m /\ f_max m' = f_max m
  | None => exists op, In op l /\ ~ first_fits t (f_num m) (f_max m) op
  end.
Proof.
  intros t. induction l as [|op l IH]; intros m; cbn [fold_left].
  { split; [intros ? []|auto]. }
  unfold first_pass at 2. cbv iota beta. unfold VCD_NOOP.
  assert (first_fits t (f_num m) (f_max m) op = match first_wants t op with Some (r, s) => r < f_num m /\ s <= f_max m | None => True end) as FF by reflexivity.
  unfold first_wants in FF.
  destruct (tget (inst2 t) op =? 0).
  2: destruct (tget (inst1 t) op =? 0).
  1: first_step t l m op IH FF.
  1: first_step t l m op IH FF.
  specialize (IH m). destruct (fold_left (first_pass t) l (Some m)) as [m'|].
  - destruct IH as (B1 & B2 & B3). split; [|auto]. intros o [<-|O]; [rewrite FF; exact Logic.I|auto].
  - destruct IH as (o & B1 & B2). exists o. split; [right; exact B1|exact B2].
Qed.

Lemma second_total : forall t fm l m,
  (forall op, In op l -> tget (inst1 t) op + tget (mode1 t) op < f_num fm /\ 0 <= tget (mode1 t) op /\
     tget (inst2 t) op + tget (mode2 t) op < s_num m /\ tget (size2 t) op <= s_max m) ->
  fold_left (second_pass t fm) l (Some m) <> None.
Proof.
  intros t fm. induction l as [|op l IH]; intros m H; cbn [fold_left]; [discriminate|].
  unfold second_pass at 2. cbv iota beta. destruct (H op (or_introl eq_refl)) as (A & B & C & D).
  assert (forall o, In o l -> tget (inst1 t) o + tget (mode1 t) o < f_num fm /\ 0 <= tget (mode1 t) o /\
     tget (inst2 t) o + tget (mode2 t) o < s_num m /\ tget (size2 t) o <= s_max m) as H' by (intros o O; apply H; right; exact O).
  destruct (negb _ && negb _); [|apply IH; exact H'].
  assert (exists r, first_lookup fm (tget (inst1 t) op) (tget (size1 t) op) (tget (mode1 t) op) = Some r) as (r & ->).
  { unfold first_lookup. destruct (f_max fm <? _); [eauto|]. destruct (tget (inst1 t) op =? VCD_COPY);
      (match goal with |- context [if ?x <? f_num fm then _ else _] => destruct (Z.ltb_spec x (f_num fm)) end; [eauto|lia]). }
  destruct (r =? kNoOpcode); [apply IH; exact H'|]. unfold second_add.
  destruct (Z.ltb_spec (tget (inst2 t) op + tget (mode2 t) op) (s_num m)); cbn [andb]; [|lia].
  destruct (Z.leb_spec (tget (size2 t) op) (s_max m)); [|lia].
  destruct (_ =? kNoOpcode); apply IH; exact H'.
Qed.

Lemma half_range : forall inst size mode m, validate_opcode inst size mode m = true -> 0 <= inst -> 0 <= mode -> 0 <= m -> inst + mode < 4 + m.
Proof. intros inst size mode m H I0 M0 MM. unfold validate_opcode, VCD_LAST_INSTRUCTION_TYPE, VCD_NOOP, VCD_COPY in H. lia. Qed.

Lemma make_map_total : forall t m, table_ok t -> 0 <= m <= 255 -> validate t m = Some true ->
  (make_map t m <> None <->
   forall op, byte_ok op -> tget (inst1 t) op = 0 -> tget (inst2 t) op <> 0 -> exists op', byte_ok op' /\ tget (size2 t) op <= tget (size1 t) op').
Proof.
  intros t m T M V. destruct (validate_eq t m T M) as (b & Eb & VB). rewrite V in Eb. injection Eb as <-.
  destruct (proj1 VB eq_refl) as [VH _]. clear VB.
  pose proof T as (T1 & T2 & T3 & T4 & T5 & T6).
  assert (forall op, byte_ok op -> tget (inst1 t) op + tget (mode1 t) op < 4 + m /\ 0 <= tget (mode1 t) op /\
            tget (inst2 t) op + tget (mode2 t) op < 4 + m /\ tget (size1 t) op <= find_max_size (size1 t) /\ tget (size2 t) op <= find_max_size (size2 t)) as R.
  { intros op B. specialize (VH op B). unfold half_okb in VH. apply andb_true_iff in VH as [V1 V2].
    pose proof (tget_byte _ _ T1 B). pose proof (tget_byte _ _ T2 B). pose proof (tget_byte _ _ T5 B). pose proof (tget_byte _ _ T6 B). unfold byte_ok in *.
    split; [eapply half_range; eauto; lia|]. split; [lia|]. split; [eapply half_range; eauto; lia|].
    split; apply find_max_ge, tget_in; auto. }
  unfold make_map. replace (VCD_LAST_INSTRUCTION_TYPE + m + 1) with (4 + m) by (unfold VCD_LAST_INSTRUCTION_TYPE; lia).
  pose proof (first_total t opcodes {| f_num := 4 + m; f_max := find_max_size (size1 t); f_cells := [] |}) as F.
  destruct (fold_left (first_pass t) opcodes _) as [fm|]; cbn [f_num f_max] in F.
  - destruct F as (F1 & F2 & F3). split; [intros _|intros _].
    + intros op B I1 I2. assert (In op opcodes) as IN by (apply opcodes_in; exact B). specialize (F1 op IN). unfold first_fits, first_wants in F1.
      destruct (Z.eqb_spec (tget (inst2 t) op) 0); [contradiction|]. destruct (Z.eqb_spec (tget (inst1 t) op) 0); [|contradiction].
      destruct F1 as [_ F1]. destruct (find_max_in (size1 t)) as [Z0|ZI].
      * exists op. split; [exact B|]. pose proof (tget_byte _ _ T3 B) as X. unfold byte_ok in X. lia.
      * destruct (in_tget _ _ T3 ZI) as (o & BO & EO). exists o. split; [exact BO|]. lia.
    + pose proof (second_total t fm opcodes {| s_num := 4 + m; s_max := find_max_size (size2 t); s_cells := [] |}) as S2. cbn [s_num s_max] in S2.
      destruct (fold_left (second_pass t fm) opcodes _); [discriminate|]. exfalso. apply S2; [|reflexivity].
      intros op IN. apply opcodes_in in IN. specialize (R op IN). lia.
  - split; [intros X; contradiction|]. intros H. exfalso. destruct F as (op & IN & NF). apply opcodes_in in IN. apply NF. clear NF.
    unfold first_fits, first_wants. specialize (R op IN).
    destruct (Z.eqb_spec (tget (inst2 t) op) 0); [lia|]. destruct (Z.eqb_spec (tget (inst1 t) op) 0); [|exact Logic.I].
    destruct (H op IN) as (o & BO & LE); [assumption|assumption|]. pose proof (find_max_ge _ _ (tget_in _ _ T3 BO)). lia.
Qed.
