(** Facts about the encoder's opcode maps (instruction_map.cc): every opcode found
    stands for exactly the instructions asked for. *)

From Verif Require Import Base Spec AddrCache CodeTable InstructionMap CodeTableFacts BodyFacts.
From Coq Require Import ZifyBool ZifyNat.

(** The half entry described by a row (type plus mode) and a column (size). *)
Definition half_at (r c : Z) : half :=
  if r =? 0 then HNoop else if r =? 1 then HAdd c else if r =? 2 then HRun c else HCopy c (r - 3).

(** The row in which an instruction is looked up. *)
Definition row (inst mode : Z) : Z := if inst =? VCD_COPY then inst + mode else inst.

Lemma half_of_at : forall inst size mode m, validate_opcode inst size mode m = true -> 0 <= inst -> 0 <= mode ->
  half_of inst size mode = half_at (inst + mode) size.
Proof.
  intros inst size mode m V I M. unfold validate_opcode, VCD_LAST_INSTRUCTION_TYPE, VCD_NOOP, VCD_COPY in V.
  unfold half_of, half_at.
  assert (inst = 0 /\ mode = 0 \/ inst = 1 /\ mode = 0 \/ inst = 2 /\ mode = 0 \/ inst = 3) as C by lia.
  destruct C as [[-> ->]|[[-> ->]|[[-> ->]| ->]]]; try reflexivity.
  cbn [Z.eqb Pos.eqb]. destruct (Z.eqb_spec (3 + mode) 0); [lia|]. destruct (Z.eqb_spec (3 + mode) 1); [lia|].
  destruct (Z.eqb_spec (3 + mode) 2); [lia|]. f_equal. lia.
Qed.

Lemma half_at_noop : forall r c, 0 <= r -> half_at r c = HNoop -> r = 0.
Proof.
  intros r c R H. unfold half_at in H. destruct (Z.eqb_spec r 0); [auto|]. destruct (r =? 1); [discriminate|].
  destruct (r =? 2); discriminate.
Qed.

(** What the cells of the two maps contain. *)
Definition first_cell (t : table) (r c op : Z) : Prop :=
  byte_ok op /\
  ((tget (inst2 t) op = 0 /\ r = tget (inst1 t) op + tget (mode1 t) op /\ c = tget (size1 t) op) \/
   (tget (inst1 t) op = 0 /\ tget (inst2 t) op <> 0 /\
    r = tget (inst2 t) op + tget (mode2 t) op /\ c = tget (size2 t) op)).
Definition first_inv (t : table) (m : first_map) : Prop :=
  Forall (fun '(r, c, op) => first_cell t r c op) (f_cells m).
Definition second_cell (t : table) (fm : first_map) (f r c op : Z) : Prop :=
  byte_ok op /\ tget (inst1 t) op <> 0 /\ tget (inst2 t) op <> 0 /\
  first_lookup fm (tget (inst1 t) op) (tget (size1 t) op) (tget (mode1 t) op) = Some f /\ f <> kNoOpcode /\
  r = tget (inst2 t) op + tget (mode2 t) op /\ c = tget (size2 t) op.
Definition second_inv (t : table) (fm : first_map) (m : second_map) : Prop :=
  Forall (fun '(f, r, c, op) => second_cell t fm f r c op) (s_cells m).

Lemma cell2_in : forall l r c op, cell2 l r c = op -> op <> kNoOpcode -> In (r, c, op) l.
Proof.
  induction l as [|[[r' c'] op'] l IH]; intros r c op H N; cbn [cell2] in H; [congruence|].
  destruct (Z.eqb_spec r' r) as [->|]; cbn [andb] in H; [|right; auto].
  destruct (Z.eqb_spec c' c) as [->|]; [|right; auto]. left. congruence.
Qed.
Lemma cell3_in : forall l f r c op, cell3 l f r c = op -> op <> kNoOpcode -> In (f, r, c, op) l.
Proof.
  induction l as [|[[[f' r'] c'] op'] l IH]; intros f r c op H N; cbn [cell3] in H; [congruence|].
  destruct (Z.eqb_spec f' f) as [->|]; cbn [andb] in H; [|right; auto].
  destruct (Z.eqb_spec r' r) as [->|]; cbn [andb] in H; [|right; auto].
  destruct (Z.eqb_spec c' c) as [->|]; [|right; auto]. left. congruence.
Qed.

Lemma first_add_inv : forall t m inst size mode op m',
  first_inv t m -> first_cell t (inst + mode) size op -> first_add m inst size mode op = Some m' ->
  first_inv t m' /\ f_num m' = f_num m /\ f_max m' = f_max m /\
  (forall r c, cell2 (f_cells m) r c <> kNoOpcode -> cell2 (f_cells m') r c = cell2 (f_cells m) r c) /\
  cell2 (f_cells m') (inst + mode) size <> kNoOpcode.
Proof.
  intros t m inst size mode op m' I C H. unfold first_add in H.
  destruct ((inst + mode <? f_num m) && (size <=? f_max m)); [|discriminate].
  destruct (Z.eqb_spec (cell2 (f_cells m) (inst + mode) size) kNoOpcode) as [E|NE]; injection H as <-.
  - cbn [f_num f_max f_cells]. split; [constructor; assumption|]. split; [reflexivity|]. split; [reflexivity|].
    cbn [cell2]. split.
    + intros r c N. destruct (Z.eqb_spec (inst + mode) r) as [<-|]; cbn [andb]; [|reflexivity].
      destruct (Z.eqb_spec size c) as [<-|]; [contradiction|reflexivity].
    + rewrite !Z.eqb_refl. cbn [andb]. destruct C as [B _]. unfold byte_ok, kNoOpcode in *. lia.
  - auto.
Qed.

Lemma first_fold : forall t l m m', Forall byte_ok l ->
  first_inv t m -> fold_left (first_pass t) l (Some m) = Some m' ->
  first_inv t m' /\ f_num m' = f_num m /\ f_max m' = f_max m /\
  (forall r c, cell2 (f_cells m) r c <> kNoOpcode -> cell2 (f_cells m') r c <> kNoOpcode) /\
  (forall op, In op l -> tget (inst2 t) op = 0 ->
     cell2 (f_cells m') (tget (inst1 t) op + tget (mode1 t) op) (tget (size1 t) op) <> kNoOpcode).
Proof.
  intros t l. induction l as [|op l IH]; intros m m' B I H.
  { cbn [fold_left] in H. injection H as <-. split; [exact I|]. repeat split; auto. }
  inversion B as [|? ? BO B']; subst. cbn [fold_left] in H.
  assert (forall x, fold_left (first_pass t) x None = None) as NN by (induction x; auto).
  unfold first_pass at 2 in H. unfold VCD_NOOP in H.
  destruct (Z.eqb_spec (tget (inst2 t) op) 0) as [E2|N2].
  - destruct (first_add m _ _ _ op) as [m1|] eqn:A; [|rewrite NN in H; discriminate].
    destruct (first_add_inv t m _ _ _ op m1 I (conj BO (or_introl (conj E2 (conj eq_refl eq_refl)))) A) as (I1 & N1 & M1 & K1 & C1).
    destruct (IH m1 m' B' I1 H) as (I2 & N3 & M2 & K2 & C2). split; [exact I2|]. split; [congruence|]. split; [congruence|]. split.
    + intros r c N. apply K2. rewrite K1; auto.
    + intros o [<-|O] Z0; [|auto]. apply K2. exact C1.
  - destruct (Z.eqb_spec (tget (inst1 t) op) 0) as [E1|N1].
    + destruct (first_add m _ _ _ op) as [m1|] eqn:A; [|rewrite NN in H; discriminate].
      destruct (first_add_inv t m _ _ _ op m1 I (conj BO (or_intror (conj E1 (conj N2 (conj eq_refl eq_refl))))) A) as (I1 & N1 & M1 & K1 & C1).
      destruct (IH m1 m' B' I1 H) as (I2 & N3 & M2 & K2 & C2). split; [exact I2|]. split; [congruence|]. split; [congruence|]. split.
      * intros r c N. apply K2. rewrite K1; auto.
      * intros o [<-|O] Z0; [congruence|auto].
    + destruct (IH m m' B' I H) as (I2 & N3 & M2 & K2 & C2). split; [exact I2|]. split; [congruence|]. split; [congruence|]. split; [exact K2|].
      intros o [<-|O] Z0; [congruence|auto].
Qed.

Lemma second_fold : forall t fm l m m', Forall byte_ok l ->
  second_inv t fm m -> fold_left (second_pass t fm) l (Some m) = Some m' ->
  second_inv t fm m' /\ s_num m' = s_num m /\ s_max m' = s_max m.
Proof.
  intros t fm l. induction l as [|op l IH]; intros m m' B I H.
  { cbn [fold_left] in H. injection H as <-. auto. }
  inversion B as [|? ? BO B']; subst. cbn [fold_left] in H.
  assert (forall x, fold_left (second_pass t fm) x None = None) as NN by (induction x; auto).
  unfold second_pass at 2 in H. unfold VCD_NOOP in H.
  destruct (Z.eqb_spec (tget (inst1 t) op) 0) as [E1|N1]; cbn [negb andb] in H; [auto|].
  destruct (Z.eqb_spec (tget (inst2 t) op) 0) as [E2|N2]; cbn [negb andb] in H; [auto|].
  destruct (first_lookup fm _ _ _) as [f|] eqn:FL; [|rewrite NN in H; discriminate].
  destruct (Z.eqb_spec f kNoOpcode) as [|NF]; [auto|].
  unfold second_add in H at 1.
  destruct ((tget (inst2 t) op + tget (mode2 t) op <? s_num m) && (tget (size2 t) op <=? s_max m)); [|rewrite NN in H; discriminate].
  destruct (cell3 _ _ _ _ =? kNoOpcode); [|auto].
  apply IH in H; [exact H|exact B'|]. constructor; [|exact I]. repeat split; auto; apply BO.
Qed.

Record map_ok (t : table) (max_mode : Z) (im : instruction_map) : Prop := {
  mo_first : first_inv t (im_first im);
  mo_fnum : f_num (im_first im) = 4 + max_mode;
  mo_second : second_inv t (im_first im) (im_second im);
  mo_snum : s_num (im_second im) = 4 + max_mode;
  mo_fmax : 0 <= f_max (im_first im);
  mo_cover : forall op, byte_ok op -> tget (inst2 t) op = 0 ->
     cell2 (f_cells (im_first im)) (tget (inst1 t) op + tget (mode1 t) op) (tget (size1 t) op) <> kNoOpcode
}.

Lemma opcodes_bytes : Forall byte_ok opcodes.
Proof. apply Forall_forall. intros x Hx. apply opcodes_in. exact Hx. Qed.

Lemma find_max_nonneg : forall l, 0 <= find_max_size l.
Proof.
  intros l. unfold find_max_size. assert (forall l m, 0 <= m -> 0 <= fold_left (fun m x => if m <? x then x else m) l m) as X.
  { clear. induction l as [|x l IH]; intros m M; cbn [fold_left]; [exact M|]. apply IH. destruct (Z.ltb_spec m x); lia. }
  apply X. lia.
Qed.

Lemma make_map_ok : forall t max_mode im, make_map t max_mode = Some im -> map_ok t max_mode im.
Proof.
  intros t max_mode im H. unfold make_map, VCD_LAST_INSTRUCTION_TYPE in H.
  destruct (fold_left (first_pass t) opcodes _) as [fm|] eqn:E1; [|discriminate].
  destruct (fold_left (second_pass t fm) opcodes _) as [sm|] eqn:E2; [|discriminate].
  injection H as <-.
  destruct (fun X => first_fold t opcodes _ fm opcodes_bytes X E1) as (I & N & M & K & C); [constructor|].
  destruct (fun X => second_fold t fm opcodes _ sm opcodes_bytes X E2) as (I2 & N2 & M2); [constructor|].
  cbn [f_num f_max s_num] in N, M, N2. pose proof (find_max_nonneg (size1 t)). constructor; cbn [im_first im_second]; auto; try lia.
  - intros op B Z0. apply C; [apply opcodes_in; exact B|exact Z0].
Qed.

(** [single t op h]: the opcode stands for the one instruction [h]. *)
Definition single (t : table) (op : Z) (h : half) : Prop :=
  byte_ok op /\ h <> HNoop /\ (entry t op = (h, HNoop) \/ entry t op = (HNoop, h)).

Lemma single_fun : forall t op h h', single t op h -> single t op h' -> h = h'.
Proof. intros t op h h' (_ & N & [E|E]) (_ & N' & [E'|E']); rewrite E in E'; congruence. Qed.

Definition valid_table (t : table) (max_mode : Z) : Prop :=
  table_ok t /\ 0 <= max_mode <= 255 /\ forall op, byte_ok op -> half_okb t max_mode op = true.

Lemma first_lookup_sound : forall t mm im inst size mode op,
  valid_table t mm -> map_ok t mm im -> 1 <= inst <= 3 -> 0 <= mode ->
  first_lookup (im_first im) inst size mode = Some op -> op <> kNoOpcode ->
  single t op (half_at (row inst mode) size).
Proof.
  intros t mm im inst size mode op (T & MM & V) MO I M H N. unfold first_lookup in H. fold (row inst mode) in H.
  destruct (f_max (im_first im) <? size); [congruence|].
  destruct (row inst mode <? f_num (im_first im)); [|discriminate]. injection H as H.
  apply cell2_in in H; [|exact N]. pose proof (mo_first _ _ _ MO) as F. unfold first_inv in F. rewrite Forall_forall in F.
  specialize (F _ H). cbn beta iota in F. destruct F as (B & F).
  assert (0 < row inst mode) as R by (unfold row, VCD_COPY; destruct (inst =? 3); lia).
  assert (half_at (row inst mode) size <> HNoop) as NN by (intros X; apply half_at_noop in X; lia).
  split; [exact B|]. split; [exact NN|].
  specialize (V op B). unfold half_okb in V. apply andb_true_iff in V as [V1 V2].
  destruct T as (T1 & T2 & T3 & T4 & T5 & T6).
  pose proof (tget_range _ op T1 B). pose proof (tget_range _ op T2 B).
  pose proof (tget_range _ op T5 B). pose proof (tget_range _ op T6 B).
  unfold entry. rewrite (half_of_at _ _ _ _ V1), (half_of_at _ _ _ _ V2) by lia.
  destruct F as [(E2 & E & C)|(E1 & E2 & E & C)].
  - left. rewrite <- E, <- C. f_equal.
    rewrite E2 in V2. unfold validate_opcode, VCD_NOOP, VCD_COPY in V2.
    assert (tget (mode2 t) op = 0) as -> by lia. rewrite E2. reflexivity.
  - right. rewrite <- E, <- C. f_equal.
    rewrite E1 in V1. unfold validate_opcode, VCD_NOOP, VCD_COPY in V1.
    assert (tget (mode1 t) op = 0) as -> by lia. rewrite E1. reflexivity.
Qed.

Lemma second_lookup_sound : forall t mm im first inst size mode op,
  valid_table t mm -> map_ok t mm im -> 1 <= inst <= 3 -> 0 <= mode ->
  second_lookup (im_second im) first inst size mode = Some op -> op <> kNoOpcode ->
  byte_ok op /\ exists h1, single t first h1 /\ entry t op = (h1, half_at (row inst mode) size).
Proof.
  intros t mm im first inst size mode op VT MO I M H N. pose proof VT as (T & MM & V). unfold second_lookup in H. fold (row inst mode) in H.
  destruct (s_max (im_second im) <? size); [congruence|]. cbv zeta in H.
  destruct (row inst mode <? s_num (im_second im)); [|discriminate]. injection H as H.
  apply cell3_in in H; [|exact N]. pose proof (mo_second _ _ _ MO) as F. unfold second_inv in F. rewrite Forall_forall in F.
  specialize (F _ H). cbn beta iota in F. destruct F as (B & N1 & N2 & FL & NF & E & C).
  split; [exact B|].
  specialize (V op B). unfold half_okb in V. apply andb_true_iff in V as [V1 V2].
  destruct T as (T1 & T2 & T3 & T4 & T5 & T6).
  pose proof (tget_range _ op T1 B). pose proof (tget_range _ op T2 B).
  pose proof (tget_range _ op T5 B). pose proof (tget_range _ op T6 B).
  eapply first_lookup_sound in FL; eauto; [|unfold validate_opcode, VCD_LAST_INSTRUCTION_TYPE in V1; lia|lia].
  eexists. split; [exact FL|]. unfold entry. rewrite E, C. rewrite (half_of_at _ _ _ _ V2) by lia. f_equal.
  rewrite (half_of_at _ _ _ _ V1) by lia. unfold row.
  unfold validate_opcode, VCD_NOOP, VCD_COPY in *. destruct (Z.eqb_spec (tget (inst1 t) op) 3); [reflexivity|].
  assert (tget (mode1 t) op = 0) as -> by lia. rewrite Z.add_0_r. reflexivity.
Qed.

Lemma first_lookup_total : forall t mm im inst size mode,
  map_ok t mm im -> 1 <= inst <= 3 -> 0 <= mode <= mm ->
  exists op, first_lookup (im_first im) inst size mode = Some op.
Proof.
  intros t mm im inst size mode MO I M. unfold first_lookup. rewrite (mo_fnum _ _ _ MO).
  destruct (f_max (im_first im) <? size); [eauto|]. 
  destruct (Z.ltb_spec (if inst =? VCD_COPY then inst + mode else inst) (4 + mm)) as [|G]; [eauto|].
  destruct (inst =? VCD_COPY); lia.
Qed.

Lemma second_lookup_total : forall t mm im first inst size mode,
  map_ok t mm im -> 1 <= inst <= 3 -> 0 <= mode <= mm ->
  exists op, second_lookup (im_second im) first inst size mode = Some op.
Proof.
  intros t mm im first inst size mode MO I M. unfold second_lookup. rewrite (mo_snum _ _ _ MO).
  destruct (s_max (im_second im) <? size); [eauto|]. cbv zeta. 
  destruct (Z.ltb_spec (if inst =? VCD_COPY then inst + mode else inst) (4 + mm)) as [|G]; [eauto|].
  destruct (inst =? VCD_COPY); lia.
Qed.

(** In a validated table every instruction has an opcode with explicit size. *)
Lemma first_lookup_explicit : forall t mm im inst mode,
  table_ok t -> 0 <= mm <= 255 -> validate t mm = Some true -> map_ok t mm im -> 1 <= inst <= 3 -> 0 <= mode <= mm ->
  exists op, first_lookup (im_first im) inst 0 mode = Some op /\ op <> kNoOpcode.
Proof.
  intros t mm im inst mode T MM V MO I M.
  destruct (validate_eq t mm T MM) as (b & E & IFF). rewrite V in E. injection E as <-.
  destruct (proj1 IFF eq_refl) as [_ C].
  assert (1 <= row inst mode < 4 + mm) as R by (unfold row, VCD_COPY; destruct (Z.eqb_spec inst 3); lia).
  destruct (C _ R) as (op & B & CV). unfold coversb, VCD_NOOP in CV.
  pose proof (mo_cover _ _ _ MO op B ltac:(lia)) as K.
  assert (tget (size1 t) op = 0 /\ tget (inst1 t) op + tget (mode1 t) op = row inst mode) as [S1 S2] by lia.
  rewrite S1, S2 in K. unfold first_lookup. fold (row inst mode).
  destruct (Z.ltb_spec (f_max (im_first im)) 0) as [L|_]; [pose proof (mo_fmax _ _ _ MO); lia|]. cbv zeta.
  rewrite (mo_fnum _ _ _ MO). destruct (Z.ltb_spec (row inst mode) (4 + mm)); [|lia]. eauto.
Qed.
