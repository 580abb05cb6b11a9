(** The validation of code tables in terms of the specification. *)

From Verif Require Import Base Spec AddrCache CodeTable CodeTableFacts DecodeTable BodyFacts.
From Coq Require Import ZifyBool ZifyNat.

Local Transparent ztake zdrop zlen.
Lemma nth_piece : forall s k op, 0 <= k -> byte_ok op -> nth (Z.to_nat op) (ztake 256 (zdrop k s)) 0 = nth (Z.to_nat (k + op)) s 0.
Proof.
  intros s k op K O. unfold byte_ok in O. unfold ztake, zdrop.
  replace (Z.to_nat (k + op)) with (Z.to_nat k + Z.to_nat op)%nat by lia.
  rewrite <- (nth_skipn (Z.to_nat k) s (Z.to_nat op) 0) || idtac.
  revert s. generalize (Z.to_nat k) as n. assert (forall (l : list Z) i, (i < 256)%nat -> nth i (firstn (Z.to_nat 256) l) 0 = nth i l 0) as F.
  { intros l. change (Z.to_nat 256) with 256%nat. generalize 256%nat as m. induction l as [|x l IH]; intros m i H; [rewrite firstn_nil; reflexivity|].
    destruct m; [lia|]. cbn [firstn]. destruct i; [reflexivity|]. cbn [nth]. apply IH. lia. }
  intros n s. rewrite F by lia. revert s. induction n as [|n IH]; intros s; [reflexivity|].
  destruct s; [destruct (Z.to_nat op); reflexivity|]. cbn [skipn plus nth]. apply IH.
Qed.
Local Opaque ztake zdrop zlen.

Lemma table_of_bytes_get : forall s op, byte_ok op ->
  let t := table_of_bytes s in let at_ k := nth (Z.to_nat (k * 256 + op)) s 0 in
  tget (inst1 t) op = at_ 0 /\ tget (inst2 t) op = at_ 1 /\ tget (size1 t) op = at_ 2 /\ tget (size2 t) op = at_ 3 /\
  tget (mode1 t) op = at_ 4 /\ tget (mode2 t) op = at_ 5.
Proof.
  intros s op O. cbv zeta. unfold tget. cbn [table_of_bytes inst1 inst2 size1 size2 mode1 mode2].
  rewrite <- (zdrop_0 _ s) at 1. rewrite !nth_piece by (auto; lia). repeat split; reflexivity.
Qed.

Lemma entry_of_bytes : forall s op, byte_ok op -> entry (table_of_bytes s) op = table_of_string s op.
Proof.
  intros s op O. destruct (table_of_bytes_get s op O) as (A & B & C & D & E & F). unfold entry, table_of_string.
  rewrite A, B, C, D, E, F. reflexivity.
Qed.

Lemma validate_opcode_usable : forall inst size mode m, 0 <= inst -> 0 <= mode -> 0 <= m ->
  validate_opcode inst size mode m = true <-> half_usable m inst size mode.
Proof.
  intros. unfold validate_opcode, half_usable, VCD_LAST_INSTRUCTION_TYPE, VCD_NOOP, VCD_COPY. lia.
Qed.

Theorem validate_usable : forall s m, bytes_ok s -> zlen s = 1536 -> 0 <= m <= 255 ->
  exists b, validate (table_of_bytes s) m = Some b /\ (b = true <-> usable_table m s).
Proof.
  intros s m B L M. pose proof (table_of_bytes_ok s B L) as TO.
  destruct (validate_eq _ m TO M) as (b & E & I). exists b. split; [exact E|]. rewrite I. clear b E I.
  assert (forall k op, byte_ok op -> 0 <= k <= 5 -> byte_ok (nth (Z.to_nat (k * 256 + op)) s 0)) as R.
  { intros k op O K. unfold bytes_ok in B. rewrite Forall_forall in B. apply B. apply nth_In. unfold byte_ok in O.
    Local Transparent zlen. unfold zlen in L. Local Opaque zlen. lia. }
  assert ((forall op, byte_ok op -> half_okb (table_of_bytes s) m op = true) <->
    (forall op, byte_ok op ->
     half_usable m (nth (Z.to_nat (0 * 256 + op)) s 0) (nth (Z.to_nat (2 * 256 + op)) s 0) (nth (Z.to_nat (4 * 256 + op)) s 0) /\
     half_usable m (nth (Z.to_nat (1 * 256 + op)) s 0) (nth (Z.to_nat (3 * 256 + op)) s 0) (nth (Z.to_nat (5 * 256 + op)) s 0))) as H1.
  { assert (forall op, byte_ok op -> (half_okb (table_of_bytes s) m op = true <->
     half_usable m (nth (Z.to_nat (0 * 256 + op)) s 0) (nth (Z.to_nat (2 * 256 + op)) s 0) (nth (Z.to_nat (4 * 256 + op)) s 0) /\
     half_usable m (nth (Z.to_nat (1 * 256 + op)) s 0) (nth (Z.to_nat (3 * 256 + op)) s 0) (nth (Z.to_nat (5 * 256 + op)) s 0))) as X.
    { intros op O. unfold half_okb. destruct (table_of_bytes_get s op O) as (A1 & A2 & A3 & A4 & A5 & A6).
      rewrite A1, A2, A3, A4, A5, A6. rewrite andb_true_iff.
      pose proof (R 0 op O). pose proof (R 1 op O). pose proof (R 4 op O). pose proof (R 5 op O). unfold byte_ok in *.
      rewrite !validate_opcode_usable by lia. reflexivity. }
    split; intros H op O; apply X; auto. }
  unfold usable_table. rewrite H1.
  assert (forall P Q Q' : Prop, (P -> (Q <-> Q')) -> (P /\ Q <-> P /\ Q')) as CONJ by tauto. apply CONJ. clear H1 CONJ. intros H1.
  assert (forall op, byte_ok op -> forall i, 1 <= i < 4 + m -> (coversb (table_of_bytes s) i op = true <->
     table_of_string s op = (if i =? 1 then HAdd 0 else if i =? 2 then HRun 0 else HCopy 0 (i - 3), HNoop))) as C.
  { intros op O i Hi. unfold coversb. destruct (table_of_bytes_get s op O) as (A1 & A2 & A3 & A4 & A5 & A6).
    rewrite A1, A2, A3, A5. unfold table_of_string. destruct (H1 op O) as [U1 U2].
    pose proof (R 0 op O). pose proof (R 1 op O). pose proof (R 4 op O). pose proof (R 2 op O).
    set (a0 := nth (Z.to_nat (0 * 256 + op)) s 0) in *. set (a1 := nth (Z.to_nat (1 * 256 + op)) s 0) in *.
    set (a2 := nth (Z.to_nat (2 * 256 + op)) s 0) in *. set (a4 := nth (Z.to_nat (4 * 256 + op)) s 0) in *.
    set (a3 := nth (Z.to_nat (3 * 256 + op)) s 0) in *. set (a5 := nth (Z.to_nat (5 * 256 + op)) s 0) in *.
    clearbody a0 a1 a2 a3 a4 a5. clear - U1 Hi H H0 H2 H3. unfold half_usable, byte_ok, VCD_NOOP in *. unfold half_of.
    assert (forall (a b c d : half), (a, b) = (c, d) <-> a = c /\ b = d) as PE by (intros; split; [intros X; injection X; auto|intros [-> ->]; reflexivity]).
    rewrite PE. assert ((if a1 =? 0 then HNoop else if a1 =? 1 then HAdd a3 else if a1 =? 2 then HRun a3 else if a1 =? 3 then HCopy a3 a5 else HInvalid) = HNoop <-> a1 = 0) as ->.
    { destruct (Z.eqb_spec a1 0); [tauto|]. destruct (a1 =? 1); [split; [discriminate|lia]|]. destruct (a1 =? 2); [split; [discriminate|lia]|].
      destruct (a1 =? 3); split; (discriminate || lia). }
    destruct (Z.eqb_spec a0 0). { split; [lia|]. destruct (i =? 1); [|destruct (i =? 2)]; intros [X _]; discriminate. }
    destruct (Z.eqb_spec a0 1). { destruct (Z.eqb_spec i 1). { split; [intros; split; [f_equal|]; lia|intros [X ?]; injection X as X; lia]. }
      split; [lia|]. destruct (i =? 2); intros [X _]; discriminate. }
    destruct (Z.eqb_spec a0 2). { destruct (Z.eqb_spec i 1); [split; [lia|intros [X _]; discriminate]|].
      destruct (Z.eqb_spec i 2). { split; [intros; split; [f_equal|]; lia|intros [X ?]; injection X as X; lia]. }
      split; [lia|]. intros [X _]; discriminate. }
    destruct (Z.eqb_spec a0 3); [|lia].
    destruct (Z.eqb_spec i 1); [split; [lia|intros [X _]; discriminate]|]. destruct (Z.eqb_spec i 2); [split; [lia|intros [X _]; discriminate]|].
    split; [intros; split; [f_equal|]; lia|intros [X ?]; injection X as X Y; lia]. }
  split.
  - intros H h [-> |[-> |(mm & MM & ->)]].
    + destruct (H 1 ltac:(lia)) as (op & O & X). exists op. split; [exact O|]. apply C in X; auto. lia.
    + destruct (H 2 ltac:(lia)) as (op & O & X). exists op. split; [exact O|]. apply C in X; auto. lia.
    + destruct (H (3 + mm) ltac:(lia)) as (op & O & X). exists op. split; [exact O|]. apply C in X; [|exact O|lia]. rewrite X.
      destruct (Z.eqb_spec (3 + mm) 1); [lia|]. destruct (Z.eqb_spec (3 + mm) 2); [lia|]. repeat f_equal. lia.
  - intros H i Hi. destruct (H (if i =? 1 then HAdd 0 else if i =? 2 then HRun 0 else HCopy 0 (i - 3))) as (op & O & X).
    + destruct (Z.eqb_spec i 1); [auto|]. destruct (Z.eqb_spec i 2); [auto|]. right. right. exists (i - 3). split; [lia|reflexivity].
    + exists op. split; [exact O|]. apply C; auto.
Qed.

(** What SetCodeTable does in InitCustomCodeTable's sequel. *)
Theorem use_code_table_usable : forall cur s m, bytes_ok s -> zlen s = 1536 -> 0 <= m <= 255 ->
  exists t b, use_code_table cur (table_of_bytes s) m = Some (t, b) /\
    ((b = true /\ usable_table m s /\ t = table_of_bytes s) \/ (b = false /\ ~ usable_table m s /\ t = cur)).
Proof.
  intros cur s m B L M. destruct (validate_usable s m B L M) as (b & E & I). unfold use_code_table. rewrite E.
  destruct b; eexists _, _; split; try reflexivity.
  - left. tauto.
  - right. split; [reflexivity|]. split; [|reflexivity]. intros U. apply I in U. discriminate.
Qed.

Lemma rfc_string : string_of_table rfc_table = table_bytes default_table.
Proof. vm_compute. reflexivity. Qed.
