(** C44: addresses and opcodes are written in the shortest form. *)

From Coq Require Import ZifyBool ZifyNat.
From Verif Require Import Base ListFacts Spec SpecEncode CodeTableFacts Varint VarintFacts AddrCache AddrCacheFacts CodeTable InstructionMap InstructionMapFacts
  EncodeTable WriterFacts Shortest Properties_Addr Properties_Encode.

(** For every history of addresses: what EncodeAddress writes denotes the address,
    and nothing shorter denotes it in any mode. *)
Theorem C44_shortest_address : forall near same hist c a here mode e c',
  0 <= near <= 253 -> 0 <= same -> cache_after near same hist c -> 0 <= a < here -> here <= 2147483647 ->
  encode_address c a here = Some (mode, e, c') ->
  addr_code near same hist here mode (addr_bytes c mode e) a /\
  (forall m q, addr_code near same hist here m q a -> zlen (addr_bytes c mode e) <= zlen q).
Proof.
  intros near same hist c a here mode e c' N S AC A H E.
  destruct (cache_after_rep near same hist c N S AC) as (R & <- & <-). split.
  - destruct (encode_address_ok c hist a here R A H) as (mode2 & e2 & c2 & E2 & _ & _ & Q & _). rewrite E in E2. injection E2 as <- <- <-. exact Q.
  - exact (shortest_address c hist a here mode e c' R A H E).
Qed.
Print Assumptions C44_shortest_address.

(** 700 after 690: a NEAR address of one byte, where SELF and HERE take two. *)
Example C44_address_case : exists c1 c2 c3,
  cache_after 4 3 [690] c2 /\ cache_init 4 3 = Some c1 /\ update_cache c1 690 = Some c2 /\
  encode_address c2 700 1000 = Some (2, 10, c3) /\ addr_bytes c2 2 10 = [10] /\
  addr_code 4 3 [690] 1000 0 [133; 60] 700.
Proof.
  eexists _, _, _. split; [eapply after_update; [apply after_init; reflexivity| |vm_compute; reflexivity]; lia|].
  split; [reflexivity|]. split; [reflexivity|]. split; [vm_compute; reflexivity|]. split; [reflexivity|].
  apply addr_self; [|lia]. split; [|reflexivity]. exists [133], 60. split; [reflexivity|]. split; [constructor; [lia|constructor]|lia].
Qed.

(** *** Opcodes *)

Definition first_found (im : instruction_map) (op : Z) : bool :=
  let found inst size mode := match first_lookup (im_first im) inst size mode with Some o => negb (o =? kNoOpcode) | None => false end in
  match rfc_table op with
  | (HAdd k, HNoop) => found 1 k 0
  | (HRun k, HNoop) => found 2 k 0
  | (HCopy k m, HNoop) => found 3 k m
  | _ => true
  end.
Definition half_eqb (a b : half) : bool :=
  match a, b with
  | HNoop, HNoop => true
  | HAdd a, HAdd b => a =? b
  | HRun a, HRun b => a =? b
  | HCopy a m, HCopy b n => (a =? b) && (m =? n)
  | _, _ => false
  end.
Definition second_found (im : instruction_map) (f op : Z) : bool :=
  let found inst size mode := (0 <? size) && match second_lookup (im_second im) f inst size mode with Some o => negb (o =? kNoOpcode) | None => false end in
  match rfc_table f with
  | (h, HNoop) =>
      let '(h', g) := rfc_table op in
      if half_eqb h h' then match g with HAdd k => found 1 k 0 | HRun k => found 2 k 0 | HCopy k m => found 3 k m | _ => true end else true
  | _ => true
  end.
Definition all_found : bool :=
  match make_map default_table default_last_mode with
  | None => false
  | Some im => forallb (fun op => first_found im op && (match rfc_table op with (HNoop, _) => false | _ => true end) && forallb (fun f => second_found im f op) opcodes) opcodes
  end.
Lemma all_found_true : all_found = true.
Proof. vm_compute. reflexivity. Qed.

Lemma in_opcodes : forall op, 0 <= op < 256 -> In op opcodes.
Proof.
  intros op H. unfold opcodes. apply in_map_iff. exists (Z.to_nat op). split; [lia|]. apply in_seq. cbn [Nat.add]. change 256%nat with (Z.to_nat 256). lia.
Qed.

Lemma found_facts : forall im, make_map default_table default_last_mode = Some im ->
  (forall op, 0 <= op < 256 -> first_found im op = true /\ (forall h, rfc_table op <> (HNoop, h))) /\
  (forall f op, 0 <= f < 256 -> 0 <= op < 256 -> second_found im f op = true).
Proof.
  intros im MK. pose proof all_found_true as A. unfold all_found in A. rewrite MK in A. rewrite forallb_forall in A. split.
  - intros op O. specialize (A op (in_opcodes op O)). apply andb_prop in A. destruct A as [A _]. apply andb_prop in A. destruct A as [A B].
    split; [exact A|]. intros h E. rewrite E in B. discriminate.
  - intros f op F O. specialize (A op (in_opcodes op O)). apply andb_prop in A. destruct A as [_ A]. rewrite forallb_forall in A. apply A. apply in_opcodes. exact F.
Qed.

Lemma first_complete : forall im op inst k mode, make_map default_table default_last_mode = Some im -> 0 <= op < 256 -> 1 <= inst <= 3 ->
  (inst <> 3 -> mode = 0) -> rfc_table op = (half_for inst k mode, HNoop) ->
  exists o, first_lookup (im_first im) inst k mode = Some o /\ o <> kNoOpcode.
Proof.
  intros im op inst k mode MK O I M E. destruct (proj1 (found_facts im MK) op O) as [F _]. unfold first_found in F. rewrite E in F. cbv zeta in F.
  assert (inst = 1 \/ inst = 2 \/ inst = 3) as [-> |[-> | ->]] by lia; unfold half_for in F; cbn [Z.eqb Pos.eqb] in F;
    try rewrite (M ltac:(lia)) in *; (destruct (first_lookup _ _ _ _) as [o|]; [|discriminate]; exists o; split; [reflexivity|]; destruct (Z.eqb_spec o kNoOpcode); [discriminate|assumption]).
Qed.

Lemma second_complete : forall im f op h inst k mode, make_map default_table default_last_mode = Some im -> 0 <= f < 256 -> 0 <= op < 256 -> 1 <= inst <= 3 ->
  (inst <> 3 -> mode = 0) -> h <> HInvalid -> rfc_table f = (h, HNoop) -> rfc_table op = (h, half_for inst k mode) ->
  0 < k /\ exists o, second_lookup (im_second im) f inst k mode = Some o /\ o <> kNoOpcode.
Proof.
  intros im f op h inst k mode MK F O I M HI EF EO. pose proof (proj2 (found_facts im MK) f op F O) as S. unfold second_found in S. rewrite EF, EO in S. cbv zeta in S.
  assert (half_eqb h h = true) as HE by (destruct h; cbn [half_eqb]; try apply andb_true_intro; try split; try apply Z.eqb_refl; try reflexivity; congruence).
  rewrite HE in S.
  assert (inst = 1 \/ inst = 2 \/ inst = 3) as [-> |[-> | ->]] by lia; unfold half_for in S; cbn [Z.eqb Pos.eqb] in S; apply andb_prop in S; destruct S as [S1 S];
    try rewrite (M ltac:(lia)) in *; (split; [lia|]; destruct (second_lookup _ _ _ _ _) as [o|]; [|discriminate]; exists o; split; [reflexivity|]; destruct (Z.eqb_spec o kNoOpcode); [discriminate|assumption]).
Qed.

Lemma small_sizes : forall op h g, 0 <= op < 256 -> rfc_table op = (h, g) -> half_size h <= 255 /\ half_size g <= 255 /\ h <> HInvalid.
Proof.
  intros op h g O E.
  assert (forallb (fun op => let '(h, g) := rfc_table op in (half_size h <=? 255) && (half_size g <=? 255) && match h with HInvalid => false | _ => true end) opcodes = true) as A by (vm_compute; reflexivity).
  rewrite forallb_forall in A. specialize (A op (in_opcodes op O)). rewrite E in A.
  apply andb_prop in A. destruct A as [A C]. apply andb_prop in A. destruct A as [A B]. split; [lia|]. split; [lia|]. intros ->. discriminate.
Qed.


Definition no_explicit_second : bool :=
  match make_map default_table default_last_mode with
  | None => false
  | Some im => forallb (fun f => forallb (fun inst => forallb (fun mode =>
      match second_lookup (im_second im) f inst 0 mode with Some o => o =? kNoOpcode | None => true end)
      [0; 1; 2; 3; 4; 5; 6; 7; 8]) [1; 2; 3]) opcodes
  end.
Lemma no_explicit_second_fact : forall im f inst mode, make_map default_table default_last_mode = Some im -> 0 <= f < 256 -> 1 <= inst <= 3 -> 0 <= mode <= 8 ->
  forall o, second_lookup (im_second im) f inst 0 mode = Some o -> o = kNoOpcode.
Proof.
  intros im f inst mode MK F I M o E.
  assert (no_explicit_second = true) as A by (vm_compute; reflexivity). unfold no_explicit_second in A. rewrite MK in A.
  rewrite forallb_forall in A. specialize (A f (in_opcodes f F)). rewrite forallb_forall in A.
  specialize (A inst ltac:(cbn [In]; lia)). rewrite forallb_forall in A. specialize (A mode ltac:(cbn [In]; lia)). rewrite E in A. lia.
Qed.

Lemma size_bytes_shortest : forall n ps, 0 <= n <= int32_max -> varint ps n -> zlen (size_bytes n) <= zlen ps.
Proof.
  intros n ps N V. unfold size_bytes. rewrite to_int32_id by (unfold int32_max in *; lia). unfold encode_bytes.
  destruct (encode_total I32 n I32_ok N) as (l & -> & V' & _ & HD). eapply canonical_shortest; eauto.
Qed.

Lemma half_for_inj : forall inst k mode, 1 <= inst <= 3 -> half_size (half_for inst k mode) = k.
Proof. intros inst k mode I. assert (inst = 1 \/ inst = 2 \/ inst = 3) as [-> |[-> | ->]] by lia; reflexivity. Qed.

Lemma single_short : forall im w inst size mode w' op k ps,
  make_map default_table default_last_mode = Some im -> 1 <= inst <= 3 -> (inst <> 3 -> mode = 0) -> 1 <= size <= 2147483647 ->
  encode_single w im inst size mode = Some w' -> 0 <= op < 256 -> rfc_table op = (half_for inst k mode, HNoop) -> size_code k ps size ->
  zlen (wr_inst w') <= zlen (wr_inst w) + 1 + zlen ps.
Proof.
  intros im w inst size mode w' op k ps MK I M S E O EO SC. pose proof (zlen_nonneg _ ps).
  destruct (first_complete im op inst k mode MK O I M EO) as (o & EF & NO).
  destruct (small_sizes op _ _ O EO) as (KS & _). rewrite (half_for_inj inst k mode I) in KS.
  unfold encode_single in E.
  destruct (if size <=? 255 then first_lookup (im_first im) inst size mode else Some kNoOpcode) as [o1|] eqn:E1; [|discriminate].
  destruct (Z.eqb_spec o1 kNoOpcode) as [->|N1]; cbn [negb] in E.
  - destruct SC as [(KP & -> & ->)|(-> & V)].
    + destruct (Z.leb_spec k 255); [|lia]. congruence.
    + rewrite EF in E. destruct (Z.eqb_spec o kNoOpcode); [contradiction|]. injection E as <-. cbn [set_inst wr_inst].
      rewrite zlen_app, zlen_cons. pose proof (size_bytes_shortest size ps ltac:(unfold int32_max; lia) V). lia.
  - injection E as <-. cbn [set_inst wr_inst]. rewrite zlen_app, zlen_cons, zlen_nil. lia.
Qed.

(** With the default code table, one call of EncodeInstruction never makes the
    instruction stream longer than any opcode [op] of the RFC's table, with the size
    bytes [ps] it needs, would: [op] for this instruction alone, or, where the
    previous opcode [f] may still be replaced, [op] for both instructions. *)
Theorem C44_short_instruction : forall im w inst size mode w',
  make_map default_table default_last_mode = Some im -> wr_map w = Some im -> bytes_ok (wr_inst w) ->
  1 <= inst <= 3 -> 0 <= mode <= 8 -> (inst <> 3 -> mode = 0) -> 1 <= size <= 2147483647 ->
  encode_instruction w inst size mode = Some w' ->
  (forall op k ps, 0 <= op < 256 -> rfc_table op = (half_for inst k mode, HNoop) -> size_code k ps size ->
     zlen (wr_inst w') <= zlen (wr_inst w) + 1 + zlen ps) /\
  (forall f h op k ps, 0 <= wr_last w -> get (wr_inst w) (wr_last w) = Some f -> rfc_table f = (h, HNoop) ->
     0 <= op < 256 -> rfc_table op = (h, half_for inst k mode) -> size_code k ps size ->
     zlen (wr_inst w') <= zlen (wr_inst w) + zlen ps).
Proof.
  intros im w inst size mode w' MK WM B I M MZ S E. unfold encode_instruction in E. rewrite WM in E. split.
  - intros op k ps O EO SC. pose proof (zlen_nonneg _ ps).
    destruct (0 <=? wr_last w); [|exact (single_short im w inst size mode w' op k ps MK I MZ S E O EO SC)].
    destruct (get (wr_inst w) (wr_last w)) as [f|] eqn:EG; [|discriminate].
    assert (0 <= f < 256) as FB by exact (bytes_ok_get _ _ _ B EG).
    destruct (if size <=? 255 then _ else _) as [o1|]; [|discriminate]. destruct (negb (o1 =? kNoOpcode)).
    + destruct (put _ _ _) as [l|] eqn:EP; [|discriminate]. injection E as <-. cbn [set_inst wr_inst]. apply put_inv in EP. lia.
    + destruct (second_lookup (im_second im) f inst 0 mode) as [o2|] eqn:E2; [|discriminate].
      rewrite (no_explicit_second_fact im f inst mode MK FB I M o2 E2) in E. rewrite Z.eqb_refl in E. cbn [negb] in E. exact (single_short im w inst size mode w' op k ps MK I MZ S E O EO SC).
  - intros f h op k ps WL EG EF O EO SC. pose proof (zlen_nonneg _ ps).
    destruct (Z.leb_spec 0 (wr_last w)); [|lia]. rewrite EG in E.
    assert (0 <= f < 256) as FB by exact (bytes_ok_get _ _ _ B EG).
    destruct (small_sizes f _ _ FB EF) as (_ & _ & HI).
    destruct (second_complete im f op h inst k mode MK FB O I MZ HI EF EO) as (KP & o & E2 & NO).
    destruct (small_sizes op _ _ O EO) as (_ & KS & _). rewrite (half_for_inj inst k mode I) in KS.
    destruct SC as [(_ & -> & ->)|(-> & _)]; [|lia].
    destruct (Z.leb_spec k 255); [|lia]. rewrite E2 in E. destruct (Z.eqb_spec o kNoOpcode); [contradiction|]. cbn [negb] in E.
    destruct (put _ _ _) as [l|] eqn:EP; [|discriminate]. injection E as <-. cbn [set_inst wr_inst]. apply put_inv in EP. lia.
Qed.
Print Assumptions C44_short_instruction.

(** ** The whole instruction section

    What the opcodes say about an instruction: its type (1 ADD, 2 RUN, 3 COPY), its
    size and, for COPY, the mode of its address. *)
Definition head : Type := Z * Z * Z.
Definition head_of (i : instruction) (h : head) : Prop :=
  match i with
  | Add d => h = (1, zlen d, 0)
  | Run n _ => h = (2, n, 0)
  | Copy _ n => exists m, 0 <= m <= 8 /\ h = (3, n, m)
  end.

(** The instruction sections, in the standard format, for a list of heads. *)
Inductive opcode_seq : list head -> list Z -> Prop :=
| os_nil : opcode_seq [] []
| os_one : forall hs q t n m op k ps,
    opcode_seq hs q -> 0 <= op < 256 -> rfc_table op = (half_for t k m, HNoop) -> size_code k ps n ->
    opcode_seq (hs ++ [(t, n, m)]) (q ++ op :: ps)
| os_two : forall hs q t1 n1 m1 k1 p1 t2 n2 m2 k2 p2 op,
    opcode_seq hs q -> 0 <= op < 256 -> rfc_table op = (half_for t1 k1 m1, half_for t2 k2 m2) ->
    size_code k1 p1 n1 -> size_code k2 p2 n2 ->
    opcode_seq (hs ++ [(t1, n1, m1); (t2, n2, m2)]) (q ++ op :: p1 ++ p2).

Definition head_ok (h : head) : Prop :=
  let '(t, n, m) := h in 1 <= t <= 3 /\ 1 <= n <= 2147483647 /\ 0 <= m <= 8 /\ (t <> 3 -> m = 0).

(** Both sizes of an opcode for two instructions are given by the table, and each
    of its halves has an opcode of its own. *)
Definition pairs_plain : bool :=
  forallb (fun op =>
    match rfc_table op with
    | (_, HNoop) => true
    | (h, g) => (0 <? half_size h) && (0 <? half_size g) && existsb (fun f => let '(a, b) := rfc_table f in half_eqb a h && half_eqb b HNoop) opcodes
        && existsb (fun f => let '(a, b) := rfc_table f in half_eqb a g && half_eqb b HNoop) opcodes
    end) opcodes.
Lemma half_eqb_eq : forall a b, half_eqb a b = true -> a = b.
Proof. intros a b E. destruct a, b; cbn in E; try discriminate; try reflexivity; f_equal; lia. Qed.

Lemma pair_plain : forall op h g, 0 <= op < 256 -> rfc_table op = (h, g) -> g <> HNoop ->
  0 < half_size h /\ 0 < half_size g /\ (exists f, 0 <= f < 256 /\ rfc_table f = (h, HNoop)) /\ (exists f, 0 <= f < 256 /\ rfc_table f = (g, HNoop)).
Proof.
  intros op h g O E N. assert (pairs_plain = true) as A by (vm_compute; reflexivity). unfold pairs_plain in A. rewrite forallb_forall in A.
  specialize (A op (in_opcodes op O)). rewrite E in A.
  assert ((0 <? half_size h) && (0 <? half_size g) && existsb (fun f => let '(a, b) := rfc_table f in half_eqb a h && half_eqb b HNoop) opcodes
        && existsb (fun f => let '(a, b) := rfc_table f in half_eqb a g && half_eqb b HNoop) opcodes = true) as B by (destruct g; try exact A; congruence).
  clear A. repeat (apply andb_prop in B; destruct B as [B ?]). split; [lia|]. split; [lia|].
  assert (forall x, existsb (fun f => let '(a, b) := rfc_table f in half_eqb a x && half_eqb b HNoop) opcodes = true -> exists f, 0 <= f < 256 /\ rfc_table f = (x, HNoop)) as EX.
  { intros x X. apply existsb_exists in X. destruct X as (f & F & X). exists f. split; [apply opcodes_in; exact F|].
    destruct (rfc_table f) as [a b]. apply andb_prop in X. destruct X as [X1 X2]. apply half_eqb_eq in X1, X2. congruence. }
  split; apply EX; assumption.
Qed.

Lemma half_for_not_noop : forall t k m, half_for t k m <> HNoop.
Proof. intros t k m. unfold half_for. destruct (t =? 1); [discriminate|]. destruct (t =? 2); discriminate. Qed.
Lemma half_for_size : forall t k m, half_size (half_for t k m) = k.
Proof. intros t k m. unfold half_for. destruct (t =? 1); [reflexivity|]. destruct (t =? 2); reflexivity. Qed.

(** An encoding ends in one opcode for the last instruction, or for the last two;
    in the latter case the last but one could have had an opcode of its own. *)
Lemma seq_snoc : forall hs t n m q, opcode_seq (hs ++ [(t, n, m)]) q ->
  (exists q0 op k ps, q = q0 ++ op :: ps /\ opcode_seq hs q0 /\ 0 <= op < 256 /\ rfc_table op = (half_for t k m, HNoop) /\ size_code k ps n) \/
  (exists hs0 t1 n1 m1 q0 op f, hs = hs0 ++ [(t1, n1, m1)] /\ q = q0 ++ [op] /\ opcode_seq hs0 q0 /\ 0 <= op < 256 /\ 0 <= f < 256 /\
     rfc_table op = (half_for t1 n1 m1, half_for t n m) /\ rfc_table f = (half_for t1 n1 m1, HNoop) /\ 0 < n1 /\ 0 < n).
Proof.
  intros hs t n m q Q. inversion Q as [E|hs1 q1 t1 n1 m1 op k ps Q1 O R SC E EQ|hs1 q1 t1 n1 m1 k1 p1 t2 n2 m2 k2 p2 op Q1 O R S1 S2 E EQ].
  - destruct hs; discriminate.
  - apply app_inj_tail in E. destruct E as [-> E]. injection E as <- <- <-. left. exists q1, op, k, ps. auto.
  - change [(t1, n1, m1); (t2, n2, m2)] with ([(t1, n1, m1)] ++ [(t2, n2, m2)]) in E. rewrite app_assoc in E.
    apply app_inj_tail in E. destruct E as [<- E]. injection E as <- <- <-.
    destruct (pair_plain op _ _ O R (half_for_not_noop _ _ _)) as (P1 & P2 & (f & F & RF) & _). rewrite half_for_size in P1, P2.
    destruct S1 as [(_ & -> & ->)|(-> & _)]; [|lia]. destruct S2 as [(_ & -> & ->)|(-> & _)]; [|lia].
    right. exists hs1, t1, k1, m1, q1, op, f. split; [reflexivity|]. auto 12.
Qed.

Record greedy (im : instruction_map) (w : writer) (hs : list head) : Prop := {
  gr_map : wr_map w = Some im;
  gr_bytes : bytes_ok (wr_inst w);
  gr_seq : opcode_seq hs (wr_inst w);
  gr_min : forall q, opcode_seq hs q -> zlen (wr_inst w) <= zlen q;
  gr_closed : wr_last w < 0 -> forall hs0 t n m q op k ps, hs = hs0 ++ [(t, n, m)] -> opcode_seq hs0 q -> 0 <= op < 256 ->
    rfc_table op = (half_for t k m, HNoop) -> size_code k ps n -> zlen (wr_inst w) + 1 <= zlen (q ++ op :: ps);
  gr_open : 0 <= wr_last w -> exists hs0 t n m q op k ps, hs = hs0 ++ [(t, n, m)] /\ wr_inst w = q ++ op :: ps /\ wr_last w = zlen q /\
    opcode_seq hs0 q /\ 0 <= op < 256 /\ rfc_table op = (half_for t k m, HNoop) /\ size_code k ps n /\
    (forall f, 0 <= f < 256 -> rfc_table f = (half_for t n m, HNoop) -> k = n)
}.

Lemma half_for_eq : forall t k m t' k' m', 1 <= t <= 3 -> 1 <= t' <= 3 -> (t <> 3 -> m = 0) -> (t' <> 3 -> m' = 0) -> half_for t k m = half_for t' k' m' -> t = t' /\ k = k' /\ m = m'.
Proof.
  intros t k m t' k' m' T T' M M' E.
  assert (t = 1 \/ t = 2 \/ t = 3) as [-> |[-> | ->]] by lia; assert (t' = 1 \/ t' = 2 \/ t' = 3) as [-> |[-> | ->]] by lia;
    unfold half_for in E; cbn [Z.eqb Pos.eqb] in E; try discriminate; injection E as -> ; repeat split; try rewrite M, M' by lia; auto.
Qed.

(** Without an opcode for the last two, the instruction gets the shortest of its own. *)
Lemma greedy_single : forall im w hs t n m w', make_map default_table default_last_mode = Some im -> greedy im w hs -> Forall head_ok hs -> head_ok (t, n, m) ->
  encode_single w im t n m = Some w' ->
  (0 <= wr_last w -> forall hs0 t1 n1 m1 op, hs = hs0 ++ [(t1, n1, m1)] -> 0 <= op < 256 -> rfc_table op <> (half_for t1 n1 m1, half_for t n m)) ->
  greedy im w' (hs ++ [(t, n, m)]).
Proof.
  intros im w hs t n m w' MK G HO (T & N & M & MZ) E NP.
  assert (exists op k ps, w' = set_inst w (wr_inst w ++ op :: ps) (zlen (wr_inst w)) /\ 0 <= op < 256 /\ bytes_ok ps /\ rfc_table op = (half_for t k m, HNoop) /\ size_code k ps n /\
     (forall f, 0 <= f < 256 -> rfc_table f = (half_for t n m, HNoop) -> k = n)) as (op & k & ps & -> & O & BP & R & SC & KN).
  { assert (forall size o, first_lookup (im_first im) t size m = Some o -> o <> kNoOpcode -> to_uchar o = o /\ 0 <= o < 256 /\ rfc_table o = (half_for t size m, HNoop)) as FL.
    { intros size o F NO. destruct (C21_first_lookup im t size m MK T M) as (o' & F' & [-> |(OB & D)] & _); [congruence|].
      rewrite F in F'. injection F' as <-. split; [unfold to_uchar; apply Z.mod_small; exact OB|]. split; [exact OB|].
      destruct D as [D|D]; [exact D|]. destruct (proj1 (found_facts im MK) o OB) as [_ NN]. destruct (NN _ D). }
    unfold encode_single in E. destruct (if n <=? 255 then first_lookup (im_first im) t n m else Some kNoOpcode) as [o|] eqn:E1; [|discriminate].
    destruct (Z.eqb_spec o kNoOpcode) as [->|NO]; cbn [negb] in E.
    - destruct (first_lookup (im_first im) t 0 m) as [o|] eqn:E2; [|discriminate].
      destruct (C21_first_lookup im t 0 m MK T M) as (o' & F' & _ & NZ). rewrite E2 in F'. injection F' as <-. specialize (NZ eq_refl).
      destruct (Z.eqb_spec o kNoOpcode); [contradiction|]. destruct (FL 0 o E2 NZ) as (UO & OB & RO).
      destruct (size_bytes_ok n) as (V & B & _); [unfold int32_max; lia|].
      exists o, 0, (size_bytes n). rewrite UO in E. split; [injection E as <-; reflexivity|]. split; [exact OB|]. split; [exact B|]. split; [exact RO|]. split; [right; auto|]. intros f F RF. exfalso.
      destruct (first_complete im f t n m MK F T MZ RF) as (o2 & E3 & N3). destruct (small_sizes f _ _ F RF) as (SZ & _). rewrite half_for_size in SZ.
      assert (n <=? 255 = true) as LE by lia. rewrite LE, E3 in E1. congruence.
    - destruct (n <=? 255); [|congruence]. destruct (FL n o E1 NO) as (UO & OB & RO).
      exists o, n, []. rewrite UO in E. split; [injection E as <-; reflexivity|]. split; [exact OB|]. split; [constructor|]. split; [exact RO|]. split; [left; split; [lia|auto]|auto]. }
  assert (forall op' k' ps', 0 <= op' < 256 -> rfc_table op' = (half_for t k' m, HNoop) -> size_code k' ps' n -> zlen (wr_inst w ++ op :: ps) <= zlen (wr_inst w) + 1 + zlen ps') as SS.
  { intros op' k' ps' O' R' SC'. exact (single_short im w t n m _ op' k' ps' MK T MZ N E O' R' SC'). }
  assert (zlen (wr_inst w) + 1 <= zlen (wr_inst w ++ op :: ps)) as GE by (rewrite zlen_app, zlen_cons; pose proof (zlen_nonneg _ ps); lia).
  constructor; cbn [set_inst wr_map wr_inst wr_last].
  - apply (gr_map _ _ _ G).
  - apply bytes_ok_app. split; [apply (gr_bytes _ _ _ G)|]. constructor; assumption.
  - eapply os_one; eauto. apply (gr_seq _ _ _ G).
  - intros q Q. destruct (seq_snoc _ _ _ _ _ Q) as [(q0 & op' & k' & ps' & -> & Q0 & O' & R' & SC')|(hs0 & t1 & n1 & m1 & q0 & op' & f & -> & -> & Q0 & O' & F & R' & RF & P1 & P2)].
    + specialize (SS op' k' ps' O' R' SC'). pose proof (gr_min _ _ _ G q0 Q0). rewrite (zlen_app _ q0), zlen_cons. lia.
    + destruct (Z.ltb_spec (wr_last w) 0) as [L|L].
      * destruct (pair_plain op' _ _ O' R' (half_for_not_noop _ _ _)) as (_ & _ & _ & (g & GB & RG)).
        specialize (SS g n [] GB RG ltac:(left; auto)). rewrite zlen_nil in SS.
        pose proof (gr_closed _ _ _ G L hs0 t1 n1 m1 q0 f n1 [] eq_refl Q0 F RF ltac:(left; auto)) as C.
        rewrite zlen_app, zlen_cons, zlen_nil in C. rewrite (zlen_app _ q0), zlen_cons, zlen_nil. lia.
      * destruct (NP L hs0 t1 n1 m1 op' eq_refl O' R').
  - intros L. pose proof (zlen_nonneg _ (wr_inst w)). lia.
  - intros _. exists hs, t, n, m, (wr_inst w), op, k, ps. auto 10 using (gr_seq _ _ _ G).
Qed.

Lemma greedy_step : forall im w hs t n m w', make_map default_table default_last_mode = Some im -> greedy im w hs -> Forall head_ok hs -> head_ok (t, n, m) ->
  encode_instruction w t n m = Some w' -> greedy im w' (hs ++ [(t, n, m)]).
Proof.
  intros im w hs t n m w' MK G HO H E. pose proof H as (T & N & M & MZ). unfold encode_instruction in E. rewrite (gr_map _ _ _ G) in E.
  destruct (Z.leb_spec 0 (wr_last w)) as [L|L].
  2: { eapply greedy_single; eauto. intros ?; lia. }
  destruct (gr_open _ _ _ G L) as (hs0 & t1 & n1 & m1 & q & f & k1 & p1 & EH & EI & EL & Q0 & F & RF & S1 & KN).
  rewrite EI, EL in E. rewrite get_mid in E.
  assert (head_ok (t1, n1, m1)) as (T1 & N1 & M1 & MZ1) by (rewrite EH in HO; apply Forall_app in HO; destruct HO as [_ HO]; inversion HO; assumption).
  destruct (C21_second_lookup im f t n m MK T M) as (o & E2 & D). 
  assert (second_lookup (im_second im) f t n m = Some kNoOpcode -> greedy im w' (hs ++ [(t, n, m)])) as NOPAIR.
  { intros NO. assert ((if n <=? 255 then second_lookup (im_second im) f t n m else Some kNoOpcode) = Some kNoOpcode) as EIF by (destruct (n <=? 255); auto).
    rewrite EIF in E. rewrite Z.eqb_refl in E. cbn [negb] in E.
    destruct (second_lookup (im_second im) f t 0 m) as [o2|] eqn:E3; [|discriminate].
    rewrite (no_explicit_second_fact im f t m MK F T M o2 E3) in E. rewrite Z.eqb_refl in E. cbn [negb] in E.
    eapply greedy_single; eauto. intros _ hsx tx nx mx op EX O R. rewrite EH in EX. apply app_inj_tail in EX. destruct EX as [<- EX]. injection EX as <- <- <-.
    destruct (pair_plain op _ _ O R (half_for_not_noop _ _ _)) as (_ & _ & (g & GB & RG) & _).
    rewrite (KN g GB RG) in RF.
    destruct (second_complete im f op _ t n m MK F O T MZ (proj2 (proj2 (small_sizes f _ _ F RF))) RF R) as (_ & o' & E4 & NE). congruence. }
  destruct D as [-> |(OB & _ & h & NH & DF & RO)]; [exact (NOPAIR E2)|].
  assert (h = half_for t1 k1 m1) as -> by (destruct DF as [DF|DF]; rewrite RF in DF; [congruence|injection DF as DF _; destruct (half_for_not_noop _ _ _ DF)]).
  destruct (small_sizes o _ _ OB RO) as (_ & NS & _). rewrite half_for_size in NS.
  destruct (pair_plain o _ _ OB RO (half_for_not_noop _ _ _)) as (P1 & P2 & _ & (g & GB & RG)). rewrite half_for_size in P1, P2.
  destruct S1 as [(_ & -> & ->)|(-> & _)]; [|lia].
  destruct (Z.leb_spec n 255); [|lia]. rewrite E2 in E.
  destruct (Z.eqb_spec o kNoOpcode) as [EQ|NE]; [rewrite EQ in E2; exact (NOPAIR E2)|]. cbn [negb] in E. rewrite put_mid in E. injection E as <-.
  assert (to_uchar o = o) as UO by (unfold to_uchar; apply Z.mod_small; exact OB). rewrite UO.
  pose proof (gr_min _ _ _ G) as MIN. rewrite EI, EH in MIN. rewrite EH, <- app_assoc. cbn [app].
  pose proof (gr_bytes _ _ _ G) as GB2. rewrite EI in GB2. apply bytes_ok_app in GB2.
  constructor; cbn [set_inst wr_map wr_inst wr_last].
  - apply (gr_map _ _ _ G).
  - apply bytes_ok_app. split; [apply GB2|constructor; [exact OB|constructor]].
  - change [o] with (o :: [] ++ []). eapply os_two; eauto; left; auto.
  - intros x X. change [(t1, k1, m1); (t, n, m)] with ([(t1, k1, m1)] ++ [(t, n, m)]) in X. rewrite app_assoc in X.
    rewrite zlen_app, zlen_cons, zlen_nil in *.
    destruct (seq_snoc _ _ _ _ _ X) as [(q0 & op' & k' & ps' & -> & Q1 & O' & R' & SC')|(hsx & tx & nx & mx & q0 & op' & f' & EX & -> & Q1 & O' & F' & R' & RF' & P3 & P4)].
    + specialize (MIN q0 Q1). rewrite (zlen_app _ q0), zlen_cons. pose proof (zlen_nonneg _ ps'). lia.
    + assert (opcode_seq (hs0 ++ [(t1, k1, m1)]) (q0 ++ [f'])) as Q2 by (rewrite EX; exact (os_one hsx q0 tx nx mx f' nx [] Q1 F' RF' ltac:(left; auto))). specialize (MIN _ Q2).
      rewrite zlen_app, zlen_cons, zlen_nil in *. lia.
  - intros _ hsx tx nx mx x op' k' ps' EX Q1 O' R' SC'. change [(t1, k1, m1); (t, n, m)] with ([(t1, k1, m1)] ++ [(t, n, m)]) in EX. rewrite app_assoc in EX.
    apply app_inj_tail in EX. destruct EX as [<- EX]. injection EX as <- <- <-. specialize (MIN x Q1).
    rewrite !zlen_app, !zlen_cons, zlen_nil in *. pose proof (zlen_nonneg _ ps'). lia.
  - intros ?; lia.
Qed.

Lemma update_cache_sizes : forall c a c', update_cache c a = Some c' -> near_size c' = near_size c /\ same_size c' = same_size c.
Proof.
  intros c a c' E. unfold update_cache in E.
  repeat match type of E with context [match ?x with _ => _ end] => destruct x eqn:?; try discriminate end; injection E as <-; cbn; auto.
Qed.

Lemma near_loop_mode : forall c a k i best best', encode_near_loop c a k i best = Some best' -> 0 <= i -> 0 <= fst best <= 5 -> i + Z.of_nat k <= 4 -> 0 <= fst best' <= 5.
Proof.
  induction k as [|k IH]; intros i best best' E I B K; cbn [encode_near_loop] in E; [congruence|].
  destruct (get (near_a c) i); [|discriminate]. cbv zeta in E. eapply IH; [exact E|lia| |lia].
  destruct (_ && _); [|exact B]. cbn [fst]. unfold to_uchar. rewrite Z.mod_small by lia. lia.
Qed.

Lemma encode_address_mode : forall c a here mode e c', near_size c = 4 -> same_size c = 3 -> encode_address c a here = Some (mode, e, c') ->
  0 <= mode <= 8 /\ near_size c' = 4 /\ same_size c' = 3.
Proof.
  intros c a here mode e c' N S E. unfold encode_address in E. destruct (_ || _); [injection E as <- <- <-; lia|].
  rewrite S in E. cbn [Z.ltb Z.compare] in E. destruct (get _ _) as [x|]; [|discriminate]. destruct (x =? a).
  - cbv zeta in E. destruct (update_cache c a) as [c1|] eqn:U; [|discriminate]. destruct (update_cache_sizes _ _ _ U). injection E as <- _ <-. 
    split; [|lia]. unfold first_same_mode. rewrite N. 
    assert (0 <= a mod (3 * 256) / 256 <= 2) by (pose proof (Z.mod_pos_bound a (3 * 256) ltac:(lia)); split; [apply Z.div_pos; lia|]; assert (a mod (3 * 256) / 256 < 3) by (apply Z.div_lt_upper_bound; lia); lia).
    unfold to_uchar. rewrite (Z.mod_small (a mod (3 * 256) / 256)) by lia. rewrite Z.mod_small by lia. lia.
  - cbv zeta in E. destruct (encode_near_loop _ _ _ _ _) as [b|] eqn:L; [|discriminate].
    destruct (update_cache c a) as [c1|] eqn:U; [|discriminate]. destruct (update_cache_sizes _ _ _ U). injection E as <- _ <-.
    pose proof (near_loop_mode _ _ _ _ _ _ L ltac:(lia)) as B. rewrite N in B. split; [|lia]. 
    assert (0 <= fst b <= 5); [|lia]. apply B; [|cbn; lia]. cbn [snd]. destruct (_ <? _); cbn [fst]; lia.
Qed.

Lemma greedy_eq : forall im w w' hs, greedy im w hs -> wr_map w' = wr_map w -> wr_inst w' = wr_inst w -> wr_last w' = wr_last w -> greedy im w' hs.
Proof. intros im w w' hs [] E1 E2 E3. constructor; rewrite ?E1, ?E2, ?E3; assumption. Qed.

(** Sizes of at least 1. *)
Definition sized (i : instruction) : Prop :=
  match i with Add d => 1 <= zlen d <= 2147483647 | Copy _ n => 1 <= n <= 2147483647 | Run n _ => 1 <= n <= 2147483647 end.

Lemma encode_instruction_rest : forall w t n m w', encode_instruction w t n m = Some w' -> wr_il w' = wr_il w /\ wr_cache w' = wr_cache w.
Proof.
  intros w t n m w' E. unfold encode_instruction, encode_single in E.
  repeat match type of E with context [match ?x with _ => _ end] => destruct x eqn:?; try discriminate end; injection E as <-; cbn; auto.
Qed.

Lemma greedy_calls : forall im, make_map default_table default_last_mode = Some im -> forall l w hs w', greedy im w hs -> Forall head_ok hs ->
  wr_il w = false -> near_size (wr_cache w) = 4 -> same_size (wr_cache w) = 3 -> Forall sized l -> writer_calls w l = Some w' ->
  exists hs', Forall2 head_of l hs' /\ greedy im w' (hs ++ hs').
Proof.
  intros im MK. induction l as [|i l IH]; intros w hs w' G HO IL NS SS F E; cbn [writer_calls] in E.
  - injection E as <-. exists []. split; [constructor|rewrite app_nil_r; exact G].
  - destruct (writer_call w i) as [w1|] eqn:C; [|discriminate]. inversion F as [|? ? F1 F2]; subst.
    assert (exists h, head_of i h /\ head_ok h /\ greedy im w1 (hs ++ [h]) /\ wr_il w1 = false /\ near_size (wr_cache w1) = 4 /\ same_size (wr_cache w1) = 3) as (h & HI & HK & G1 & IL1 & NS1 & SS1).
    { destruct i as [d|a n|n b]; cbn [writer_call sized head_of] in *.
      - unfold writer_add in C. destruct (encode_instruction w VCD_ADD (zlen d) 0) as [w2|] eqn:E2; [|discriminate].
        injection C as <-. destruct (encode_instruction_rest _ _ _ _ _ E2) as (R1 & R2).
        assert (head_ok (1, zlen d, 0)) as HK by (repeat split; lia).
        exists (1, zlen d, 0). split; [reflexivity|]. split; [exact HK|]. unfold append_data. rewrite R1, IL. cbn [set_sections wr_il wr_cache]. rewrite R1, R2.
        split; [|auto]. eapply greedy_eq; [eapply greedy_step; eauto|reflexivity..].
      - unfold writer_copy in C. rewrite (gr_map _ _ _ G) in C.
        destruct (encode_address _ _ _) as [[[mode e] c]|] eqn:EA; [|discriminate]. cbv zeta in C.
        destruct (encode_address_mode _ _ _ _ _ _ NS SS EA) as (M & CN & CS).
        destruct (encode_instruction _ VCD_COPY n mode) as [w2|] eqn:E2; [|discriminate].
        injection C as <-. destruct (encode_instruction_rest _ _ _ _ _ E2) as (R1 & R2). cbn [set_state wr_il wr_cache] in R1, R2.
        assert (head_ok (3, n, mode)) as HK by (repeat split; lia).
        exists (3, n, mode). split; [exists mode; auto|]. split; [exact HK|]. unfold append_addr. rewrite R1, IL. cbn [set_sections wr_il wr_cache]. rewrite R1, R2.
        split; [|auto]. eapply greedy_eq; [eapply greedy_step; [exact MK| |exact HO|exact HK|exact E2]|reflexivity..].
        eapply greedy_eq; [exact G|cbn; symmetry; apply (gr_map _ _ _ G)|reflexivity..].
      - unfold writer_run in C. destruct (encode_instruction w VCD_RUN n 0) as [w2|] eqn:E2; [|discriminate].
        injection C as <-. destruct (encode_instruction_rest _ _ _ _ _ E2) as (R1 & R2).
        assert (head_ok (2, n, 0)) as HK by (repeat split; lia).
        exists (2, n, 0). split; [reflexivity|]. split; [exact HK|]. unfold append_data. rewrite R1, IL. cbn [set_sections wr_il wr_cache]. rewrite R1, R2.
        split; [|auto]. eapply greedy_eq; [eapply greedy_step; eauto|reflexivity..]. }
    destruct (IH w1 (hs ++ [h]) w' G1) as (hs' & F' & G'); auto.
    { apply Forall_app. split; [exact HO|]. constructor; [exact HK|constructor]. }
    exists (h :: hs'). split; [constructor; assumption|]. rewrite <- app_assoc in G'. exact G'.
Qed.

(** A new writer in the standard format, any calls of Add, Copy and Run with sizes of
    at least 1: the instruction section stands for these calls, and no sequence of
    opcodes and sizes for them (with the same modes) is shorter. *)
Theorem C44_shortest_section : forall n w l w',
  writer_init (new_writer false) n = Some (w, true) -> Forall sized l -> writer_calls w l = Some w' ->
  exists hs, Forall2 head_of l hs /\ opcode_seq hs (wr_inst w') /\
    (forall q, opcode_seq hs q -> zlen (wr_inst w') <= zlen q).
Proof.
  intros n w l w' I F E. unfold writer_init in I. cbn [new_writer new_custom_writer wr_map wr_table wr_max_mode wr_near wr_same] in I.
  destruct (make_map default_table default_last_mode) as [im|] eqn:MK; [|discriminate].
  destruct (cache_init kDefaultNearCacheSize kDefaultSameCacheSize) as [c|] eqn:CI; [|discriminate]. injection I as <-.
  destruct (cache_init_rep kDefaultNearCacheSize kDefaultSameCacheSize c ltac:(unfold kDefaultNearCacheSize; lia) ltac:(unfold kDefaultSameCacheSize; lia) CI) as (_ & CN & CS).
  match type of E with writer_calls ?w0 _ = _ => destruct (fun X Y Z => greedy_calls im MK l w0 [] w' X Y Z CN CS F E) as (hs & F2 & G) end.
  - constructor; cbn [set_state new_writer new_custom_writer wr_map wr_inst wr_last]; try reflexivity.
    + constructor.
    + constructor.
    + intros q Q. rewrite zlen_nil. apply zlen_nonneg.
    + intros _ hs0 t m0 m q op k ps X. destruct hs0; discriminate.
    + cbn. intros ?; lia.
  - constructor.
  - reflexivity.
  - cbn [app] in G. exists hs. split; [exact F2|]. split; [apply (gr_seq _ _ _ G)|apply (gr_min _ _ _ G)].
Qed.
Print Assumptions C44_shortest_section.


(** ADD 1, COPY 4, ADD 2, COPY 5, RUN 300: two opcodes for two instructions each,
    then RUN with its size, in 5 bytes. *)
Definition section_case : option (list Z) :=
  match writer_init (new_writer false) 100 with
  | Some (w, true) =>
      match writer_calls w [Add [7]; Copy 50 4; Add [8; 9]; Copy 20 5; Run 300 0] with
      | Some w' => Some (wr_inst w')
      | None => None
      end
  | _ => None
  end.
Example C44_section_case : section_case = Some [163; 167; 0; 130; 44].
Proof. vm_compute. reflexivity. Qed.

(** COPY of 5 after ADD of 2 takes the place of the opcode of the ADD. *)
Definition short_case : option (list Z * list Z) :=
  match writer_init (new_writer false) 100 with
  | Some (w, true) =>
      match encode_instruction w 1 2 0 with
      | Some w1 => match encode_instruction w1 3 5 1 with Some w2 => Some (wr_inst w1, wr_inst w2) | None => None end
      | None => None
      end
  | _ => None
  end.
Example C44_instruction_case : short_case = Some ([3], [179]) /\ rfc_table 3 = (HAdd 2, HNoop) /\ rfc_table 179 = (HAdd 2, half_for 3 5 1).
Proof. vm_compute. auto. Qed.
