(** Facts about the decoding of a window body: what an accepted body means
    (soundness), that every meaningful body is accepted (completeness), and that
    no undefined behaviour is reached. *)

From Verif Require Import Base Spec Varint VarintFacts AddrCache AddrCacheFacts CodeTable
  InstructionMap DecodeTable HeaderParser Adler Decoder CopyFacts.
From Coq Require Import ZifyBool ZifyNat.

(** ** Code tables *)

(** The meaning of a code table of the implementation. *)
Definition entry (t : table) : code_table := fun op =>
  (half_of (tget (inst1 t) op) (tget (size1 t) op) (tget (mode1 t) op),
   half_of (tget (inst2 t) op) (tget (size2 t) op) (tget (mode2 t) op)).

Lemma tget_range : forall l op, array_ok l -> 0 <= op < 256 -> 0 <= tget l op < 256.
Proof.
  intros l op [L B] O. unfold tget.
  assert (In (nth (Z.to_nat op) l 0) l) as I by (apply nth_In; lia).
  unfold bytes_ok in B. rewrite Forall_forall in B. apply B in I. exact I.
Qed.

Lemma array_okb : forall l, (length l =? 256)%nat && bytes_okb l = true -> array_ok l.
Proof.
  intros l H. apply andb_true_iff in H as [H1 H2]. apply Nat.eqb_eq in H1.
  split; [exact H1|apply bytes_okb_ok; exact H2].
Qed.

Lemma default_table_ok : table_ok default_table.
Proof. repeat split; try reflexivity; apply bytes_okb_ok; vm_compute; reflexivity. Qed.

Definition half_eqb (a b : half) : bool :=
  match a, b with
  | HNoop, HNoop => true
  | HAdd x, HAdd y => x =? y
  | HRun x, HRun y => x =? y
  | HCopy x m, HCopy y n => (x =? y) && (m =? n)
  | HInvalid, HInvalid => true
  | _, _ => false
  end.
Lemma half_eqb_eq : forall a b, half_eqb a b = true -> a = b.
Proof.
  intros [| | | |] [| | | |] H; cbn in H; try discriminate; auto.
  - apply Z.eqb_eq in H. congruence.
  - apply Z.eqb_eq in H. congruence.
  - apply andb_true_iff in H as [H1 H2]. apply Z.eqb_eq in H1, H2. congruence.
Qed.

Lemma in_opcodes : forall op, 0 <= op < 256 -> In op opcodes.
Proof.
  intros op H. unfold opcodes. apply in_map_iff. exists (Z.to_nat op).
  split; [lia|]. apply in_seq. lia.
Qed.

Lemma default_table_rfc : forall op, 0 <= op < 256 -> entry default_table op = rfc_table op.
Proof.
  intros op H.
  assert (forallb (fun op => half_eqb (fst (entry default_table op)) (fst (rfc_table op)) &&
                             half_eqb (snd (entry default_table op)) (snd (rfc_table op))) opcodes = true) as F
    by (vm_compute; reflexivity).
  rewrite forallb_forall in F. specialize (F op (in_opcodes op H)).
  apply andb_true_iff in F as [F1 F2]. apply half_eqb_eq in F1, F2.
  destruct (entry default_table op), (rfc_table op). cbn in *. congruence.
Qed.

(** ** Sections *)

Definition sec3 : Type := list Z * list Z * list Z.
Definition app3 (a b : sec3) : sec3 :=
  let '(a1, a2, a3) := a in let '(b1, b2, b3) := b in (a1 ++ b1, a2 ++ b2, a3 ++ b3).
Definition nil3 : sec3 := ([], [], []).

Lemma app3_assoc : forall a b c, app3 a (app3 b c) = app3 (app3 a b) c.
Proof. intros [[? ?] ?] [[? ?] ?] [[? ?] ?]. cbn. rewrite !app_assoc. reflexivity. Qed.
Lemma app3_nil_l : forall a, app3 nil3 a = a.
Proof. intros [[? ?] ?]. reflexivity. Qed.
Lemma app3_nil_r : forall a, app3 a nil3 = a.
Proof. intros [[? ?] ?]. cbn. rewrite !app_nil_r. reflexivity. Qed.

Definition piece_sec (il : bool) (p : piece) : sec3 :=
  if il then (piece_bytes p, [], []) else (p_size p, p_data p, p_addr p).
Definition item_sec (il : bool) (i : item) : sec3 :=
  if il then (item_bytes i, [], []) else (item_inst i, item_data i, item_addr i).
Definition items_sec (il : bool) (l : list item) : sec3 :=
  if il then (concat (map item_bytes l), [], [])
  else (concat (map item_inst l), concat (map item_data l), concat (map item_addr l)).

Lemma items_sec_cons : forall il i l, items_sec il (i :: l) = app3 (item_sec il i) (items_sec il l).
Proof. intros [|] i l; reflexivity. Qed.
Lemma items_sec_app : forall il a b, items_sec il (a ++ b) = app3 (items_sec il a) (items_sec il b).
Proof. intros [|] a b; cbn; rewrite !map_app, !concat_app; reflexivity. Qed.
Lemma item_sec_split : forall il i,
  item_sec il i = app3 ([i_op i], [], []) (app3 (piece_sec il (i_first i)) (piece_sec il (i_second i))).
Proof. intros [|] i; reflexivity. Qed.
Lemma piece_sec_no : forall il, piece_sec il no_piece = nil3.
Proof. intros [|]; reflexivity. Qed.

Definition sec (st : body) : sec3 := (b_inst st, b_data st, b_addr st).

(** ** Size codes *)

Lemma size_code_nonneg : forall k ps n, size_code k ps n -> 0 <= n.
Proof. intros k ps n [(P & _ & ->)|(_ & V)]; [lia|]. eapply varint_nonneg; eauto. Qed.

Lemma size_code_fun : forall k ps n m, size_code k ps n -> size_code k ps m -> n = m.
Proof. intros k ps n m [(A & B & C)|(A & B & C)] [(D & E & F)|(D & E & F)]; lia. Qed.

(** ** The instruction reader *)

(** Opcodes that stand for no instruction at all. *)
Definition nop_item (op : Z) : item := {| i_op := op; i_first := no_piece; i_second := no_piece |}.
Definition is_nop (t : table) (op : Z) : Prop :=
  byte_ok op /\ tget (inst1 t) op = VCD_NOOP /\ tget (inst2 t) op = VCD_NOOP.

Lemma nops_sec : forall il nops, items_sec il (map nop_item nops) = (nops, [], []).
Proof.
  intros il nops. induction nops as [|op l IH]; [destruct il; reflexivity|].
  cbn [map]. rewrite items_sec_cons, IH. rewrite item_sec_split. cbn [i_op i_first i_second nop_item].
  rewrite piece_sec_no. reflexivity.
Qed.

(** The instruction found by the reader: which half of which opcode. *)
Inductive found (t : table) : option Z -> list Z -> Z -> Z -> Z -> option Z -> list Z -> Prop :=
| found_pending : forall op inst,
    byte_ok op -> tget (inst2 t) op <> VCD_NOOP ->
    found t (Some op) inst (tget (inst2 t) op) (tget (size2 t) op) (tget (mode2 t) op) None inst
| found_first : forall nops op rest,
    Forall (is_nop t) nops -> byte_ok op -> tget (inst1 t) op <> VCD_NOOP ->
    found t None (nops ++ op :: rest)
          (tget (inst1 t) op) (tget (size1 t) op) (tget (mode1 t) op)
          (if tget (inst2 t) op =? VCD_NOOP then None else Some op) rest
| found_second : forall nops op rest,
    Forall (is_nop t) nops -> byte_ok op ->
    tget (inst1 t) op = VCD_NOOP -> tget (inst2 t) op <> VCD_NOOP ->
    found t None (nops ++ op :: rest)
          (tget (inst2 t) op) (tget (size2 t) op) (tget (mode2 t) op) None rest.

Lemma found_inv : forall t p inst ty k mode p' rest,
  found t p inst ty k mode p' rest ->
  (exists op, p = Some op /\ inst = rest /\ byte_ok op /\ tget (inst2 t) op <> VCD_NOOP /\
     ty = tget (inst2 t) op /\ k = tget (size2 t) op /\ mode = tget (mode2 t) op /\ p' = None) \/
  (exists nops op, p = None /\ inst = nops ++ op :: rest /\ Forall (is_nop t) nops /\ byte_ok op /\
     tget (inst1 t) op <> VCD_NOOP /\
     ty = tget (inst1 t) op /\ k = tget (size1 t) op /\ mode = tget (mode1 t) op /\
     p' = (if tget (inst2 t) op =? VCD_NOOP then None else Some op)) \/
  (exists nops op, p = None /\ inst = nops ++ op :: rest /\ Forall (is_nop t) nops /\ byte_ok op /\
     tget (inst1 t) op = VCD_NOOP /\ tget (inst2 t) op <> VCD_NOOP /\
     ty = tget (inst2 t) op /\ k = tget (size2 t) op /\ mode = tget (mode2 t) op /\ p' = None).
Proof.
  intros t p inst ty k mode p' rest F. destruct F.
  - left. exists op. auto 10.
  - right. left. exists nops, op. auto 10.
  - right. right. exists nops, op. auto 10.
Qed.

Definition pending_ok (t : table) (p : option Z) : Prop :=
  match p with None => True | Some op => byte_ok op /\ tget (inst2 t) op <> VCD_NOOP end.

Lemma inst_loop_found : forall t inst p,
  bytes_ok inst -> pending_ok t p ->
  match inst_loop t p inst with
  | inl (ty, k, mode, p', rest) => found t p inst ty k mode p' rest /\ ty <> VCD_NOOP /\ pending_ok t p'
  | inr (p', rest) => p = None /\ p' = None /\ rest = [] /\ Forall (is_nop t) inst
  end.
Proof.
  intros t inst. induction inst as [|op tl IH]; intros p B P.
  - destruct p as [op|]; cbn [inst_loop].
    + destruct P as [P1 P2]. repeat split; auto. constructor; auto.
    + auto.
  - destruct p as [o|].
    + cbn [inst_loop]. destruct P as [P1 P2]. repeat split; auto. constructor; auto.
    + apply bytes_ok_cons in B as [B1 B2]. cbn [inst_loop].
      destruct (Z.eqb_spec (tget (inst1 t) op) VCD_NOOP) as [N1|N1].
      * destruct (Z.eqb_spec (tget (inst2 t) op) VCD_NOOP) as [N2|N2].
        -- specialize (IH None B2 I). destruct (inst_loop t None tl) as [[[[[ty k] mode] p'] rest]|[p' rest]].
           ++ destruct IH as (F & NE & PO). repeat split; auto.
              inversion F; subst.
              ** apply (found_first t (op :: nops)); auto. constructor; auto. repeat split; auto.
                 all: apply B1.
              ** apply (found_second t (op :: nops)); auto. constructor; auto. repeat split; auto.
                 all: apply B1.
           ++ destruct IH as (_ & -> & -> & F). repeat split; auto. constructor; auto. repeat split; auto; apply B1.
        -- destruct tl as [|x tl]; cbn [inst_loop].
           ++ split; [|split; [auto|exact I]]. apply (found_second t []); auto.
           ++ split; [|split; [auto|exact I]]. apply (found_second t []); auto.
      * split; [|split; [auto|]].
        -- apply (found_first t []); auto.
        -- destruct (Z.eqb_spec (tget (inst2 t) op) VCD_NOOP); cbn; auto.
Qed.

Lemma gni_sound : forall t p inst,
  table_ok t -> bytes_ok inst -> pending_ok t p ->
  match get_next_instruction t p inst with
  | NI ty size mode p' rest =>
      exists k ps, found t p inst ty k mode p' (ps ++ rest) /\ ty <> VCD_NOOP /\
        size_code k ps size /\ pending_ok t p' /\ bytes_ok rest /\ size <= int32_max /\ 0 <= mode < 256
  | NI_eod p' rest =>
      (p' = p /\ rest = inst) \/
      (p = None /\ p' = None /\ rest = [] /\ Forall (is_nop t) inst)
  | NI_err => True
  end.
Proof.
  intros t p inst TO B P. unfold get_next_instruction.
  pose proof (inst_loop_found t inst p B P) as F.
  destruct (inst_loop t p inst) as [[[[[ty k] mode] p'] rest]|[p' rest]].
  - destruct F as (F & NE & PO).
    assert (bytes_ok rest) as BR.
    { inversion F; subst; auto; apply bytes_ok_app in B as [_ B]; apply bytes_ok_cons in B; tauto. }
    assert (0 <= k < 256) as KR.
    { destruct TO as (_ & _ & T1 & T2 & _). inversion F; subst; apply tget_range; auto. }
    assert (0 <= mode < 256) as MR.
    { destruct TO as (_ & _ & _ & _ & T1 & T2). inversion F; subst; apply tget_range; auto. }
    destruct (Z.eqb_spec k 0) as [->|N].
    + destruct (parse I32 rest) as [[n rest']| | |] eqn:PE; auto.
      apply parse_inv in PE as (ps & E & V & R); auto; [|left; reflexivity].
      subst rest. apply bytes_ok_app in BR as [_ BR].
      exists 0, ps. repeat split; auto; try apply R; try lia. right. auto.
    + exists k, []. cbn [app]. repeat split; auto; [|unfold int32_max; lia|lia|lia]. left. split; [lia|auto].
  - right. tauto.
Qed.

(** ** Executing one instruction *)

Record binv (dict : list Z) (t : table) (w : window) (prev seg : list Z)
    (st : body) (hist T : list Z) : Prop := {
  bi_target : b_target st = prev ++ T;
  bi_len : zlen T <= w_len w;
  bi_wlen : w_len w <= int32_max;
  bi_slen : w_seglen w <= int32_max;
  bi_seg : seg_ok dict w prev seg;
  bi_none : w_kind w = SegNone -> w_seglen w = 0;
  bi_cache : cache_like (b_cache st) hist;
  bi_pending : pending_ok t (b_pending st);
  bi_binst : bytes_ok (b_inst st);
  bi_bdata : bytes_ok (b_data st);
  bi_baddr : bytes_ok (b_addr st);
  bi_il : b_il st = true -> b_data st = [] /\ b_addr st = []
}.

(** What one executed instruction did. *)
Definition exec_post (dict : list Z) (t : table) (w : window) (prev seg : list Z)
    (st st' : body) (hist T : list Z) (ty size mode : Z) : Prop :=
  exists pd pa hist' T',
    (b_il st' = b_il st /\ b_pending st' = b_pending st /\
     near_size (b_cache st') = near_size (b_cache st) /\
     same_size (b_cache st') = same_size (b_cache st)) /\
    sec st = app3 (if b_il st then (pd ++ pa, [], []) else ([], pd, pa)) (sec st') /\
    binv dict t w prev seg st' hist' T' /\ zlen T' = zlen T + size /\
    forall k ps, size_code k ps size -> zlen T < w_len w ->
      half_means (near_size (b_cache st)) (same_size (b_cache st)) (w_len w) seg
        (half_of ty k mode) {| p_size := ps; p_data := pd; p_addr := pa |} (hist, T) (hist', T').

Lemma binv_lens : forall dict t w prev seg st hist T, binv dict t w prev seg st hist T ->
  zlen (b_target st) = zlen prev + zlen T /\ zlen seg = w_seglen w /\ 0 <= w_seglen w.
Proof.
  intros. destruct H. rewrite bi_target0, zlen_app. destruct bi_seg0 as [E _].
  pose proof (zlen_nonneg _ seg). lia.
Qed.

Lemma bytes_ok_zrepeat : forall b n, byte_ok b -> bytes_ok (zrepeat b n).
Proof. intros. apply Forall_forall. intros x I. apply repeat_spec in I. subst. auto. Qed.

Lemma exec_sound : forall dict t w prev seg st hist T ty size mode,
  binv dict t w prev seg st hist T -> 0 <= size -> zlen T + size <= w_len w -> (cache_bad (b_cache st) -> 0 <= mode < 256) ->
  match decode_instruction dict w (zlen prev) st ty size mode with
  | XOk st' => exec_post dict t w prev seg st st' hist T ty size mode
  | XUB => cache_bad (b_cache st)
  | XFuel => False
  | _ => True
  end.
Proof.
  intros dict t w prev seg st hist T ty size mode BI S0 C MB.
  destruct (binv_lens _ _ _ _ _ _ _ _ BI) as (TL & SL & SN).
  pose proof (zlen_nonneg _ T). pose proof (zlen_nonneg _ prev).
  unfold decode_instruction.
  destruct (Z.eqb_spec ty VCD_ADD) as [->|NA]; [|destruct (Z.eqb_spec ty VCD_RUN) as [->|NR];
    [|destruct (Z.eqb_spec ty VCD_COPY) as [->|NC]; [|exact I]]].
  - unfold decode_add. destruct (Z.ltb_spec (zlen (data_of st)) size) as [L|L]; [exact I|].
    set (d := ztake size (data_of st)).
    assert (zlen d = size) as DL. { unfold d. rewrite zlen_ztake by lia. lia. }
    rewrite append_target_some by lia. unfold exec_post.
    exists d, [], hist, (T ++ d). split; [auto|]. split; [|split; [|split]].
    + destruct st as [il inst dat addr pend ca tgt]. unfold sec, data_of in *. cbn [b_il b_inst b_data b_addr with_data] in *.
      destruct il; cbn; rewrite ?app_nil_r; unfold d; rewrite ztake_zdrop; reflexivity.
    + destruct BI. destruct st as [il inst dat addr pend ca tgt]. cbn [b_il b_inst b_data b_addr b_target b_cache b_pending] in *.
      constructor; cbn [with_data b_il b_inst b_data b_addr b_target b_cache b_pending]; auto.
      * rewrite bi_target0. rewrite <- app_assoc. reflexivity.
      * rewrite zlen_app. lia.
      * destruct il; auto. unfold data_of. cbn. apply bytes_ok_zdrop. auto.
      * destruct il; auto. unfold data_of. cbn. apply bytes_ok_zdrop. auto.
      * intros ->. auto.
    + rewrite zlen_app. lia.
    + intros k ps SC LT. cbn [half_of]. change (half_of VCD_ADD k mode) with (HAdd k). econstructor; eauto.
  - unfold decode_run. destruct (data_of st) as [|b tl] eqn:DE; [exact I|].
    assert (zlen (zrepeat b size) = size) as DL by (apply zlen_zrepeat; lia).
    rewrite append_target_some by lia. unfold exec_post.
    exists [b], [], hist, (T ++ zrepeat b size). split; [auto|]. split; [|split; [|split]].
    + destruct st as [il inst dat addr pend ca tgt]. unfold sec, data_of in *. cbn [b_il b_inst b_data b_addr with_data] in *.
      destruct il; cbn; subst; reflexivity.
    + destruct BI. destruct st as [il inst dat addr pend ca tgt]. unfold data_of in DE. cbn [b_il b_inst b_data b_addr b_target b_cache b_pending] in *.
      constructor; cbn [with_data b_il b_inst b_data b_addr b_target b_cache b_pending]; auto.
      * rewrite bi_target0. rewrite <- app_assoc. reflexivity.
      * rewrite zlen_app. lia.
      * destruct il; auto. subst inst. apply bytes_ok_cons in bi_binst0. tauto.
      * destruct il; auto. subst dat. apply bytes_ok_cons in bi_bdata0. tauto.
      * intros ->. auto.
    + rewrite zlen_app. lia.
    + intros k ps SC LT. change (half_of VCD_RUN k mode) with (HRun k). econstructor; eauto.
  - unfold decode_copy. rewrite TL. replace (zlen prev + zlen T - zlen prev) with (zlen T) by lia.
    set (here := to_int32 (w_seglen w + zlen T)).
    assert (here <= int32_max) as HM. { unfold here, to_int32, int32_max. pose proof (Z.mod_pos_bound (w_seglen w + zlen T + 2147483648) 4294967296). lia. }
    assert (bytes_ok (addr_of st)) as BA. { destruct BI. unfold addr_of. destruct (b_il st); auto. }
    destruct (bi_cache _ _ _ _ _ _ _ _ BI) as [CR0|CB].
    2:{ pose proof (bad_decode _ here mode (addr_of st) CB (MB CB)) as BD.
        destruct (decode_address (b_cache st) here mode (addr_of st)) as [[[a rest] c']| | |]; try exact I; [destruct BD|exact CB]. }
    pose proof (decode_address_sound (b_cache st) hist here mode (addr_of st) CR0 BA HM) as DS.
    destruct (decode_address (b_cache st) here mode (addr_of st)) as [[[a rest] c']| | |] eqn:DA; try exact I; [|destruct DS].
    cbn [addr_spec] in DS. destruct DS as (pa & E & AC & CR & N1 & N2).
    assert (0 <= a < here) as AR by (inversion AC; auto).
    assert (here = w_seglen w + zlen T) as HE.
    { unfold here. apply to_int32_id. pose proof (bi_wlen _ _ _ _ _ _ _ _ BI). pose proof (bi_slen _ _ _ _ _ _ _ _ BI).
      pose proof (bi_len _ _ _ _ _ _ _ _ BI).
      destruct (Z_le_gt_dec (w_seglen w + zlen T) int32_max); [unfold int32_max in *; lia|exfalso].
      unfold here in AR. pose proof (to_int32_over (w_seglen w + zlen T)). lia. }
    rewrite (bi_target _ _ _ _ _ _ _ _ BI).
    destruct (copy_bytes_ok dict w (zlen prev) prev seg T a size) as (bs & L1 & L2 & L3); auto; try lia.
    { apply BI. }
    { apply BI. }
    rewrite L2. unfold exec_post. exists [], pa, (a :: hist), (T ++ bs).
    split; [auto|]. split; [|split; [|split]].
    + destruct st as [il inst dat addr pend ca tgt]. unfold sec, addr_of in *. cbn [b_il b_inst b_data b_addr with_addr] in *.
      destruct il; cbn; subst; reflexivity.
    + destruct BI. destruct st as [il inst dat addr pend ca tgt]. unfold addr_of in E, BA. cbn [b_il b_inst b_data b_addr b_target b_cache b_pending] in *.
      assert (bytes_ok rest) as BR by (rewrite E in BA; apply bytes_ok_app in BA; tauto).
      constructor; cbn [with_addr b_il b_inst b_data b_addr b_target b_cache b_pending]; auto.
      * rewrite zlen_app. lia.
      * left. exact CR.
      * destruct il; auto.
      * destruct il; auto.
      * intros ->. auto.
    + rewrite zlen_app. lia.
    + intros k ps SC LT. change (half_of VCD_COPY k mode) with (HCopy k mode).
      eapply hm_copy; eauto. rewrite SL, <- HE. exact AC.
Qed.

(** ** The body loop: soundness *)

Lemma half_of_noop : forall s m, half_of VCD_NOOP s m = HNoop.
Proof. reflexivity. Qed.

Lemma items_mean_nops : forall drop t ns ss L seg nops items hist T s',
  Forall (is_nop t) nops -> zlen T < L ->
  items_mean drop (entry t) ns ss L seg items (hist, T) s' ->
  items_mean drop (entry t) ns ss L seg (map nop_item nops ++ items) (hist, T) s'.
Proof.
  intros drop t ns ss L seg nops items hist T s' F LT M. induction F as [|op l (B & N1 & N2) F IH]; [exact M|].
  cbn [map app]. eapply im_cons with (s1 := (hist, T)) (s2 := (hist, T)); auto; cbn [i_op i_first i_second nop_item entry fst snd].
  - rewrite N1. rewrite half_of_noop. constructor.
  - rewrite N2. rewrite half_of_noop. constructor.
Qed.

Lemma half_means_grow : forall ns ss L seg h p s s',
  half_means ns ss L seg h p s s' -> zlen (snd s) <= zlen (snd s').
Proof.
  intros ns ss L seg h p s s' H. inversion H; subst; cbn [snd].
  - lia.
  - rewrite zlen_app. pose proof (zlen_nonneg _ d). lia.
  - apply size_code_nonneg in H1. rewrite zlen_app, zlen_zrepeat by lia. lia.
  - apply copy_bytewise_length in H3 as (bs & -> & L3). rewrite zlen_app. lia.
Qed.

Lemma items_mean_grow : forall drop tbl ns ss L seg l s s',
  items_mean drop tbl ns ss L seg l s s' -> zlen (snd s) <= zlen (snd s').
Proof.
  intros drop tbl ns ss L seg l s s' H. induction H.
  - lia.
  - apply half_means_grow in H1, H2. lia.
  - apply half_means_grow in H2. lia.
Qed.

Lemma items_mean_weaken : forall tbl ns ss L seg l s s',
  items_mean false tbl ns ss L seg l s s' -> items_mean true tbl ns ss L seg l s s'.
Proof.
  intros tbl ns ss L seg l s s' H. induction H.
  - constructor.
  - econstructor; eauto.
  - discriminate.
Qed.

Definition dropped (st : body) : bool := match b_pending st with None => false | Some _ => true end.

Definition body_post (dict : list Z) (t : table) (w : window) (prev seg : list Z)
    (st st' : body) (hist T : list Z) : Prop :=
  exists hist' T',
    binv dict t w prev seg st' hist' T' /\ b_il st' = b_il st /\ zlen T' = w_len w /\
    match b_pending st with
    | None =>
        exists items,
          items_mean (dropped st') (entry t) (near_size (b_cache st)) (same_size (b_cache st))
                     (w_len w) seg items (hist, T) (hist', T') /\
          sec st = app3 (items_sec (b_il st) items) (sec st')
    | Some op =>
        (st' = st /\ hist' = hist /\ T' = T) \/
        exists p items s1,
          half_means (near_size (b_cache st)) (same_size (b_cache st)) (w_len w) seg
                     (snd (entry t op)) p (hist, T) s1 /\
          items_mean (dropped st') (entry t) (near_size (b_cache st)) (same_size (b_cache st))
                     (w_len w) seg items s1 (hist', T') /\
          sec st = app3 (piece_sec (b_il st) p) (app3 (items_sec (b_il st) items) (sec st'))
    end.

Lemma binv_with_inst : forall dict t w prev seg st hist T p rest,
  binv dict t w prev seg st hist T -> pending_ok t p -> bytes_ok rest ->
  binv dict t w prev seg (with_inst st p rest) hist T.
Proof. intros. destruct H. constructor; auto. Qed.

Lemma sec_with_inst : forall st p rest pre,
  b_inst st = pre ++ rest -> sec st = app3 (pre, [], []) (sec (with_inst st p rest)).
Proof. intros. unfold sec. cbn. rewrite H. reflexivity. Qed.

Lemma piece_sec_split : forall il ps pd pa,
  piece_sec il {| p_size := ps; p_data := pd; p_addr := pa |} =
  app3 (ps, [], []) (if il then (pd ++ pa, [], []) else ([], pd, pa)).
Proof. intros [|] ps pd pa; cbn; rewrite ?app_nil_r; reflexivity. Qed.

Lemma body_loop_sound : forall dict t w prev seg fuel st hist T,
  table_ok t -> binv dict t w prev seg st hist T ->
  match body_loop fuel dict t w (zlen prev) st with
  | XOk st' => body_post dict t w prev seg st st' hist T
  | XUB => cache_bad (b_cache st)
  | _ => True
  end.
Proof.
  intros dict t w prev seg fuel. induction fuel as [|fuel IH]; intros st hist T TO BI.
  - cbn [body_loop]. destruct (binv_lens _ _ _ _ _ _ _ _ BI) as (TL & SL & SN). rewrite TL.
    destruct (Z.ltb_spec (zlen prev + zlen T - zlen prev) (w_len w)) as [L|L]; [exact I|].
    exists hist, T. pose proof (bi_len _ _ _ _ _ _ _ _ BI). split; [exact BI|]. split; [reflexivity|]. split; [lia|].
    destruct (b_pending st); [left; auto|]. exists []. split; [constructor|].
    destruct (b_il st); unfold items_sec; cbn [concat map]; rewrite app3_nil_l; reflexivity.
  - cbn [body_loop]. destruct (binv_lens _ _ _ _ _ _ _ _ BI) as (TL & SL & SN). rewrite TL.
    replace (zlen prev + zlen T - zlen prev) with (zlen T) by lia.
    destruct (Z.ltb_spec (zlen T) (w_len w)) as [L|L].
    2: { exists hist, T. pose proof (bi_len _ _ _ _ _ _ _ _ BI). split; [exact BI|]. split; [reflexivity|]. split; [lia|].
         destruct (b_pending st); [left; auto|]. exists []. split; [constructor|].
         destruct (b_il st); unfold items_sec; cbn [concat map]; rewrite app3_nil_l; reflexivity. }
    pose proof (gni_sound t (b_pending st) (b_inst st) TO (bi_binst _ _ _ _ _ _ _ _ BI) (bi_pending _ _ _ _ _ _ _ _ BI)) as G.
    destruct (get_next_instruction t (b_pending st) (b_inst st)) as [ty size mode p' rest| |]; auto.
    destruct G as (k & ps & F & NE & SC & PO & BR & SM).
    pose proof (size_code_nonneg k ps size SC) as SZ.
    destruct ((w_len w <? size) || (w_len w <? size + zlen T)) eqn:CK; [exact I|].
    set (st1 := with_inst st p' rest) in *.
    assert (binv dict t w prev seg st1 hist T) as BI1 by (apply binv_with_inst; auto).
    pose proof (exec_sound dict t w prev seg st1 hist T ty size mode BI1) as E.
    assert (b_il st1 = b_il st) as IL1 by reflexivity.
    assert (b_cache st1 = b_cache st) as CA1 by reflexivity.
    assert (b_pending st1 = p') as PE1 by reflexivity.
    destruct (decode_instruction dict w (zlen prev) st1 ty size mode) as [st2| | | |];
      try exact I; try (apply E; lia || (intros; lia)).
    destruct E as (pd & pa & h2 & T2 & (A1 & A2 & A3 & A4) & SE & BI2 & TL2 & HM); [lia|lia|intros; lia|].
    specialize (HM k ps SC L). rewrite IL1 in *. rewrite CA1 in *.
    specialize (IH st2 h2 T2 TO BI2).
    destruct (body_loop fuel dict t w (zlen prev) st2) as [st'| | | |]; auto.
    2:{ exact (cache_like_bad _ _ _ (bi_cache _ _ _ _ _ _ _ _ BI) A3 IH). }
    destruct IH as (h' & T' & BI' & IL' & TL' & IH). rewrite A2, PE1, A3, A4, A1 in IH.
    exists h', T'. split; [exact BI'|]. split; [congruence|]. split; [exact TL'|].
    assert (forall pre, b_inst st = pre ++ ps ++ rest -> sec st =
       app3 (pre, [], []) (app3 (piece_sec (b_il st) {| p_size := ps; p_data := pd; p_addr := pa |}) (sec st2))) as SS.
    { intros pre Q. rewrite piece_sec_split.
      rewrite (sec_with_inst st p' rest (pre ++ ps)) by (rewrite <- app_assoc; exact Q).
      fold st1. rewrite SE. rewrite !app3_assoc. reflexivity. }
    assert (dropped st2 = match p' with None => false | Some _ => true end) as DR
      by (unfold dropped; rewrite A2, PE1; reflexivity).
    clear BI1 IL1 CA1 PE1 A1 A2 A3 A4 SE. clear st1.
    destruct (found_inv _ _ _ _ _ _ _ _ F) as
      [(op & E1 & E2 & OB & N2 & Q1 & Q2 & Q3 & Q4)
      |[(nops & op & E1 & E2 & FN & OB & N1 & Q1 & Q2 & Q3 & Q4)
       |(nops & op & E1 & E2 & FN & OB & N1 & N2 & Q1 & Q2 & Q3 & Q4)]];
      rewrite E1; subst ty k mode p'.
    + (* pending second half *)
      right. destruct IH as (items & IM & IS).
      exists {| p_size := ps; p_data := pd; p_addr := pa |}, items, (h2, T2).
      split; [exact HM|]. split; [exact IM|].
      rewrite (SS []) by auto. rewrite IS. apply app3_nil_l.
    + (* first half *)
      destruct (Z.eqb_spec (tget (inst2 t) op) VCD_NOOP) as [N2|N2].
      * destruct IH as (items & IM & IS).
        exists (map nop_item nops ++ {| i_op := op; i_first := {| p_size := ps; p_data := pd; p_addr := pa |};
                                        i_second := no_piece |} :: items).
        split.
        -- apply items_mean_nops; auto. eapply im_cons with (s1 := (h2, T2)) (s2 := (h2, T2)); auto.
           cbn [i_op i_second entry snd]. rewrite N2, half_of_noop. constructor.
        -- rewrite (SS (nops ++ [op])) by (rewrite <- app_assoc; auto). rewrite IS.
           rewrite items_sec_app, nops_sec, items_sec_cons, item_sec_split. cbn [i_op i_first i_second].
           rewrite piece_sec_no, app3_nil_r. rewrite !app3_assoc. reflexivity.
      * destruct IH as [(-> & -> & ->)|(p2 & items & s1 & H2 & IM & IS)].
        -- exists (map nop_item nops ++ [{| i_op := op; i_first := {| p_size := ps; p_data := pd; p_addr := pa |};
                                            i_second := no_piece |}]).
           split.
           ++ apply items_mean_nops; auto. rewrite DR. apply im_drop; auto.
           ++ rewrite (SS (nops ++ [op])) by (rewrite <- app_assoc; auto).
              rewrite items_sec_app, nops_sec, items_sec_cons, item_sec_split. cbn [i_op i_first i_second].
              rewrite piece_sec_no, app3_nil_r.
              replace (items_sec (b_il st) []) with nil3 by (destruct (b_il st); reflexivity).
              rewrite app3_nil_r. rewrite !app3_assoc. reflexivity.
        -- exists (map nop_item nops ++ {| i_op := op; i_first := {| p_size := ps; p_data := pd; p_addr := pa |};
                                        i_second := p2 |} :: items).
           split.
           ++ apply items_mean_nops; auto. eapply im_cons with (s1 := (h2, T2)); eauto.
           ++ rewrite (SS (nops ++ [op])) by (rewrite <- app_assoc; auto). rewrite IS.
              rewrite items_sec_app, nops_sec, items_sec_cons, item_sec_split. cbn [i_op i_first i_second].
              rewrite !app3_assoc. reflexivity.
    + (* second half after a NOOP *)
      destruct IH as (items & IM & IS).
      exists (map nop_item nops ++ {| i_op := op; i_first := no_piece;
                  i_second := {| p_size := ps; p_data := pd; p_addr := pa |} |} :: items).
      split.
      * apply items_mean_nops; auto. eapply im_cons with (s1 := (hist, T)) (s2 := (h2, T2)); auto.
        cbn [i_op i_first entry fst]. rewrite N1, half_of_noop. constructor.
      * rewrite (SS (nops ++ [op])) by (rewrite <- app_assoc; auto). rewrite IS.
        rewrite items_sec_app, nops_sec, items_sec_cons, item_sec_split. cbn [i_op i_first i_second].
        rewrite piece_sec_no, app3_nil_l. rewrite !app3_assoc. reflexivity.
Qed.

(** ** The body loop: fuel *)

Lemma body_loop_mono : forall f dict t w start st f',
  body_loop f dict t w start st <> XFuel -> (f <= f')%nat ->
  body_loop f' dict t w start st = body_loop f dict t w start st.
Proof.
  induction f as [|f IH]; intros dict t w start st f' N L.
  - cbn [body_loop] in N. destruct f'; cbn [body_loop];
      destruct (zlen (b_target st) - start <? w_len w); congruence.
  - destruct f' as [|f']; [lia|]. cbn [body_loop] in N |- *.
    destruct (zlen (b_target st) - start <? w_len w); [|reflexivity].
    destruct (get_next_instruction t (b_pending st) (b_inst st)); try reflexivity.
    destruct ((w_len w <? size) || (w_len w <? size + (zlen (b_target st) - start))); [reflexivity|].
    destruct (decode_instruction dict w start (with_inst st pending rest) type size mode); try reflexivity.
    apply IH; [exact N|lia].
Qed.

Definition body_measure (st : body) : nat :=
  (2 * length (b_inst st) + (match b_pending st with Some _ => 1 | None => 0 end))%nat.

Lemma parse_suffix : forall t l v rest, parse t l = Ok (v, rest) -> exists p, l = p ++ rest /\ p <> [].
Proof.
  intros t l v rest. unfold parse. generalize 0. induction l as [|b l IH]; intros acc H; cbn [parse_loop] in H; [discriminate|].
  destruct (b <? 128).
  - injection H as _ ->. exists [b]. split; [reflexivity|discriminate].
  - destruct (kMaxVal t / 128 <? acc + b mod 128); [discriminate|]. apply IH in H as (p & -> & _).
    exists (b :: p). split; [reflexivity|discriminate].
Qed.

Lemma decode_address_suffix : forall c here mode l a rest c',
  decode_address c here mode l = Ok (a, rest, c') -> exists p, l = p ++ rest /\ p <> [].
Proof.
  intros c here mode l a rest c' H. unfold decode_address in H.
  destruct (here <? 0); [discriminate|]. destruct l as [|b tl]; [discriminate|].
  assert (forall a0 r0, (if decoded_address_valid a0 here then
     match update_cache c a0 with Some c'0 => Ok (a0, r0, c'0) | None => UB end else Err) = Ok (a, rest, c') -> rest = r0) as Q.
  { intros a0 r0 E. destruct (decoded_address_valid a0 here); [|discriminate].
    destruct (update_cache c a0); [|discriminate]. congruence. }
  destruct (is_same_mode c mode).
  - destruct (get (same_a c) _); [|discriminate]. apply Q in H. subst. exists [b]. split; [reflexivity|discriminate].
  - destruct (parse I32 (b :: tl)) as [[e r]| | |] eqn:PE; try discriminate.
    apply parse_suffix in PE as (p & E & NE). rewrite E.
    destruct (mode =? 0); [apply Q in H; subst; eauto|].
    destruct (mode =? 1); [apply Q in H; subst; eauto|].
    destruct (is_near_mode c mode); [|discriminate].
    destruct (get (near_a c) _); [|discriminate]. apply Q in H; subst; eauto.
Qed.

Lemma exec_shrinks : forall dict w start st ty size mode st',
  decode_instruction dict w start st ty size mode = XOk st' ->
  (length (b_inst st') <= length (b_inst st))%nat /\ b_pending st' = b_pending st.
Proof.
  intros dict w start st ty size mode st' H. unfold decode_instruction in H.
  destruct (ty =? VCD_ADD); [|destruct (ty =? VCD_RUN); [|destruct (ty =? VCD_COPY); [|discriminate]]].
  - unfold decode_add in H. destruct (zlen (data_of st) <? size); [discriminate|].
    destruct (append_target _ _ _); [|discriminate]. injection H as <-. split; [|reflexivity].
    cbn [with_data b_inst]. unfold data_of. destruct (b_il st); [|lia].
    pose proof (ztake_zdrop _ size (b_inst st)) as E. rewrite <- E at 2. rewrite app_length. lia.
  - unfold decode_run in H. destruct (data_of st) as [|b tl] eqn:D; [discriminate|].
    destruct (append_target _ _ _); [|discriminate]. injection H as <-. split; [|reflexivity].
    cbn [with_data b_inst]. unfold data_of in D. destruct (b_il st); [|lia]. rewrite D. cbn [length]. lia.
  - unfold decode_copy in H. destruct (decode_address _ _ _ _) as [[[a rest] c]| | |] eqn:D; try discriminate.
    destruct (copy_bytes _ _ _ _ _ _); try discriminate. injection H as <-. split; [|reflexivity].
    cbn [with_addr b_inst]. unfold addr_of in D. destruct (b_il st); [|lia].
    apply decode_address_suffix in D as (p & -> & _). rewrite app_length. lia.
Qed.

Lemma body_loop_total : forall dict t w prev seg fuel st hist T,
  table_ok t -> binv dict t w prev seg st hist T -> (body_measure st < fuel)%nat ->
  body_loop fuel dict t w (zlen prev) st <> XFuel.
Proof.
  intros dict t w prev seg fuel. induction fuel as [|fuel IH]; intros st hist T TO BI F; [lia|].
  cbn [body_loop]. destruct (binv_lens _ _ _ _ _ _ _ _ BI) as (TL & SL & SN). rewrite TL.
  replace (zlen prev + zlen T - zlen prev) with (zlen T) by lia.
  destruct (Z.ltb_spec (zlen T) (w_len w)) as [L|L]; [|discriminate].
  pose proof (gni_sound t (b_pending st) (b_inst st) TO (bi_binst _ _ _ _ _ _ _ _ BI) (bi_pending _ _ _ _ _ _ _ _ BI)) as G.
  destruct (get_next_instruction t (b_pending st) (b_inst st)) as [ty size mode p' rest| |]; try discriminate.
  destruct G as (k & ps & FO & NE & SC & PO & BR & SM).
  pose proof (size_code_nonneg k ps size SC) as SZ.
  destruct ((w_len w <? size) || (w_len w <? size + zlen T)) eqn:CK; [discriminate|].
  assert (binv dict t w prev seg (with_inst st p' rest) hist T) as BI1 by (apply binv_with_inst; auto).
  pose proof (exec_sound dict t w prev seg _ hist T ty size mode BI1) as E.
  destruct (decode_instruction dict w (zlen prev) (with_inst st p' rest) ty size mode) as [st2| | | |] eqn:DI;
      try discriminate; try (intros _; apply E; lia || (intros; lia)).
  destruct E as (pd & pa & h2 & T2 & _ & _ & BI2 & _); [lia|lia|intros; lia|].
  eapply IH; eauto.
  apply exec_shrinks in DI as [D1 D2]. cbn [with_inst b_inst b_pending] in D1, D2.
  unfold body_measure in *. rewrite D2.
  destruct (found_inv _ _ _ _ _ _ _ _ FO) as
    [(op & E1 & E2 & _ & _ & _ & _ & _ & Q4)
    |[(nops & op & E1 & E2 & _ & _ & _ & _ & _ & _ & Q4)
     |(nops & op & E1 & E2 & _ & _ & _ & _ & _ & _ & _ & Q4)]];
    rewrite E1, E2 in F; rewrite ?app_length in F; cbn [length] in F; rewrite ?app_length in F.
  - rewrite Q4. lia.
  - destruct p'; lia.
  - rewrite Q4. lia.
Qed.

Lemma body_fuel_ok : forall st, (body_measure st < body_fuel st)%nat.
Proof. intros. unfold body_measure, body_fuel. destruct (b_pending st); lia. Qed.

(** ** The body loop: completeness *)

Lemma inst_loop_nops : forall t nops inst, Forall (is_nop t) nops ->
  inst_loop t None (nops ++ inst) = inst_loop t None inst.
Proof.
  intros t nops inst F. induction F as [|op l (_ & N1 & N2) F IH]; [reflexivity|].
  cbn [app inst_loop]. rewrite N1, N2. exact IH.
Qed.

Lemma inst_loop_pending : forall t op inst, inst_loop t (Some op) inst =
  inl (tget (inst2 t) op, tget (size2 t) op, tget (mode2 t) op, None, inst).
Proof. intros t op [|b l]; reflexivity. Qed.

Lemma inst_loop_complete : forall t p inst ty k mode p' rest,
  found t p inst ty k mode p' rest -> inst_loop t p inst = inl (ty, k, mode, p', rest).
Proof.
  intros t p inst ty k mode p' rest F.
  destruct (found_inv _ _ _ _ _ _ _ _ F) as
      [(op & E1 & E2 & OB & N2 & Q1 & Q2 & Q3 & Q4)
      |[(nops & op & E1 & E2 & FN & OB & N1 & Q1 & Q2 & Q3 & Q4)
       |(nops & op & E1 & E2 & FN & OB & N1 & N2 & Q1 & Q2 & Q3 & Q4)]]; subst.
  - apply inst_loop_pending.
  - rewrite inst_loop_nops by auto. cbn [inst_loop]. apply Z.eqb_neq in N1. rewrite N1. reflexivity.
  - rewrite inst_loop_nops by auto. cbn [inst_loop]. rewrite N1. apply Z.eqb_neq in N2. rewrite N2.
    apply inst_loop_pending.
Qed.

Lemma gni_complete : forall t p inst ty k mode p' ps rest size,
  found t p inst ty k mode p' (ps ++ rest) -> size_code k ps size -> size <= int32_max ->
  get_next_instruction t p inst = NI ty size mode p' rest.
Proof.
  intros t p inst ty k mode p' ps rest size F SC M. unfold get_next_instruction.
  rewrite (inst_loop_complete _ _ _ _ _ _ _ _ F).
  destruct SC as [(K & -> & ->)|(-> & V)].
  - destruct (Z.eqb_spec k 0); [lia|]. reflexivity.
  - cbn [Z.eqb]. rewrite (parse_ok I32 ps size rest); auto. left. reflexivity.
Qed.

Lemma exec_complete : forall dict t w prev seg st hist T ty size mode k ps pd pa hist' T' rest,
  binv dict t w prev seg st hist T -> near_size (b_cache st) <= 253 -> w_seglen w + w_len w <= int32_max + 1 ->
  size_code k ps size -> ty <> VCD_NOOP ->
  half_means (near_size (b_cache st)) (same_size (b_cache st)) (w_len w) seg
        (half_of ty k mode) {| p_size := ps; p_data := pd; p_addr := pa |} (hist, T) (hist', T') ->
  zlen T' = zlen T + size -> zlen T' <= w_len w ->
  sec st = app3 (if b_il st then (pd ++ pa, [], []) else ([], pd, pa)) rest ->
  exists st', decode_instruction dict w (zlen prev) st ty size mode = XOk st' /\
    sec st' = rest /\ binv dict t w prev seg st' hist' T' /\ b_il st' = b_il st /\
    b_pending st' = b_pending st /\
    near_size (b_cache st') = near_size (b_cache st) /\
    same_size (b_cache st') = same_size (b_cache st).
Proof.
  intros dict t w prev seg st hist T ty size mode k ps pd pa hist' T' rest BI N253 HL SC NN HM TL TM SE.
  destruct (binv_lens _ _ _ _ _ _ _ _ BI) as (TL0 & SL & SN).
  pose proof (size_code_nonneg k ps size SC) as SZ.
  pose proof (zlen_nonneg _ T) as TN. pose proof (zlen_nonneg _ prev) as PN.
  assert (exists st', decode_instruction dict w (zlen prev) st ty size mode = XOk st' /\
    sec st' = rest /\ b_target st' = prev ++ T' /\ cache_rep (b_cache st') hist' ) as X.
  { unfold half_of in HM. destruct (Z.eqb_spec ty 0) as [|NZ]; [contradiction|].
    unfold decode_instruction, VCD_ADD, VCD_RUN, VCD_COPY.
    destruct (Z.eqb_spec ty 1) as [->|NA]; [|destruct (Z.eqb_spec ty 2) as [->|NR]; [|destruct (Z.eqb_spec ty 3) as [->|NC]]].
    - inversion HM; subst. clear HM. rewrite zlen_app in TL.
      assert (data_of st = pd ++ data_of st /\ False \/ exists r, data_of st = pd ++ r /\ rest = sec (with_data st r (b_target st ++ pd))) as [[_ []]|(r & DE & RE)].
      { right. unfold sec, data_of in *. destruct rest as [[r1 r2] r3]. destruct (b_il st) eqn:IL; cbn in SE; injection SE as S1 S2 S3; subst.
        - exists r1. rewrite app_nil_r in S1. split; [exact S1|]. unfold with_data. rewrite IL. cbn. congruence.
        - exists r2. split; [auto|]. unfold with_data. rewrite IL. cbn. congruence. }
      unfold decode_add. rewrite DE.
      destruct (Z.ltb_spec (zlen (pd ++ r)) size) as [L|L]; [rewrite zlen_app in L; pose proof (zlen_nonneg _ r); lia|].
      rewrite ztake_app_eq by lia. rewrite zdrop_app_eq by lia.
      rewrite append_target_some by (rewrite zlen_app in TM; lia).
      eexists. split; [reflexivity|]. split; [auto|]. split; [|apply cache_like_rep; [apply BI|exact N253]].
      cbn [with_data b_target]. rewrite (bi_target _ _ _ _ _ _ _ _ BI), <- app_assoc. reflexivity.
    - inversion HM; subst. clear HM. 
      assert (n = size) as -> by (eapply size_code_fun; eauto).
      assert (exists r, data_of st = b :: r /\ rest = sec (with_data st r (b_target st ++ zrepeat b size))) as (r & DE & RE).
      { unfold sec, data_of in *. destruct rest as [[r1 r2] r3]. destruct (b_il st) eqn:IL; cbn in SE; injection SE as S1 S2 S3; subst.
        - exists r1. split; [exact S1|]. unfold with_data. rewrite IL. cbn. congruence.
        - exists r2. split; [auto|]. unfold with_data. rewrite IL. cbn. congruence. }
      unfold decode_run. rewrite DE.
      rewrite append_target_some by (rewrite zlen_zrepeat by lia; lia).
      eexists. split; [reflexivity|]. split; [auto|]. split; [|apply cache_like_rep; [apply BI|exact N253]].
      cbn [with_data b_target]. rewrite (bi_target _ _ _ _ _ _ _ _ BI), <- app_assoc. reflexivity.
    - inversion HM; subst. clear HM.
      assert (n = size) as -> by (eapply size_code_fun; eauto).
      match goal with A : addr_code _ _ _ _ _ _ _ |- _ => rename A into AC end.
      match goal with A : copy_bytewise _ _ _ _ = _ |- _ => rename A into CB end.
      match goal with A : zlen T < w_len w |- _ => rename A into LT end.
      assert (exists r, addr_of st = pa ++ r /\ forall c tg, rest = sec (with_addr st r c tg)) as (r & DE & RE).
      { unfold sec, addr_of in *. destruct rest as [[r1 r2] r3]. destruct (b_il st) eqn:IL; cbn in SE; injection SE as S1 S2 S3; subst.
        - exists r1. split; [exact S1|]. intros. unfold with_addr. rewrite IL. cbn. congruence.
        - exists r3. split; [auto|]. intros. unfold with_addr. rewrite IL. cbn. congruence. }
      unfold decode_copy. rewrite TL0. replace (zlen prev + zlen T - zlen prev) with (zlen T) by lia.
      rewrite to_int32_id by (unfold int32_max in *; lia). rewrite SL in AC. rewrite DE.
      assert (0 <= w_seglen w + zlen T <= int32_max) as HR by (unfold int32_max in *; lia).
      destruct (decode_address_complete _ _ _ _ _ _ r (cache_like_rep _ _ (bi_cache _ _ _ _ _ _ _ _ BI) N253) HR AC) as (c' & D1 & D2 & D3 & D4).
      rewrite D1. rewrite (bi_target _ _ _ _ _ _ _ _ BI).
      destruct (copy_bytes_ok dict w (zlen prev) prev seg T a size) as (bs & L1 & L2 & L3); auto; try lia.
      { apply BI. }
      { apply BI. }
      { inversion AC; lia. }
      rewrite L2. rewrite L3 in CB. injection CB as <-.
      eexists. split; [reflexivity|]. split; [symmetry; apply RE|]. split; [reflexivity|exact D2].
    - inversion HM. }
  destruct X as (st' & X1 & X2 & X3 & X4). exists st'.
  pose proof (exec_sound dict t w prev seg st hist T ty size mode BI SZ ltac:(lia) ltac:(intros [X _]; lia)) as ES. rewrite X1 in ES.
  destruct ES as (pd1 & pa1 & h1 & T1 & (A1 & A2 & A3 & A4) & _ & BI1 & _).
  split; [exact X1|]. split; [exact X2|]. split; [|auto].
  destruct BI1. constructor; auto; try lia. left. exact X4.
Qed.

Lemma half_means_size : forall ns ss L seg ty k mode p hist T s',
  half_means ns ss L seg (half_of ty k mode) p (hist, T) s' -> ty <> VCD_NOOP ->
  exists n, size_code k (p_size p) n /\ zlen (snd s') = zlen T + n /\ zlen T < L.
Proof.
  intros ns ss L seg ty k mode p hist T s' H N. unfold half_of in H.
  destruct (Z.eqb_spec ty 0); [contradiction|].
  destruct (ty =? 1); [|destruct (ty =? 2); [|destruct (ty =? 3)]]; inversion H; subst; cbn [p_size snd].
  - eexists. split; [eassumption|]. rewrite zlen_app. auto.
  - eexists. split; [eassumption|]. rewrite zlen_app, zlen_zrepeat by (eapply size_code_nonneg; eauto). auto.
  - eexists. split; [eassumption|].
    match goal with A : copy_bytewise _ _ _ _ = _ |- _ => apply copy_bytewise_length in A as (bs & -> & LB) end.
    match goal with A : size_code _ _ _ |- _ => apply size_code_nonneg in A end.
    rewrite zlen_app. split; lia.
Qed.

Lemma body_step : forall dict t w prev seg st hist T ty k mode p' pre p hist' T' rest,
  binv dict t w prev seg st hist T -> near_size (b_cache st) <= 253 -> w_seglen w + w_len w <= int32_max + 1 ->
  pending_ok t p' -> ty <> VCD_NOOP ->
  (forall r, found t (b_pending st) (pre ++ r) ty k mode p' r) ->
  half_means (near_size (b_cache st)) (same_size (b_cache st)) (w_len w) seg
        (half_of ty k mode) p (hist, T) (hist', T') ->
  zlen T' <= w_len w ->
  sec st = app3 (pre, [], []) (app3 (piece_sec (b_il st) p) rest) ->
  exists st', (forall f, body_loop (S f) dict t w (zlen prev) st = body_loop f dict t w (zlen prev) st') /\
    sec st' = rest /\ binv dict t w prev seg st' hist' T' /\ b_il st' = b_il st /\
    b_pending st' = p' /\
    near_size (b_cache st') = near_size (b_cache st) /\
    same_size (b_cache st') = same_size (b_cache st).
Proof.
  intros dict t w prev seg st hist T ty k mode p' pre p hist' T' rest BI N253 HL PO NN F HM TM SE.
  destruct (binv_lens _ _ _ _ _ _ _ _ BI) as (TL0 & SL & SN).
  destruct (half_means_size _ _ _ _ _ _ _ _ _ _ _ HM NN) as (n & SC & TL & LT). cbn [snd] in TL.
  pose proof (size_code_nonneg _ _ _ SC). pose proof (zlen_nonneg _ T).
  pose proof (bi_wlen _ _ _ _ _ _ _ _ BI).
  destruct p as [ps pd pa]. cbn [p_size] in SC.
  rewrite piece_sec_split in SE.
  set (m := app3 (if b_il st then (pd ++ pa, [], []) else ([], pd, pa)) rest) in *.
  rewrite <- !app3_assoc in SE. fold m in SE.
  destruct m as [[m1 m2] m3] eqn:Em. cbn in SE.
  assert (b_inst st = pre ++ ps ++ m1) as EI by (unfold sec in SE; congruence).
  set (st1 := with_inst st p' m1).
  assert (sec st1 = (m1, m2, m3)) as S1 by (unfold sec in *; cbn; congruence).
  assert (binv dict t w prev seg st1 hist T) as BI1.
  { apply binv_with_inst; auto. pose proof (bi_binst _ _ _ _ _ _ _ _ BI) as B. rewrite EI in B.
    apply bytes_ok_app in B as [_ B]. apply bytes_ok_app in B as [_ B]. exact B. }
  destruct (exec_complete dict t w prev seg st1 hist T ty n mode k ps pd pa hist' T' rest) as
    (st' & X1 & X2 & X3 & X4 & X5 & X6 & X7); auto.
  { rewrite S1, <- Em. reflexivity. }
  exists st'. split; [|auto 10].
  intros f. cbn [body_loop]. rewrite TL0. replace (zlen prev + zlen T - zlen prev) with (zlen T) by lia.
  destruct (Z.ltb_spec (zlen T) (w_len w)); [|lia].
  rewrite EI. rewrite (gni_complete t _ _ ty k mode p' ps m1 n (F (ps ++ m1))) by (auto; lia).
  destruct (Z.ltb_spec (w_len w) n); [lia|]. destruct (Z.ltb_spec (w_len w) (n + zlen T)); [lia|]. cbn [orb].
  fold st1. rewrite X1. reflexivity.
Qed.

Lemma half_means_noop : forall ns ss L seg p s s',
  half_means ns ss L seg HNoop p s s' -> p = no_piece /\ s' = s.
Proof. intros. inversion H; auto. Qed.

Lemma body_loop_complete : forall dict t w prev seg drop ns ss items s s',
  items_mean drop (entry t) ns ss (w_len w) seg items s s' ->
  zlen (snd s') = w_len w -> w_seglen w + w_len w <= int32_max + 1 ->
  forall nops st rest,
  Forall (is_nop t) nops -> nops = [] \/ zlen (snd s) < w_len w ->
  binv dict t w prev seg st (fst s) (snd s) -> b_pending st = None ->
  near_size (b_cache st) = ns -> ns <= 253 -> same_size (b_cache st) = ss ->
  sec st = app3 (nops, [], []) (app3 (items_sec (b_il st) items) rest) ->
  exists fuel st', body_loop fuel dict t w (zlen prev) st = XOk st' /\ sec st' = rest /\
    binv dict t w prev seg st' (fst s') (snd s') /\ b_il st' = b_il st /\
    near_size (b_cache st') = ns /\ same_size (b_cache st') = ss.
Proof.
  intros dict t w prev seg drop ns ss items s s' IM. 
  induction IM as [s|i l s s1 s2 s3 OB LT H1 H2 IM IH|i s s1 DR OB LT H1 NP TE]; intros TL HL nops st rest FN NL BI PE NS N253 SS SE.
  - destruct NL as [->|NL]; [|lia]. exists 0%nat, st. cbn [body_loop].
    destruct (binv_lens _ _ _ _ _ _ _ _ BI) as (TL0 & _). rewrite TL0.
    destruct (Z.ltb_spec (zlen prev + zlen (snd s) - zlen prev) (w_len w)); [lia|].
    split; [reflexivity|]. split; [|auto].
    rewrite SE. replace (items_sec (b_il st) []) with nil3 by (destruct (b_il st); reflexivity).
    rewrite !app3_nil_l. reflexivity.
  - specialize (IH TL HL). destruct s as [h T], s1 as [h1 T1], s2 as [h2 T2]. cbn [fst snd] in *.
    pose proof (items_mean_grow _ _ _ _ _ _ _ _ _ IM) as G. cbn [snd] in G.
    pose proof (half_means_grow _ _ _ _ _ _ _ _ H2) as G2. cbn [snd] in G2.
    rewrite items_sec_cons, item_sec_split in SE.
    destruct i as [op p1 p2]. cbn [i_op i_first i_second entry fst snd] in *.
    destruct (Z.eq_dec (tget (inst1 t) op) VCD_NOOP) as [N1|N1].
    + rewrite N1, half_of_noop in H1. apply half_means_noop in H1 as [-> E]. injection E as -> ->.
      rewrite piece_sec_no, app3_nil_l in SE.
      destruct (Z.eq_dec (tget (inst2 t) op) VCD_NOOP) as [N2|N2].
      * rewrite N2, half_of_noop in H2. apply half_means_noop in H2 as [-> E]. injection E as -> ->.
        apply (IH (nops ++ [op]) st rest); auto.
        -- apply Forall_app. split; [auto|]. constructor; [|constructor]. repeat split; auto; apply OB.
        -- rewrite SE, piece_sec_no, app3_nil_r. rewrite <- !app3_assoc. rewrite !app3_assoc. reflexivity.
      * destruct (body_step dict t w prev seg st h T (tget (inst2 t) op) (tget (size2 t) op) (tget (mode2 t) op) None
                    (nops ++ [op]) p2 h2 T2 (app3 (items_sec (b_il st) l) rest)) as (st' & X1 & X2 & X3 & X4 & X5 & X6 & X7); auto; try (match goal with |- near_size _ <= 253 => lia end).
        -- exact I.
        -- intros r. rewrite PE. rewrite <- app_assoc. cbn [app]. apply found_second; auto.
        -- rewrite NS, SS. exact H2.
        -- lia.
        -- rewrite SE. rewrite !app3_assoc. reflexivity.
        -- destruct (IH [] st' rest) as (f & st'' & Y1 & Y2 & Y3 & Y4 & Y5); auto; try congruence.
           { rewrite X2, X4. rewrite app3_nil_l. reflexivity. }
           exists (S f), st''. rewrite X1. split; [exact Y1|]. split; [auto|]. split; [auto|]. split; [congruence|auto].
    + destruct (body_step dict t w prev seg st h T (tget (inst1 t) op) (tget (size1 t) op) (tget (mode1 t) op)
                    (if tget (inst2 t) op =? VCD_NOOP then None else Some op)
                    (nops ++ [op]) p1 h1 T1 (app3 (piece_sec (b_il st) p2) (app3 (items_sec (b_il st) l) rest)))
        as (st1 & X1 & X2 & X3 & X4 & X5 & X6 & X7); auto; try (match goal with |- near_size _ <= 253 => lia end).
      * destruct (Z.eqb_spec (tget (inst2 t) op) VCD_NOOP); cbn; auto.
      * intros r. rewrite PE. rewrite <- app_assoc. cbn [app]. apply found_first; auto.
      * rewrite NS, SS. exact H1.
      * lia.
      * rewrite SE. rewrite !app3_assoc. reflexivity.
      * destruct (Z.eqb_spec (tget (inst2 t) op) VCD_NOOP) as [N2|N2].
        -- rewrite N2, half_of_noop in H2. apply half_means_noop in H2 as [-> E]. injection E as -> ->.
           rewrite piece_sec_no, app3_nil_l in X2.
           destruct (IH [] st1 rest) as (f & st'' & Y1 & Y2 & Y3 & Y4 & Y5); auto; try congruence.
           { rewrite X2, X4. rewrite app3_nil_l. reflexivity. }
           exists (S f), st''. rewrite X1. split; [exact Y1|]. split; [auto|]. split; [auto|]. split; [congruence|auto].
        -- destruct (body_step dict t w prev seg st1 h1 T1 (tget (inst2 t) op) (tget (size2 t) op) (tget (mode2 t) op) None
                    [] p2 h2 T2 (app3 (items_sec (b_il st) l) rest)) as (st' & Z1 & Z2 & Z3 & Z4 & Z5 & Z6 & Z7); auto; try (match goal with |- near_size _ <= 253 => lia end).
           ++ exact I.
           ++ intros r. rewrite X5. apply found_pending; auto.
           ++ rewrite X6, X7, NS, SS. exact H2.
           ++ lia.
           ++ rewrite X2, X4, app3_nil_l. reflexivity.
           ++ destruct (IH [] st' rest) as (f & st'' & Y1 & Y2 & Y3 & Y4 & Y5); auto; try congruence.
              { rewrite Z2, Z4, X4. rewrite app3_nil_l. reflexivity. }
              exists (S (S f)), st''. rewrite X1, Z1. split; [exact Y1|]. split; [auto|]. split; [auto|]. split; [congruence|auto].
  - destruct s as [h T], s1 as [h1 T1]. cbn [fst snd] in *.
    rewrite items_sec_cons, item_sec_split in SE.
    destruct i as [op p1 p2]. cbn [i_op i_first i_second entry fst snd] in *. subst p2.
    destruct (Z.eq_dec (tget (inst1 t) op) VCD_NOOP) as [N1|N1].
    { rewrite N1, half_of_noop in H1. apply half_means_noop in H1 as [-> E]. injection E as -> ->. lia. }
    replace (items_sec (b_il st) []) with nil3 in SE by (destruct (b_il st); reflexivity).
    rewrite piece_sec_no, !app3_nil_r in SE.
    destruct (body_step dict t w prev seg st h T (tget (inst1 t) op) (tget (size1 t) op) (tget (mode1 t) op)
                    (if tget (inst2 t) op =? VCD_NOOP then None else Some op)
                    (nops ++ [op]) p1 h1 T1 rest)
        as (st1 & X1 & X2 & X3 & X4 & X5 & X6 & X7); auto; try (match goal with |- near_size _ <= 253 => lia end).
    + destruct (Z.eqb_spec (tget (inst2 t) op) VCD_NOOP); cbn; auto.
    + intros r. rewrite PE. rewrite <- app_assoc. cbn [app]. apply found_first; auto.
    + rewrite NS, SS. exact H1.
    + lia.
    + rewrite SE. rewrite !app3_assoc. reflexivity.
    + exists 1%nat, st1. rewrite X1. cbn [body_loop].
      destruct (binv_lens _ _ _ _ _ _ _ _ X3) as (TL0 & _). rewrite TL0.
      destruct (Z.ltb_spec (zlen prev + zlen T1 - zlen prev) (w_len w)); [lia|].
      split; [reflexivity|]. split; [auto|]. split; [auto|]. split; [auto|]. split; congruence.
Qed.

(** With the fuel that [decode_body] uses. *)
Lemma body_loop_fuel : forall dict t w prev seg st hist T f r,
  table_ok t -> binv dict t w prev seg st hist T ->
  body_loop f dict t w (zlen prev) st = r -> r <> XFuel ->
  body_loop (body_fuel st) dict t w (zlen prev) st = r.
Proof.
  intros dict t w prev seg st hist T f r TO BI E N.
  pose proof (body_loop_total dict t w prev seg (body_fuel st) st hist T TO BI (body_fuel_ok st)) as NF.
  rewrite <- (body_loop_mono (body_fuel st) _ _ _ _ _ (f + body_fuel st) NF) by lia.
  subst r. apply body_loop_mono; [exact N|lia].
Qed.
