(** Facts about [copy_loop] and [copy_bytes]: a COPY in the decoder is the
    byte-by-byte copy of the specification. *)

From Verif Require Import Base Spec Varint AddrCache CodeTable InstructionMap DecodeTable
  HeaderParser Adler Decoder.
From Coq Require Import ZifyBool ZifyNat.

Lemma ztake_zdrop_S : forall A (l : list A) a x n,
  0 <= a -> 0 <= n -> get l a = Some x -> ztake (n + 1) (zdrop a l) = x :: ztake n (zdrop (a + 1) l).
Proof.
  intros A l a x n Ha Hn G. apply get_ext. intros i Hi.
  destruct (Z.ltb_spec i (n + 1)) as [L|L].
  - rewrite get_ztake by lia. rewrite get_zdrop by lia.
    destruct (Z.eq_dec i 0) as [->|N].
    + rewrite Z.add_0_r. rewrite G. reflexivity.
    + change (x :: ztake n (zdrop (a + 1) l)) with ([x] ++ ztake n (zdrop (a + 1) l)).
      change (zlen [x]) with 1. rewrite get_app_r by (change (zlen [x]) with 1; lia).
      change (zlen [x]) with 1. rewrite get_ztake by lia. rewrite get_zdrop by lia. f_equal. lia.
  - transitivity (@None A); [|symmetry]; apply get_none.
    + rewrite zlen_ztake by lia. lia.
    + rewrite zlen_cons. rewrite zlen_ztake by lia. lia.
Qed.

(** Copying within what is already there copies a block. *)
Lemma copy_bytewise_block : forall n seg T a,
  0 <= a -> a + Z.of_nat n <= zlen (seg ++ T) ->
  copy_bytewise n seg T a = Some (T ++ ztake (Z.of_nat n) (zdrop a (seg ++ T))).
Proof.
  induction n as [|n IH]; intros seg T a Ha L.
  - cbn [copy_bytewise]. rewrite ztake_0, app_nil_r. reflexivity.
  - cbn [copy_bytewise]. destruct (get_some _ (seg ++ T) a) as [x G]; [lia|]. rewrite G.
    assert (zlen (seg ++ T) < zlen (seg ++ T ++ [x])) as ZL.
    { rewrite !zlen_app. change (zlen [x]) with 1. lia. }
    rewrite IH by lia.
    replace (Z.of_nat (S n)) with (Z.of_nat n + 1) by lia.
    rewrite (ztake_zdrop_S _ _ a x) by (auto; lia).
    f_equal. rewrite <- app_assoc. f_equal. cbn [app]. f_equal.
    rewrite app_assoc. rewrite zdrop_app_le by lia. apply ztake_app_le.
    rewrite zlen_zdrop by lia. lia.
Qed.

Lemma copy_bytewise_add : forall n m seg T a,
  copy_bytewise (n + m) seg T a =
  match copy_bytewise n seg T a with
  | Some T' => copy_bytewise m seg T' (a + Z.of_nat n)
  | None => None
  end.
Proof.
  induction n as [|n IH]; intros m seg T a.
  - cbn [Nat.add copy_bytewise]. rewrite Z.add_0_r. reflexivity.
  - cbn [Nat.add copy_bytewise]. destruct (get (seg ++ T) a); [|reflexivity].
    rewrite IH. destruct (copy_bytewise n seg (T ++ [z]) (a + 1)); [|reflexivity].
    f_equal. lia.
Qed.

(** What a byte-by-byte copy produces: it appends [n] bytes. *)
Lemma copy_bytewise_length : forall n seg T a T',
  copy_bytewise n seg T a = Some T' -> exists bs, T' = T ++ bs /\ zlen bs = Z.of_nat n.
Proof.
  induction n as [|n IH]; intros seg T a T' H; cbn [copy_bytewise] in H.
  - injection H as <-. exists []. rewrite app_nil_r. auto.
  - destruct (get (seg ++ T) a) as [x|]; [|discriminate].
    apply IH in H as (bs & -> & L). exists (x :: bs). rewrite <- app_assoc.
    split; [reflexivity|]. rewrite zlen_cons. lia.
Qed.

Lemma copy_bytewise_total : forall n seg T a,
  0 <= a < zlen seg + zlen T -> exists T', copy_bytewise n seg T a = Some T'.
Proof.
  induction n as [|n IH]; intros seg T a H; cbn [copy_bytewise]; [eauto|].
  destruct (get_some _ (seg ++ T) a) as [x ->]; [rewrite zlen_app; lia|].
  apply IH. rewrite zlen_app. change (zlen [x]) with 1. lia.
Qed.

Lemma append_target_some : forall cap target bs, zlen target + zlen bs <= cap ->
  append_target cap target bs = Some (target ++ bs).
Proof.
  intros. unfold append_target. destruct (Z.leb_spec (zlen target + zlen bs) cap); [reflexivity|lia].
Qed.

(** The doubling loop, on the target window [T]. *)
Lemma copy_loop_ok : forall fuel cap start prev seg T address size,
  zlen prev = start -> 0 <= address < zlen T -> 0 <= size ->
  start + zlen T + size <= cap -> (Z.to_nat size < fuel)%nat ->
  exists bs, zlen bs = size /\
    copy_loop fuel cap start (prev ++ T) (zlen T) address size = XOk (prev ++ T ++ bs) /\
    copy_bytewise (Z.to_nat size) seg T (zlen seg + address) = Some (T ++ bs).
Proof.
  induction fuel as [|fuel IH]; intros cap start prev seg T address size P A S C F; [lia|].
  cbn [copy_loop].
  assert (forall n, 0 <= n -> address + n <= zlen T ->
            slice (prev ++ T) (start + address) n = Some (ztake n (zdrop address T))) as SL.
  { intros n N L. pose proof (zlen_nonneg _ prev). rewrite slice_some.
    - rewrite zdrop_app_ge by lia. do 3 f_equal. lia.
    - lia.
    - lia.
    - rewrite zlen_app. lia. }
  assert (forall n, 0 <= n -> address + n <= zlen T ->
     copy_bytewise (Z.to_nat n) seg T (zlen seg + address) = Some (T ++ ztake n (zdrop address T))) as BL.
  { intros n N L. pose proof (zlen_nonneg _ seg). rewrite copy_bytewise_block; [|lia|rewrite zlen_app; lia].
    rewrite zdrop_app_ge by lia. do 3 f_equal; [lia|]. f_equal. lia. }
  assert (forall n, 0 <= n -> address + n <= zlen T -> zlen (ztake n (zdrop address T)) = n) as LN.
  { intros n N L. rewrite zlen_ztake by lia. rewrite zlen_zdrop by lia. lia. }
  destruct (Z.ltb_spec (zlen T - address) size) as [L|L].
  - set (n := zlen T - address) in *. rewrite SL by lia.
    specialize (BL n). specialize (LN n).
    set (b1 := ztake n (zdrop address T)) in *.
    rewrite append_target_some by (rewrite zlen_app; lia).
    destruct (IH cap start prev seg (T ++ b1) (address + n) (size - n)) as (b2 & L2 & E2 & W2); auto.
    { rewrite zlen_app. lia. }
    { lia. }
    { rewrite zlen_app. lia. }
    { lia. }
    exists (b1 ++ b2). split; [rewrite zlen_app; lia|]. split.
    + rewrite <- app_assoc. rewrite zlen_app in E2. rewrite LN in E2 by lia. rewrite E2.
      rewrite <- app_assoc. reflexivity.
    + replace (Z.to_nat size) with (Z.to_nat n + Z.to_nat (size - n))%nat by lia.
      rewrite copy_bytewise_add. rewrite BL by lia.
      replace (zlen seg + address + Z.of_nat (Z.to_nat n)) with (zlen seg + (address + n)) by lia.
      rewrite W2. rewrite <- app_assoc. reflexivity.
  - rewrite SL by lia. specialize (BL size). specialize (LN size).
    rewrite append_target_some by (rewrite zlen_app; lia).
    exists (ztake size (zdrop address T)). split; [lia|]. split.
    + rewrite <- app_assoc. reflexivity.
    + apply BL; lia.
Qed.

(** The source segment of a window as a list. *)
Definition seg_ok (dict : list Z) (w : window) (prev seg : list Z) : Prop :=
  zlen seg = w_seglen w /\
  match w_kind w with
  | SegNone => True
  | SegDict => slice dict (w_pos w) (w_seglen w) = Some seg
  | SegTarget => slice prev (w_pos w) (w_seglen w) = Some seg
  end.

Lemma slice_sub : forall A (l s : list A) pos len a n,
  slice l pos len = Some s -> 0 <= a -> 0 <= n -> a + n <= len ->
  slice l (pos + a) n = Some (ztake n (zdrop a s)).
Proof.
  intros A l s pos len a n S Ha Hn L. apply slice_inv in S as (P & N & Q & E & _).
  rewrite slice_some by lia. subst s. rewrite zdrop_ztake by lia. rewrite zdrop_zdrop by lia.
  rewrite ztake_ztake. f_equal. f_equal; [lia|]. f_equal. lia.
Qed.

Lemma slice_app_l : forall A (l m : list A) off n s,
  slice l off n = Some s -> slice (l ++ m) off n = Some s.
Proof.
  intros A l m off n s S. apply slice_inv in S as (P & N & Q & E & _).
  rewrite slice_some; [|lia|lia|rewrite zlen_app; pose proof (zlen_nonneg _ m); lia].
  rewrite zdrop_app_le by lia. rewrite ztake_app_le; [congruence|]. rewrite zlen_zdrop by lia. lia.
Qed.

Lemma read_source_ok : forall dict w prev T seg a n,
  seg_ok dict w prev seg -> 0 <= a -> 0 <= n -> a + n <= w_seglen w ->
  read_source dict w (prev ++ T) a n = Some (ztake n (zdrop a seg)) \/
  (w_kind w = SegNone /\ w_seglen w <> 0).
Proof.
  intros dict w prev T seg a n [SL SK] Ha Hn L. unfold read_source.
  destruct (w_kind w).
  - destruct (Z.eq_dec (w_seglen w) 0) as [Z0|Z0]; [left|right; auto].
    assert (seg = []) as -> by (apply zlen_0_nil; lia).
    rewrite slice_some by (rewrite ?zlen_nil; lia). reflexivity.
  - left. eapply slice_sub; eauto.
  - left. apply slice_app_l. eapply slice_sub; eauto.
Qed.

(** A COPY is the byte-by-byte copy of the specification; it neither reads nor
    writes outside its bounds. *)
Lemma copy_bytes_ok : forall dict w start prev seg T address size,
  seg_ok dict w prev seg -> (w_kind w = SegNone -> w_seglen w = 0) ->
  zlen prev = start -> 0 <= address < w_seglen w + zlen T -> 0 <= size ->
  zlen T + size <= w_len w ->
  exists bs, zlen bs = size /\
    copy_bytes dict w start (prev ++ T) address size = XOk (prev ++ T ++ bs) /\
    copy_bytewise (Z.to_nat size) seg T address = Some (T ++ bs).
Proof.
  intros dict w start prev seg T address size SO SN P A S C. unfold copy_bytes.
  pose proof (zlen_nonneg _ T). pose proof (zlen_nonneg _ prev). pose proof (zlen_nonneg _ seg).
  assert (zlen seg = w_seglen w) as SL by apply SO.
  assert (zlen (prev ++ T) - start = zlen T) as TD by (rewrite zlen_app; lia). rewrite TD.
  assert (forall n, 0 <= n -> address + n <= w_seglen w ->
     read_source dict w (prev ++ T) address n = Some (ztake n (zdrop address seg)) /\
     zlen (ztake n (zdrop address seg)) = n /\
     copy_bytewise (Z.to_nat n) seg T address = Some (T ++ ztake n (zdrop address seg))) as RS.
  { intros n N L. split; [|split].
    - destruct (read_source_ok dict w prev T seg address n SO) as [E|[E1 E2]]; auto; try lia.
    - rewrite zlen_ztake by lia. rewrite zlen_zdrop by lia. lia.
    - rewrite copy_bytewise_block; [|lia|rewrite zlen_app; lia].
      rewrite zdrop_app_le by lia. rewrite ztake_app_le.
      + do 3 f_equal. lia.
      + rewrite zlen_zdrop by lia. lia. }
  destruct (Z.leb_spec (address + size) (w_seglen w)) as [L1|L1].
  - destruct (RS size) as (E1 & E2 & E3); [lia|lia|]. rewrite E1.
    rewrite append_target_some by (rewrite zlen_app; lia).
    eexists. split; [exact E2|]. split; [rewrite <- app_assoc; reflexivity|exact E3].
  - destruct (Z.ltb_spec address (w_seglen w)) as [L2|L2].
    + set (n := w_seglen w - address) in *. destruct (RS n) as (E1 & E2 & E3); [lia|lia|]. rewrite E1.
      rewrite append_target_some by (rewrite zlen_app; lia).
      set (b1 := ztake n (zdrop address seg)) in *.
      destruct (copy_loop_ok (Datatypes.S (Z.to_nat size)) (start + w_len w) start prev seg (T ++ b1) 0 (size - n))
        as (b2 & M1 & M2 & M3); auto.
      { rewrite zlen_app. lia. }
      { lia. }
      { rewrite zlen_app. lia. }
      { lia. }
      exists (b1 ++ b2). split; [rewrite zlen_app; lia|]. split.
      * rewrite <- app_assoc. replace (address + n - w_seglen w) with 0 by lia.
        rewrite zlen_app in M2. rewrite E2 in M2. rewrite M2. rewrite <- app_assoc. reflexivity.
      * replace (Z.to_nat size) with (Z.to_nat n + Z.to_nat (size - n))%nat by lia.
        rewrite copy_bytewise_add, E3.
        replace (address + Z.of_nat (Z.to_nat n)) with (zlen seg + 0) by lia.
        rewrite M3. rewrite <- app_assoc. reflexivity.
    + destruct (copy_loop_ok (Datatypes.S (Z.to_nat size)) (start + w_len w) start prev seg T (address - w_seglen w) size)
        as (bs & M1 & M2 & M3); auto; try lia.
      exists bs. split; [exact M1|]. split; [exact M2|].
      rewrite SL in M3. replace (w_seglen w + (address - w_seglen w)) with address in M3 by lia. exact M3.
Qed.
