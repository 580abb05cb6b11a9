(** Common ground of all model files: byte strings as [list Z], Z-indexed list
    operations, machine integer conversions, and the result type of the decoder
    functions.  Nothing in this file models a particular function of /repo. *)

From Coq Require Export ZArith List Bool Lia.
From Coq Require Import ZifyBool ZifyNat.
Export ListNotations.
Global Open Scope Z_scope.
Global Open Scope list_scope.

Ltac Zify.zify_post_hook ::= Z.div_mod_to_equations.

(** ** Bytes *)

(** A [char] is modelled by its unsigned value. *)
Definition byte_ok (b : Z) : Prop := 0 <= b < 256.
Definition bytes_ok (l : list Z) : Prop := Forall byte_ok l.

(** Boolean version, for closed examples. *)
Definition bytes_okb (l : list Z) : bool :=
  forallb (fun b => (0 <=? b) && (b <? 256)) l.

Lemma bytes_okb_ok : forall l, bytes_okb l = true -> bytes_ok l.
Proof.
  intros l H. apply Forall_forall. intros b Hb.
  unfold bytes_okb in H. rewrite forallb_forall in H.
  apply H in Hb. unfold byte_ok. lia.
Qed.

(** ** Z-indexed list operations *)

Definition zlen {A} (l : list A) : Z := Z.of_nat (length l).
Definition ztake {A} (n : Z) (l : list A) : list A := firstn (Z.to_nat n) l.
Definition zdrop {A} (n : Z) (l : list A) : list A := skipn (Z.to_nat n) l.

(** Checked read: [None] is an out-of-bounds access. *)
Definition get {A} (l : list A) (i : Z) : option A :=
  if i <? 0 then None else nth_error l (Z.to_nat i).

(** Checked block read [ [off, off+n) ]: [None] is an out-of-bounds access. *)
Definition slice {A} (l : list A) (off n : Z) : option (list A) :=
  if (0 <=? off) && (0 <=? n) && (off + n <=? zlen l)
  then Some (ztake n (zdrop off l)) else None.

(** Checked write: [None] is an out-of-bounds access. *)
Fixpoint set_nth {A} (l : list A) (i : nat) (v : A) : list A :=
  match l, i with
  | [], _ => []
  | _ :: tl, O => v :: tl
  | x :: tl, S i' => x :: set_nth tl i' v
  end.
Definition put {A} (l : list A) (i : Z) (v : A) : option (list A) :=
  if (0 <=? i) && (i <? zlen l) then Some (set_nth l (Z.to_nat i) v) else None.

Definition zrepeat {A} (x : A) (n : Z) : list A := repeat x (Z.to_nat n).

(** ** Machine integers (LP64) *)

Definition int32_max : Z := 2147483647.
Definition int64_max : Z := 9223372036854775807.
Definition size_max : Z := 18446744073709551615.

(** [static_cast<int32_t>(x)] *)
Definition to_int32 (x : Z) : Z := (x + 2147483648) mod 4294967296 - 2147483648.
(** [static_cast<unsigned char>(x)] *)
Definition to_uchar (x : Z) : Z := x mod 256.
(** [static_cast<uint32_t>(x)] *)
Definition to_uint32 (x : Z) : Z := x mod 4294967296.
(** [static_cast<size_t>(x)], and the wrap-around of size_t arithmetic. *)
Definition to_size (x : Z) : Z := x mod 18446744073709551616.

(** ** Results *)

(** [VCDiffResult] (vcdiff_defs.h 29-39) plus undefined behaviour as a
    distinct outcome. *)
Inductive res (A : Type) : Type :=
| Ok (a : A)      (* RESULT_SUCCESS / a non-negative value *)
| Eod             (* RESULT_END_OF_DATA *)
| Err             (* RESULT_ERROR *)
| UB.             (* undefined behaviour of the C++ code *)
Arguments Ok {A} _.
Arguments Eod {A}.
Arguments Err {A}.
Arguments UB {A}.

(** ** Lemmas *)

Lemma zlen_nil : forall A, zlen (@nil A) = 0.
Proof. reflexivity. Qed.
Lemma zlen_cons : forall A (x : A) l, zlen (x :: l) = 1 + zlen l.
Proof. intros. unfold zlen. cbn [length]. lia. Qed.
Lemma zlen_app : forall A (a b : list A), zlen (a ++ b) = zlen a + zlen b.
Proof. intros. unfold zlen. rewrite app_length. lia. Qed.
Lemma zlen_nonneg : forall A (l : list A), 0 <= zlen l.
Proof. intros. unfold zlen. lia. Qed.
Lemma zlen_ztake : forall A n (l : list A), 0 <= n -> zlen (ztake n l) = Z.min n (zlen l).
Proof. intros. unfold zlen, ztake. rewrite firstn_length. lia. Qed.
Lemma zlen_zdrop : forall A n (l : list A), 0 <= n -> zlen (zdrop n l) = Z.max 0 (zlen l - n).
Proof. intros. unfold zlen, zdrop. rewrite skipn_length. lia. Qed.
Lemma zlen_zrepeat : forall A (x : A) n, 0 <= n -> zlen (zrepeat x n) = n.
Proof. intros. unfold zlen, zrepeat. rewrite repeat_length. lia. Qed.
Lemma zlen_0_nil : forall A (l : list A), zlen l = 0 -> l = [].
Proof. intros A [|x l]; [reflexivity|]. rewrite zlen_cons. pose proof (zlen_nonneg _ l). lia. Qed.

Lemma ztake_zdrop : forall A n (l : list A), ztake n l ++ zdrop n l = l.
Proof. intros. apply firstn_skipn. Qed.
Lemma ztake_all : forall A n (l : list A), zlen l <= n -> ztake n l = l.
Proof. intros. unfold ztake. apply firstn_all2. unfold zlen in *. lia. Qed.
Lemma zdrop_all : forall A n (l : list A), zlen l <= n -> zdrop n l = [].
Proof. intros. unfold zdrop. apply skipn_all2. unfold zlen in *. lia. Qed.
Lemma ztake_0 : forall A (l : list A), ztake 0 l = [].
Proof. reflexivity. Qed.
Lemma zdrop_0 : forall A (l : list A), zdrop 0 l = l.
Proof. reflexivity. Qed.
Lemma ztake_app_le : forall A n (a b : list A), n <= zlen a -> ztake n (a ++ b) = ztake n a.
Proof.
  intros. unfold ztake. rewrite firstn_app.
  replace (Z.to_nat n - length a)%nat with 0%nat by (unfold zlen in *; lia).
  rewrite app_nil_r. reflexivity.
Qed.
Lemma ztake_app_eq : forall A n (a b : list A), n = zlen a -> ztake n (a ++ b) = a.
Proof. intros; subst. rewrite ztake_app_le by lia. apply ztake_all; lia. Qed.
Lemma ztake_app_ge : forall A n (a b : list A),
  zlen a <= n -> ztake n (a ++ b) = a ++ ztake (n - zlen a) b.
Proof.
  intros. unfold ztake. rewrite firstn_app. f_equal.
  - apply firstn_all2. unfold zlen in *. lia.
  - f_equal. unfold zlen in *. lia.
Qed.
Lemma zdrop_app_le : forall A n (a b : list A), n <= zlen a -> zdrop n (a ++ b) = zdrop n a ++ b.
Proof.
  intros. unfold zdrop. rewrite skipn_app.
  replace (Z.to_nat n - length a)%nat with 0%nat by (unfold zlen in *; lia).
  reflexivity.
Qed.
Lemma zdrop_app_eq : forall A n (a b : list A), n = zlen a -> zdrop n (a ++ b) = b.
Proof. intros; subst. rewrite zdrop_app_le by lia. rewrite zdrop_all by lia. reflexivity. Qed.
Lemma zdrop_app_ge : forall A n (a b : list A),
  zlen a <= n -> zdrop n (a ++ b) = zdrop (n - zlen a) b.
Proof.
  intros. unfold zdrop. rewrite skipn_app.
  rewrite skipn_all2 by (unfold zlen in *; lia). cbn [app]. f_equal.
  unfold zlen in *. lia.
Qed.
Lemma zdrop_zdrop : forall A n m (l : list A), 0 <= n -> 0 <= m -> zdrop n (zdrop m l) = zdrop (n + m) l.
Proof.
  intros. unfold zdrop.
  replace (Z.to_nat (n + m)) with (Z.to_nat m + Z.to_nat n)%nat by lia.
  generalize (Z.to_nat n); generalize (Z.to_nat m). clear.
  intros m n; revert l; induction m as [|m IH]; intros l; cbn; [reflexivity|].
  destruct l; [destruct n; reflexivity|]. apply IH.
Qed.
Lemma ztake_ztake : forall A n m (l : list A), ztake n (ztake m l) = ztake (Z.min n m) l.
Proof.
  intros. unfold ztake. rewrite firstn_firstn. f_equal. lia.
Qed.
Lemma zdrop_ztake : forall A n m (l : list A),
  0 <= n -> zdrop n (ztake m l) = ztake (m - n) (zdrop n l).
Proof.
  intros. unfold ztake, zdrop. rewrite skipn_firstn_comm. f_equal. lia.
Qed.

Lemma get_some : forall A (l : list A) i, 0 <= i < zlen l -> exists x, get l i = Some x.
Proof.
  intros A l i H. unfold get. destruct (Z.ltb_spec i 0); [lia|].
  destruct (nth_error l (Z.to_nat i)) eqn:E; [eauto|].
  apply nth_error_None in E. unfold zlen in H. lia.
Qed.
Lemma get_range : forall A (l : list A) i x, get l i = Some x -> 0 <= i < zlen l.
Proof.
  intros A l i x H. unfold get in H. destruct (Z.ltb_spec i 0); [discriminate|].
  assert (nth_error l (Z.to_nat i) <> None) as N by congruence.
  apply nth_error_Some in N. unfold zlen. lia.
Qed.
Lemma get_none : forall A (l : list A) i, get l i = None <-> ~ (0 <= i < zlen l).
Proof.
  intros. split; intros H.
  - intros R. apply get_some in R as [x R]. congruence.
  - destruct (get l i) eqn:E; [|reflexivity]. apply get_range in E. lia.
Qed.
Lemma get_app_l : forall A (a b : list A) i, i < zlen a -> get (a ++ b) i = get a i.
Proof.
  intros. unfold get. destruct (Z.ltb_spec i 0); [reflexivity|].
  apply nth_error_app1. unfold zlen in *. lia.
Qed.
Lemma get_app_r : forall A (a b : list A) i, zlen a <= i -> get (a ++ b) i = get b (i - zlen a).
Proof.
  intros. unfold get. pose proof (zlen_nonneg _ a).
  destruct (Z.ltb_spec i 0); [lia|].
  destruct (Z.ltb_spec (i - zlen a) 0); [lia|].
  rewrite nth_error_app2 by (unfold zlen in *; lia).
  f_equal. unfold zlen in *. lia.
Qed.
Lemma get_zdrop : forall A (l : list A) n i, 0 <= n -> 0 <= i -> get (zdrop n l) i = get l (n + i).
Proof.
  intros. unfold get, zdrop.
  destruct (Z.ltb_spec i 0); [lia|]. destruct (Z.ltb_spec (n + i) 0); [lia|].
  replace (Z.to_nat (n + i)) with (Z.to_nat n + Z.to_nat i)%nat by lia.
  generalize (Z.to_nat n) (Z.to_nat i). clear. intros n i. revert l.
  induction n; intros l; [reflexivity|].
  destruct l; cbn. { destruct i; reflexivity. } apply IHn.
Qed.
Lemma get_ztake : forall A (l : list A) n i, i < n -> get (ztake n l) i = get l i.
Proof.
  intros. unfold get, ztake. destruct (Z.ltb_spec i 0); [reflexivity|].
  assert (Z.to_nat i < Z.to_nat n)%nat as L by lia.
  revert L. generalize (Z.to_nat n) (Z.to_nat i). clear. intros n i. revert l i.
  induction n; intros l i L; [lia|]. destruct l; [destruct i; reflexivity|].
  destruct i; [reflexivity|]. cbn. apply IHn. lia.
Qed.
Lemma get_ext : forall A (a b : list A), (forall i, 0 <= i -> get a i = get b i) -> a = b.
Proof.
  induction a as [|x a IH]; intros b H.
  - destruct b as [|y b]; [reflexivity|]. specialize (H 0 ltac:(lia)). discriminate.
  - destruct b as [|y b]. { specialize (H 0 ltac:(lia)). discriminate. }
    f_equal.
    + specialize (H 0 ltac:(lia)). cbn in H. congruence.
    + apply IH. intros i Hi. specialize (H (i + 1) ltac:(lia)).
      unfold get in *. destruct (Z.ltb_spec i 0); [lia|].
      destruct (Z.ltb_spec (i + 1) 0); [lia|].
      replace (Z.to_nat (i + 1)) with (S (Z.to_nat i)) in H by lia. exact H.
Qed.

Lemma slice_some : forall A (l : list A) off n,
  0 <= off -> 0 <= n -> off + n <= zlen l -> slice l off n = Some (ztake n (zdrop off l)).
Proof.
  intros. unfold slice.
  destruct (Z.leb_spec 0 off); [|lia]. destruct (Z.leb_spec 0 n); [|lia].
  destruct (Z.leb_spec (off + n) (zlen l)); [reflexivity|lia].
Qed.
Lemma slice_inv : forall A (l : list A) off n s,
  slice l off n = Some s ->
  0 <= off /\ 0 <= n /\ off + n <= zlen l /\ s = ztake n (zdrop off l) /\ zlen s = n.
Proof.
  intros A l off n s H. unfold slice in H.
  destruct (Z.leb_spec 0 off); [|discriminate]. destruct (Z.leb_spec 0 n); [|discriminate].
  destruct (Z.leb_spec (off + n) (zlen l)); [|discriminate].
  cbn in H. injection H as <-. repeat split; try lia.
  rewrite zlen_ztake by lia. rewrite zlen_zdrop by lia. lia.
Qed.

Lemma bytes_ok_app : forall a b, bytes_ok (a ++ b) <-> bytes_ok a /\ bytes_ok b.
Proof. intros. apply Forall_app. Qed.
Lemma bytes_ok_cons : forall x l, bytes_ok (x :: l) <-> byte_ok x /\ bytes_ok l.
Proof. intros. split; [inversion 1; auto|intros [? ?]; constructor; auto]. Qed.
Lemma Forall_ztake : forall A (P : A -> Prop) n l, Forall P l -> Forall P (ztake n l).
Proof.
  intros A P n l H. rewrite <- (ztake_zdrop _ n l) in H. apply Forall_app in H. tauto.
Qed.
Lemma Forall_zdrop : forall A (P : A -> Prop) n l, Forall P l -> Forall P (zdrop n l).
Proof.
  intros A P n l H. rewrite <- (ztake_zdrop _ n l) in H. apply Forall_app in H. tauto.
Qed.
Lemma bytes_ok_ztake : forall n l, bytes_ok l -> bytes_ok (ztake n l).
Proof. intros. apply Forall_ztake. assumption. Qed.
Lemma bytes_ok_zdrop : forall n l, bytes_ok l -> bytes_ok (zdrop n l).
Proof. intros. apply Forall_zdrop. assumption. Qed.

Lemma to_int32_id : forall x, -2147483648 <= x <= int32_max -> to_int32 x = x.
Proof. intros. unfold to_int32, int32_max in *. rewrite Z.mod_small by lia. lia. Qed.
Lemma to_size_id : forall x, 0 <= x <= size_max -> to_size x = x.
Proof. intros. unfold to_size, size_max in *. rewrite Z.mod_small by lia. lia. Qed.
Lemma to_uchar_id : forall x, 0 <= x < 256 -> to_uchar x = x.
Proof. intros. unfold to_uchar. apply Z.mod_small. lia. Qed.

Lemma length_set_nth : forall A (l : list A) i v, length (set_nth l i v) = length l.
Proof. induction l; intros [|i] v; cbn; auto. Qed.
Lemma nth_error_set_nth_eq : forall A (l : list A) i v,
  (i < length l)%nat -> nth_error (set_nth l i v) i = Some v.
Proof.
  induction l; intros [|i] v H; cbn in *; try lia; auto. apply IHl. lia.
Qed.
Lemma nth_error_set_nth_neq : forall A (l : list A) i j v,
  i <> j -> nth_error (set_nth l i v) j = nth_error l j.
Proof.
  induction l; intros [|i] [|j] v H; cbn in *; auto; try congruence.
Qed.
Lemma put_some : forall A (l : list A) i v, 0 <= i < zlen l -> exists l', put l i v = Some l'.
Proof.
  intros. unfold put. destruct (Z.leb_spec 0 i); [|lia].
  destruct (Z.ltb_spec i (zlen l)); [|lia]. cbn. eauto.
Qed.
Lemma put_inv : forall A (l l' : list A) i v,
  put l i v = Some l' ->
  0 <= i < zlen l /\ zlen l' = zlen l /\ get l' i = Some v /\
  (forall j, j <> i -> get l' j = get l j).
Proof.
  intros A l l' i v H. unfold put in H.
  destruct (Z.leb_spec 0 i); [|discriminate].
  destruct (Z.ltb_spec i (zlen l)); [|discriminate]. cbn in H. injection H as <-.
  split; [lia|]. split; [unfold zlen; rewrite length_set_nth; reflexivity|]. split.
  - unfold get. destruct (Z.ltb_spec i 0); [lia|].
    apply nth_error_set_nth_eq. unfold zlen in *. lia.
  - intros j Hj. unfold get. destruct (Z.ltb_spec j 0); [reflexivity|].
    apply nth_error_set_nth_neq. lia.
Qed.

Lemma Forall_get : forall A (P : A -> Prop) l i x, Forall P l -> get l i = Some x -> P x.
Proof.
  intros A P l i x F G. unfold get in G. destruct (i <? 0); [discriminate|].
  apply nth_error_In in G. rewrite Forall_forall in F. auto.
Qed.

Global Opaque zlen ztake zdrop get slice put.
