(** More about lists indexed by integers. *)

From Verif Require Import Base.
From Coq Require Import ZifyBool ZifyNat.

Lemma get_cons : forall A (x : A) l i, 0 < i -> get (x :: l) i = get l (i - 1).
Proof.
  Local Transparent get. intros A x l i I. unfold get. destruct (Z.ltb_spec i 0); [lia|]. destruct (Z.ltb_spec (i - 1) 0); [lia|].
  destruct (Z.to_nat i) as [|k] eqn:E; [lia|]. assert (Z.to_nat (i - 1) = k) as -> by lia. reflexivity. Local Opaque get.
Qed.
Lemma get_0 : forall A (x : A) l, get (x :: l) 0 = Some x.
Proof. Local Transparent get. reflexivity. Local Opaque get. Qed.
Lemma ztake_cons : forall A (x : A) l n, 0 < n -> ztake n (x :: l) = x :: ztake (n - 1) l.
Proof.
  Local Transparent ztake. intros A x l n N. unfold ztake. destruct (Z.to_nat n) as [|k] eqn:E; [lia|].
  assert (Z.to_nat (n - 1) = k) as -> by lia. reflexivity. Local Opaque ztake.
Qed.
Lemma zdrop_cons : forall A (x : A) l n, 0 < n -> zdrop n (x :: l) = zdrop (n - 1) l.
Proof.
  Local Transparent zdrop. intros A x l n N. unfold zdrop. destruct (Z.to_nat n) as [|k] eqn:E; [lia|].
  assert (Z.to_nat (n - 1) = k) as -> by lia. reflexivity. Local Opaque zdrop.
Qed.
Lemma zdrop_get : forall A (l : list A) n x, get l n = Some x -> zdrop n l = x :: zdrop (n + 1) l.
Proof.
  intros A l n x G. pose proof (get_range _ _ _ _ G) as R.
  destruct (zdrop n l) as [|y m] eqn:E.
  - pose proof (zlen_zdrop _ n l ltac:(lia)) as L. rewrite E, zlen_nil in L. lia.
  - pose proof (get_zdrop _ l n 0 ltac:(lia) ltac:(lia)) as GZ. rewrite E, get_0, Z.add_0_r, G in GZ. injection GZ as ->.
    f_equal. rewrite Z.add_comm, <- zdrop_zdrop, E, zdrop_cons, zdrop_0 by lia. reflexivity.
Qed.
Lemma ztake_snoc : forall A (l : list A) n x, get l n = Some x -> ztake (n + 1) l = ztake n l ++ [x].
Proof.
  intros A l n x G. pose proof (get_range _ _ _ _ G) as R.
  rewrite <- (ztake_zdrop _ n l) at 1. rewrite ztake_app_ge by (rewrite zlen_ztake by lia; lia).
  rewrite zlen_ztake by lia. rewrite (zdrop_get _ _ _ _ G). rewrite Z.min_l by lia.
  replace (n + 1 - n) with 1 by lia. rewrite ztake_cons, ztake_0 by lia. reflexivity.
Qed.
Lemma bytes_ok_get : forall l i x, bytes_ok l -> get l i = Some x -> byte_ok x.
Proof.
  Local Transparent get. intros l i x B G. unfold get in G. destruct (i <? 0); [discriminate|].
  apply nth_error_In in G. unfold bytes_ok in B. rewrite Forall_forall in B. auto. Local Opaque get.
Qed.
Lemma get_zrepeat' : forall A (x : A) n i, 0 <= i < n -> get (zrepeat x n) i = Some x.
Proof.
  Local Transparent get. intros A x n i I. unfold get, zrepeat. destruct (Z.ltb_spec i 0); [lia|].
  assert (Z.to_nat i < Z.to_nat n)%nat as L by lia. revert L. generalize (Z.to_nat i) as a. generalize (Z.to_nat n) as b.
  induction b as [|b IH]; intros a L; [lia|]. destruct a; [reflexivity|]. cbn. apply IH. lia. Local Opaque get.
Qed.
