(** Specification of which repeated data the encoder has to find.  No definition of
    a model file is used here. *)

From Verif Require Import Base.

(** The 16-byte block number [b] of [l]. *)
Definition block16 (l : list Z) (b : Z) : list Z := ztake 16 (zdrop (16 * b) l).

(** The hash of a block is a polynomial in 257 modulo 2^23.  The index of a buffer of
    [n] bytes has as many slots as the smallest power of two that is not below
    n/4 + 1; a block belongs to the slot given by its hash. *)
Definition window_hash (l : list Z) : Z := fold_left (fun h b => h * 257 + b) l 0 mod 2 ^ 23.
Definition slots (n : Z) : Z := 2 ^ Z.log2_up (n / 4 + 1).
Definition slot (n : Z) (l : list Z) : Z := window_hash l mod slots n.

(** How many of the blocks of [l] before block [b] are in the same slot. *)
Definition crowd (n : Z) (l : list Z) (b : Z) : Z :=
  zlen (filter (fun c => slot n (block16 l c) =? slot n (block16 l b)) (map Z.of_nat (seq 0 (Z.to_nat b)))).

(** Block [b] of [l] is easy to find: at most 16 earlier blocks share its slot. *)
Definition easy (n : Z) (l : list Z) (b : Z) : Prop :=
  0 <= b /\ 16 * b + 16 <= zlen l /\ crowd n l b <= 16.

(** [d] and [l] have [n] bytes in common, at [j] and at [i]; the range in [l]
    contains the whole block [b]. *)
Definition common (l : list Z) (i : Z) (d : list Z) (j n b : Z) : Prop :=
  (exists s, slice l i n = Some s /\ slice d j n = Some s) /\ i <= 16 * b /\ 16 * b + 16 <= i + n.
