(** Specification for C50 and C51: the COPYs of the encoder cannot be extended, and
    repetitive data is short.  No definition of a model file is used here. *)

From Verif Require Import Base SpecFind.

(** The buffer that the address [a] of a COPY belongs to, and the position there: the
    addresses go through the dictionary and then through the target. *)
Definition source_of (dict target : list Z) (a : Z) : list Z * Z :=
  if a <? zlen dict then (dict, a) else (target, a - zlen dict).

(** A COPY of [n] bytes from the address [a] that makes the target from [p] on could
    be one byte longer: at its end, or at its beginning. *)
Definition extends_right (dict target : list Z) (p a n : Z) : Prop :=
  let '(src, s) := source_of dict target a in
  s + n < zlen src /\ p + n < zlen target /\ get src (s + n) = get target (p + n).
Definition extends_left (dict target : list Z) (p a : Z) : Prop :=
  let '(src, s) := source_of dict target a in
  0 < s /\ 0 < p /\ get src (s - 1) = get target (p - 1).

(** [n] bytes of [source] at [i] are equal to those of [target] at [j], and the range
    contains the block [b] of the source, which lies at [q] in the target. *)
Definition match_at (source target : list Z) (i j n b q : Z) : Prop :=
  (exists s, slice source i n = Some s /\ slice target j n = Some s) /\
  i <= 16 * b /\ 16 * b + 16 <= i + n /\ 16 * b - i = q - j.

(** Every byte is equal to the one [p] before it. *)
Definition periodic (p : Z) (l : list Z) : Prop :=
  forall i, 0 <= i -> i + p < zlen l -> get l (i + p) = get l i.
