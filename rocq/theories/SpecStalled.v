(** Specification: a window of the interleaved format whose instructions end too early.

    The window [w] is complete: it has as many bytes as its fields declare.  Its
    instructions produce [m], which is less than the target data it declares; the rest
    [r] of the section is a part of an instruction, or instructions without effect.  No
    continuation can make it valid.  (RFC 3284 section 4.3: the instructions of a window
    produce its target window.  In the code: src/vcdecoder.cc 1233-1337, DecodeBody,
    when it returns RESULT_END_OF_DATA with interleaved_bytes_expected_ > 0.) *)

From Verif Require Import Base Spec SpecBegun.

(** RFC 3284 section 4.3; src/vcdecoder.cc 1233-1337, as above; [m] is all that the instructions in [w] produce. *)
Definition stalled (f : format) (dict prev w m : list Z) : Prop :=
  exists b r L, w = b ++ r /\ r <> [] /\ begun_window f dict prev b L m /\
    forall b' r' L' m', w = b' ++ r' -> begun_window f dict prev b' L' m' -> exists e, m = m' ++ e.
