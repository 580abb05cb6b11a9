(** The windows of a file one by one, with a condition on each, what each yields and
    whether it has a checksum. *)

From Verif Require Import Base Spec.

(** [SpecLong.windows_each] and [SpecTemplate.windows_marked] in one: [ok prev w T] for a
    window [w] that stands for [T] after the target [prev]; the mark is that of a window
    with a checksum (format_extension_flags.h VCD_FORMAT_CHECKSUM: bit 2 of the window
    indicator, in the SDCH format). *)
Inductive windows_marked_each (t tl : tolerance) (f : format) (dict : list Z) (ok : list Z -> list Z -> list Z -> Prop)
  : list Z -> list Z -> list (bool * list Z) -> Prop :=
| me_nil : forall prev, windows_marked_each t tl f dict ok prev [] []
| me_cons : forall prev w T rest parts,
    window (match rest with [] => tl | _ => t end) f dict prev w T -> ok prev w T ->
    windows_marked_each t tl f dict ok (prev ++ T) rest parts ->
    windows_marked_each t tl f dict ok prev (w ++ rest) ((f_ext f && Z.testbit (hd 0 w) 2, T) :: parts).
