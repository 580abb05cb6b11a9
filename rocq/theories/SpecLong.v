(** The windows of a file one by one, with a condition on each. *)

From Verif Require Import Base Spec.

(** The format without VCD_TARGET segments (RFC 3284 section 4.2: "if bit 1
    (VCD_TARGET) is non-zero, the source segment comes from the target file"). *)
Definition no_target (f : format) : format :=
  {| f_ext := f_ext f; f_table := f_table f; f_near := f_near f; f_same := f_same f; f_target := false |}.

(** [Spec.windows], but the condition [ok] may also look at the bytes of the window:
    [ok prev w T] for a window [w] that stands for [T] after the target [prev]. *)
Inductive windows_each (t tl : tolerance) (f : format) (dict : list Z) (ok : list Z -> list Z -> list Z -> Prop)
  : list Z -> list Z -> list Z -> Prop :=
| we_nil : forall prev, windows_each t tl f dict ok prev [] prev
| we_cons : forall prev w T rest out,
    window (match rest with [] => tl | _ => t end) f dict prev w T -> ok prev w T ->
    windows_each t tl f dict ok (prev ++ T) rest out ->
    windows_each t tl f dict ok prev (w ++ rest) out.

(** A window within the limits of a decoder, and whose own sizes fit 31 bits
    (nothing is asked of what comes before it). *)
Definition window_sized (dict : list Z) (admits : list Z -> list Z -> Prop) (prev w T : list Z) : Prop :=
  admits prev T /\ zlen w <= int32_max /\ zlen T <= int32_max /\ zlen dict + zlen T <= int32_max + 1.

(** If the window takes its source segment from the earlier target (bit 1,
    VCD_TARGET), the position and the length it gives fit 31 bits, and so does the
    length together with that of the window. *)
Definition target_segment_low (w T : list Z) : Prop :=
  forall ind b1 len b2 pos r, w = [ind] ++ b1 ++ b2 ++ r -> Z.testbit ind 1 = true ->
    varint b1 len -> varint b2 pos ->
    len <= int32_max /\ pos <= int32_max /\ len + zlen T <= int32_max + 1.
