(** Model of src/rolling_hash.h.  The template parameter window_size is an
    argument. *)

From Verif Require Import Base.

(** rolling_hash.h 34-39 *)
Definition kMult : Z := 257.
(** rolling_hash.h 39 *)
Definition kBase : Z := 8388608.

(** rolling_hash.h 42-44 [ModBase] *)
Definition mod_base (operand : Z) : Z := Z.land operand (kBase - 1).

(** rolling_hash.h 51-63 [FindModBaseInverse]; the operand is an uint32_t *)
Definition find_mod_base_inverse (operand : Z) : Z := mod_base (to_uint32 (0 - operand)).

(** rolling_hash.h 69-72 [HashStep] *)
Definition hash_step (partial_hash next_byte : Z) : Z :=
  mod_base (to_uint32 (to_uint32 (partial_hash * kMult) + next_byte)).

(** rolling_hash.h 80-83 [HashFirstTwoBytes] and 116-122 [Hash]: [ptr] is the list
    of the bytes from the pointer on; [None] is reading past its end. *)
Definition hash_direct (window_size : Z) (ptr : list Z) : option Z :=
  match slice ptr 0 window_size with
  | Some (p0 :: p1 :: tl) => Some (fold_left hash_step tl (to_uint32 (to_uint32 (p0 * kMult) + p1)))
  | _ => None
  end.

(** rolling_hash.h 194-198, the multiplier computed by [Init] *)
Fixpoint multiplier_loop (n : nat) (m : Z) : Z :=
  match n with
  | O => m
  | S n' => multiplier_loop n' (mod_base (to_uint32 (m * kMult)))
  end.
(** rolling_hash.h 191-198: the loop of [Init] for the multiplier *)
Definition multiplier (window_size : Z) : Z := multiplier_loop (Z.to_nat (window_size - 1)) 1.

(** rolling_hash.h 216-224, the loop of [Init] over removed_byte: the entries
    from the current one on *)
Fixpoint table_loop (n : nat) (m byte_times_multiplier : Z) : list Z :=
  match n with
  | O => []
  | S n' => find_mod_base_inverse byte_times_multiplier
            :: table_loop n' m (mod_base (to_uint32 (byte_times_multiplier + m)))
  end.
(** rolling_hash.h 175-228 [Init] *)
Definition remove_table (window_size : Z) : list Z := table_loop 256 (multiplier window_size) 0.

(** rolling_hash.h 137-153 [UpdateHash], [RemoveFirstByteFromHash]; [rt] is
    remove_table_ *)
Definition update_hash (rt : list Z) (old_hash old_first_byte new_last_byte : Z) : option Z :=
  match get rt old_first_byte with
  | None => None
  | Some r => Some (hash_step (mod_base (to_uint32 (old_hash + r))) new_last_byte)
  end.
