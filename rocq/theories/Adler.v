(** Model of src/zlib/adler32.c (the adler32 function) and src/checksum.h. *)

From Verif Require Import Base.

(** adler32.c 11-12 *)
Definition BASE : Z := 65521.
(** adler32.c 12 *)
Definition NMAX : Z := 5552.

(** uLong and unsigned long are modelled as 32 bits wide, the narrowest type C
    allows; the proofs show that nothing wraps, so wider types behave alike. *)
(** adler32.c 61-62: the type uLong of the sums *)
Definition ul (x : Z) : Z := to_uint32 x.

(** adler32.c 15-19 [DO1] to [DO16] and the loops [while (len--)] (126-129,
    155-158): one [DO1] per byte. *)
Fixpoint do_bytes (l : list Z) (adler sum2 : Z) : Z * Z :=
  match l with
  | [] => (adler, sum2)
  | b :: tl => let adler := ul (adler + b) in do_bytes tl adler (ul (sum2 + adler))
  end.

(** adler32.c 136-161: blocks of NMAX bytes, then the remaining bytes. *)
Fixpoint adler_blocks (fuel : nat) (l : list Z) (adler sum2 : Z) : option (Z * Z) :=
  match fuel with
  | O => None
  | S fuel' =>
      if NMAX <=? zlen l then
        let '(a, s) := do_bytes (ztake NMAX l) adler sum2 in
        adler_blocks fuel' (zdrop NMAX l) (a mod BASE) (s mod BASE)
      else
        match l with
        | [] => Some (adler, sum2)
        | _ => let '(a, s) := do_bytes l adler sum2 in Some (a mod BASE, s mod BASE)
        end
  end.

(** adler32.c 97-165 [adler32] for a non-null buffer.  MOD and MOD4 are [mod]
    (NO_DIVIDE not defined). *)
Definition adler32 (adler : Z) (buf : list Z) : option Z :=
  let sum2 := (adler / 65536) mod 65536 in
  let adler := adler mod 65536 in
  let ret (a s : Z) := Z.lor a (ul (s * 65536)) in
  if zlen buf =? 1 then
    let adler := ul (adler + hd 0 buf) in
    let adler := if BASE <=? adler then adler - BASE else adler in
    let sum2 := ul (sum2 + adler) in
    let sum2 := if BASE <=? sum2 then sum2 - BASE else sum2 in
    Some (ret adler sum2)
  else if zlen buf <? 16 then
    let '(a, s) := do_bytes buf adler sum2 in
    let a := if BASE <=? a then a - BASE else a in
    Some (ret a (s mod BASE))
  else
    match adler_blocks (S (length buf)) buf adler sum2 with
    | Some (a, s) => Some (ret a s)
    | None => None
    end.

(** checksum.h 33-37 [ComputeAdler32] for a non-null buffer; the conversion of
    size to uInt is the identity below 4 GB.  [None] (fuel) is unreachable. *)
Definition compute_adler32 (buf : list Z) : Z :=
  match adler32 0 buf with Some c => c | None => 0 end.
