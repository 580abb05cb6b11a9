(** Model of the rest of src/zlib/adler32.c and src/checksum.h: UpdateAdler32, null
    buffers, adler32_combine, adler32_range. *)

From Verif Require Import Base Adler.

(** adler32.c 97-165 [adler32]; a buffer that is null is [None] (length 0). *)
Definition adler32_null (adler : Z) (buf : option (list Z)) : option Z :=
  match buf with None => Some 1 | Some l => adler32 adler l end.

(** checksum.h 39-45 [UpdateAdler32] for a non-null buffer; the conversion of size to
    uInt is the identity below 4 GB. *)
Definition update_adler32 (partial : Z) (buf : list Z) : Z :=
  match adler32 partial buf with Some c => c | None => 0 end.

(** adler32.c 168-190 [adler32_combine]; unsigned and unsigned long are 32 bits wide,
    z_off_t is signed and len2 is not negative, so that [len2 % BASE] is [mod]. *)
Definition adler32_combine (adler1 adler2 len2 : Z) : Z :=
  let rem := to_uint32 (len2 mod BASE) in
  let sum1 := adler1 mod 65536 in
  let sum2 := ul (rem * sum1) in
  let sum2 := sum2 mod BASE in
  let sum1 := ul (ul (sum1 + ul (ul (adler2 mod 65536 + BASE) - 1))) in
  let sum2 := ul (sum2 + ul (ul (ul ((adler1 / 65536) mod 65536 + (adler2 / 65536) mod 65536) + BASE) - rem)) in
  let sum1 := if BASE <=? sum1 then sum1 - BASE else sum1 in
  let sum1 := if BASE <=? sum1 then sum1 - BASE else sum1 in
  let sum2 := if BASE * 2 <=? sum2 then sum2 - BASE * 2 else sum2 in
  let sum2 := if BASE <=? sum2 then sum2 - BASE else sum2 in
  Z.lor sum1 (ul (sum2 * 65536)).

(** adler32.c 89-95 [adler32_range] *)
Definition adler32_range : Z * Z := (0, Z.lor (ul ((BASE - 1) * 65536)) (BASE - 1)).
