(** Model of src/varint_bigendian.{h,cc}. *)

From Verif Require Import Base.

(** varint_bigendian.cc 25-26: [VarintBE<T>::kMaxVal]; varint_bigendian.h 50-62:
    [kMaxBytes].  The template parameter is modelled by this pair. *)
Record int_type := { kMaxVal : Z; kMaxBytes : nat }.
(** varint_bigendian.h 50-55, varint_bigendian.cc 25: the instance for int32_t *)
Definition I32 : int_type := {| kMaxVal := int32_max; kMaxBytes := 5 |}.
(** varint_bigendian.h 57-62, varint_bigendian.cc 26: the instance for int64_t *)
Definition I64 : int_type := {| kMaxVal := int64_max; kMaxBytes := 9 |}.

(** varint_bigendian.cc 36-57, the for loop of [Parse].  [result] is the C++
    accumulator on entry to the iteration; the list is [ [parse_ptr, limit) ].
    [*parse_ptr & 0x7F] is [b mod 128], [*parse_ptr & 0x80] tests [b >= 128],
    [<< 7] is [* 128] (no overflow because of the check before it). *)
Fixpoint parse_loop (t : int_type) (result : Z) (l : list Z) : res (Z * list Z) :=
  match l with
  | [] => Eod
  | b :: tl =>
      let result := result + b mod 128 in
      if b <? 128 then Ok (result, tl)
      else if kMaxVal t / 128 <? result then Err
      else parse_loop t (result * 128) tl
  end.

(** varint_bigendian.cc 36-57.  On success the new value of [*varint_ptr] is the
    returned suffix; otherwise the cursor is not modified.  [limit == NULL]
    cannot be expressed (no caller in /repo/src passes a null limit). *)
Definition parse (t : int_type) (l : list Z) : res (Z * list Z) := parse_loop t 0 l.

(** varint_bigendian.cc 59-80, the while loop of [EncodeInternal]; [slots] is the
    number of free bytes left in [varint_buf], [acc] the part already written.
    [None]: a write below the start of the buffer. *)
Fixpoint encode_loop (slots : nat) (v : Z) (acc : list Z) : option (list Z) :=
  if v =? 0 then Some acc
  else match slots with
       | O => None
       | S slots' => encode_loop slots' (v / 128) ((v mod 128 + 128) :: acc)
       end.

(** varint_bigendian.cc 59-80 [EncodeInternal] together with 82-105 [Encode],
    [AppendToString], [AppendToOutputString]: the bytes appended.  A negative
    value logs and appends nothing. *)
Definition encode (t : int_type) (v : Z) : option (list Z) :=
  if v <? 0 then Some []
  else encode_loop (kMaxBytes t - 1) (v / 128) [v mod 128].

(** The bytes appended, for callers; [[]] in the (unreachable, see
    [encode_total]) buffer underflow case. *)
(** varint_bigendian.cc 90-105 [AppendToString] *)
Definition encode_bytes (t : int_type) (v : Z) : list Z :=
  match encode t v with Some l => l | None => [] end.

(** varint_bigendian.cc 108-122 [Length]; the do-while loop.  The fuel bounds the
    number of iterations; a 64-bit value needs at most 10. *)
Fixpoint length_loop (fuel : nat) (v : Z) (len : Z) : option Z :=
  match fuel with
  | O => None
  | S fuel' =>
      let v := v / 128 in
      let len := len + 1 in
      if v =? 0 then Some len else length_loop fuel' v len
  end.
(** varint_bigendian.cc 107-122 [Length]; [None] is running out of fuel, which does not happen *)
Definition varint_length_opt (v : Z) : option Z :=
  if v <? 0 then Some 0 else length_loop 10 v 0.
(** varint_bigendian.cc 107-122 [Length], for callers *)
Definition varint_length (v : Z) : Z :=
  match varint_length_opt v with Some n => n | None => 0 end.
