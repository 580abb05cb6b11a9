(** Model of src/addrcache.{h,cc}. *)

From Verif Require Import Base Varint.

(** addrcache.h 198-208: the members of [VCDiffAddressCache].  The two vectors
    are lists; every access to them below is bounds-checked. *)
Record cache := {
  near_size : Z;        (* near_cache_size_ *)
  same_size : Z;        (* same_cache_size_ *)
  next_slot : Z;        (* next_slot_ *)
  near_a : list Z;      (* near_addresses_ *)
  same_a : list Z       (* same_addresses_ *)
}.

(** addrcache.h 40-41 kDefaultNearCacheSize, kDefaultSameCacheSize. *)
Definition kDefaultNearCacheSize : Z := 4.
(** addrcache.h 41 *)
Definition kDefaultSameCacheSize : Z := 3.

(** addrcache.h 78-80 and 85-87 (implicit conversion of int to unsigned char). *)
Definition first_same_mode (near_size : Z) : Z := to_uchar (2 + near_size).
(** addrcache.h 85-87 [LastMode] *)
Definition last_mode (near_size same_size : Z) : Z :=
  to_uchar (first_same_mode near_size + same_size - 1).
(** addrcache.h 89-92 *)
Definition default_last_mode : Z := 2 + kDefaultNearCacheSize + kDefaultSameCacheSize - 1.

(** addrcache.h 105-107 *)
Definition is_near_mode (c : cache) (mode : Z) : bool :=
  (2 <=? mode) && (mode <? first_same_mode (near_size c)).
(** addrcache.h 109-111 *)
Definition is_same_mode (c : cache) (mode : Z) : bool :=
  (first_same_mode (near_size c) <=? mode) && (mode <=? last_mode (near_size c) (same_size c)).

(** addrcache.cc 46-55 (constructor) followed by 71-90 [Init]; [None] when Init
    returns false.  VCD_MAX_MODES is 256 (vcdiff_defs.h 190).  Simplification: a
    cache is always used as "construct then Init", or re-Inited with the same
    sizes, so a vector that Init does not assign (size 0) is empty. *)
Definition cache_init (ns ss : Z) : option cache :=
  if 254 <? ns + ss then None
  else Some {| near_size := ns; same_size := ss; next_slot := 0;
               near_a := zrepeat 0 ns; same_a := zrepeat 0 (ss * 256) |}.

(** addrcache.cc 105-113 [UpdateCache]; [None] is a write outside a vector. *)
Definition update_cache (c : cache) (address : Z) : option cache :=
  match (if 0 <? near_size c
         then match put (near_a c) (next_slot c) address with
              | Some l => Some (l, (next_slot c + 1) mod near_size c)
              | None => None
              end
         else Some (near_a c, next_slot c)) with
  | None => None
  | Some (near', slot') =>
      match (if 0 <? same_size c
             then put (same_a c) (address mod (same_size c * 256)) address
             else Some (same_a c)) with
      | None => None
      | Some same' =>
          Some {| near_size := near_size c; same_size := same_size c; next_slot := slot';
                  near_a := near'; same_a := same' |}
      end
  end.

(** addrcache.cc 183-191, the loop over the NEAR cache; [i] counts up from
    [near_size - k].  State: best mode and best encoded address. *)
Fixpoint encode_near_loop (c : cache) (address : Z) (k : nat) (i : Z) (best : Z * Z)
  : option (Z * Z) :=
  match k with
  | O => Some best
  | S k' =>
      match get (near_a c) i with
      | None => None
      | Some na =>
          let e := address - na in
          let best' := if (0 <=? e) && (e <? snd best) then (to_uchar (2 + i), e) else best in
          encode_near_loop c address k' (i + 1) best'
      end
  end.

(** addrcache.cc 141-197 [EncodeAddress]: mode, encoded address, new cache.
    [None] is an access outside a vector.  The two DFATAL exits return mode 0,
    encoded address 0, cache unchanged. *)
Definition encode_address (c : cache) (address here : Z) : option (Z * Z * cache) :=
  if (address <? 0) || (here <=? address) then Some (0, 0, c)
  else
    match
      (if 0 <? same_size c then
         match get (same_a c) (address mod (same_size c * 256)) with
         | None => None
         | Some a => Some (a =? address)
         end
       else Some false) with
    | None => None
    | Some true =>
        let pos := address mod (same_size c * 256) in
        match update_cache c address with
        | None => None
        | Some c' =>
            Some (to_uchar (first_same_mode (near_size c) + to_uchar (pos / 256)),
                  pos mod 256, c')
        end
    | Some false =>
        let best0 := (0, address) in
        let here_e := here - address in
        let best1 := if here_e <? snd best0 then (1, here_e) else best0 in
        match encode_near_loop c address (Z.to_nat (near_size c)) 0 best1 with
        | None => None
        | Some best2 =>
            match update_cache c address with
            | None => None
            | Some c' => Some (fst best2, snd best2, c')
            end
        end
    end.

(** addrcache.h 136-138 *)
Definition write_as_varint (c : cache) (mode : Z) : bool := negb (is_same_mode c mode).

(** encodetable.cc 260-264, the part of [Copy] that writes the encoded address:
    the bytes appended to the address stream. *)
Definition addr_bytes (c : cache) (mode e : Z) : list Z :=
  if write_as_varint c mode then encode_bytes I32 e else [to_uchar e].

(** addrcache.cc 208-222 [IsDecodedAddressValid] *)
Definition decoded_address_valid (a here : Z) : bool := (0 <=? a) && (a <? here).

(** addrcache.cc 265-317 [DecodeAddress]: decoded address, rest of the address
    stream, new cache.  [UB] is an access outside a vector.  The int32_t sum in
    DecodeNearAddress (addrcache.h 122-125) is modelled as wrapping; that the
    mathematical sum can leave the int32_t range (undefined behaviour in C++)
    is a finding stated separately. *)
Definition decode_address (c : cache) (here mode : Z) (stream : list Z)
  : res (Z * list Z * cache) :=
  if here <? 0 then Err
  else
    let finish (a : Z) (rest : list Z) :=
      if decoded_address_valid a here then
        match update_cache c a with
        | Some c' => Ok (a, rest, c')
        | None => UB
        end
      else Err in
    match stream with
    | [] => Eod
    | b :: tl =>
        if is_same_mode c mode then
          match get (same_a c) ((mode - first_same_mode (near_size c)) * 256 + b) with
          | None => UB
          | Some a => finish a tl
          end
        else
          match parse I32 stream with
          | Err => Err
          | Eod => Eod
          | UB => UB
          | Ok (e, rest) =>
              if mode =? 0 then finish e rest
              else if mode =? 1 then finish (here - e) rest
              else if is_near_mode c mode then
                match get (near_a c) (mode - 2) with
                | None => UB
                | Some na => finish (to_int32 (na + e)) rest
                end
              else Err
          end
    end.
