(** Model of src/headerparser.{h,cc}: parsing of file and window header fields.

    A [ParseableChunk] (headerparser.h 33-94) is the list of its unparsed bytes.
    The members return_code_ and position_ of [VCDiffHeaderParser] are modelled
    by the [res] monad: after the first failure every further parse call does
    nothing (headerparser.cc 88-90, 102-104, 129-131). *)

From Verif Require Import Base Varint.

(** headerparser.cc 88-90, 102-104, 129-131: nothing is parsed after a failure *)
Definition bind {A B} (r : res A) (k : A -> res B) : res B :=
  match r with
  | Ok a => k a
  | Eod => Eod
  | Err => Err
  | UB => UB
  end.
Notation "'do' ' p <- r ; k" := (bind r (fun p => k)) (at level 200, p pattern, r at level 100, k at level 200).

(** headerparser.cc 87-98 [ParseByte] *)
Definition parse_byte (l : list Z) : res (Z * list Z) :=
  match l with [] => Eod | b :: tl => Ok (b, tl) end.

(** headerparser.cc 100-121 [ParseInt32], 168-176 [ParseSize] *)
Definition parse_size (l : list Z) : res (Z * list Z) := parse I32 l.

(** headerparser.cc 127-154 [ParseUInt32], 158-166 [ParseChecksum] *)
Definition parse_checksum (l : list Z) : res (Z * list Z) :=
  do '(v, l) <- parse I64 l;
  if 4294967295 <? v then Err else Ok (v, l).

(** headerparser.cc 178-217 [ParseSourceSegmentLengthAndPosition]: length,
    position, rest. *)
Definition parse_source_segment (from_size : Z) (l : list Z) : res (Z * Z * list Z) :=
  do '(len, l) <- parse_size l;
  if from_size <? len then Err
  else
    do '(pos, l) <- parse_size l;
    if (from_size <=? pos) && (0 <? len) then Err
    else if from_size <? to_size (pos + len) then Err
    else Ok (len, pos, l).

(** What the source segment pointer of a window points into
    (vcdecoder.cc 1108-1116). *)
Inductive seg_kind := SegNone | SegDict | SegTarget.

(** headerparser.cc 219-258 [ParseWinIndicatorAndSourceSegment]: the
    Win_Indicator byte, segment kind, length, position, rest. *)
Definition parse_win_indicator (dict_size target_size : Z) (allow_vcd_target : bool)
    (l : list Z) : res (Z * seg_kind * Z * Z * list Z) :=
  do '(ind, l) <- parse_byte l;
  match Z.testbit ind 0, Z.testbit ind 1 with
  | true, false =>
      do '(len, pos, l) <- parse_source_segment dict_size l;
      Ok (ind, SegDict, len, pos, l)
  | false, true =>
      if negb allow_vcd_target then Err
      else
        do '(len, pos, l) <- parse_source_segment target_size l;
        Ok (ind, SegTarget, len, pos, l)
  | true, true => Err
  | false, false => Ok (ind, SegNone, 0, 0, l)
  end.

(** headerparser.cc 286-298 [ParseDeltaIndicator] *)
Definition parse_delta_indicator (l : list Z) : res (list Z) :=
  do '(di, l) <- parse_byte l;
  if Z.land di 7 =? 0 then Ok l else Err.

(** headerparser.cc 300-345 [ParseSectionLengths]: the three lengths, the
    checksum, rest.  [start] is the data at delta_encoding_start_ and
    [delta_len] is delta_encoding_length_.  Omitted: the SumWouldOverflow4 check
    (323-332), which cannot fire when size_t has 64 bits, because the three
    lengths are at most 2^31-1. *)
Definition parse_section_lengths (has_checksum : bool) (delta_len : Z) (start l : list Z)
  : res (Z * Z * Z * Z * list Z) :=
  do '(n_data, l) <- parse_size l;
  do '(n_inst, l) <- parse_size l;
  do '(n_addr, l) <- parse_size l;
  do '(cks, l) <- (if has_checksum then parse_checksum l else Ok (0, l));
  if delta_len =? (zlen start - zlen l) + n_data + n_inst + n_addr
  then Ok (n_data, n_inst, n_addr, cks, l)
  else Err.
