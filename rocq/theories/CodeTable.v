(** Model of src/codetable.{h,cc}. *)

From Verif Require Import Base AddrCache.

(** codetable.h 30-40: [VCDiffInstructionType]. *)
Definition VCD_NOOP : Z := 0.
(** codetable.h 32 *)
Definition VCD_ADD : Z := 1.
(** codetable.h 33 *)
Definition VCD_RUN : Z := 2.
(** codetable.h 34 *)
Definition VCD_COPY : Z := 3.
(** codetable.h 35 *)
Definition VCD_LAST_INSTRUCTION_TYPE : Z := 3.

(** codetable.h 73-106: [VCDiffCodeTableData], six arrays of 256 bytes. *)
Record table := {
  inst1 : list Z; inst2 : list Z;
  size1 : list Z; size2 : list Z;
  mode1 : list Z; mode2 : list Z
}.

(** Array access [a[opcode]].  The index is always an unsigned char or a loop
    counter below 256 and the arrays have 256 elements ([table_ok]), so the
    default is never used. *)
(** codetable.h 101-106 *)
Definition tget (l : list Z) (opcode : Z) : Z := nth (Z.to_nat opcode) l 0.

(** The arrays of a [VCDiffCodeTableData] hold 256 bytes each. *)
(** codetable.h 101-106: an array of 256 unsigned chars *)
Definition array_ok (l : list Z) : Prop := length l = 256%nat /\ bytes_ok l.
(** codetable.h 73-107 *)
Definition table_ok (t : table) : Prop :=
  array_ok (inst1 t) /\ array_ok (inst2 t) /\ array_ok (size1 t) /\
  array_ok (size2 t) /\ array_ok (mode1 t) /\ array_ok (mode2 t).

(** codetable.cc 53-75 *)
Definition default_inst1 : list Z :=
  [2; 1; 1; 1; 1; 1; 1; 1; 1; 1; 1; 1; 1; 1; 1; 1; 1; 1; 1; 3; 3; 3; 3; 3; 3; 3; 3; 3; 3; 3; 3; 3;
   3; 3; 3; 3; 3; 3; 3; 3; 3; 3; 3; 3; 3; 3; 3; 3; 3; 3; 3; 3; 3; 3; 3; 3; 3; 3; 3; 3; 3; 3; 3; 3;
   3; 3; 3; 3; 3; 3; 3; 3; 3; 3; 3; 3; 3; 3; 3; 3; 3; 3; 3; 3; 3; 3; 3; 3; 3; 3; 3; 3; 3; 3; 3; 3;
   3; 3; 3; 3; 3; 3; 3; 3; 3; 3; 3; 3; 3; 3; 3; 3; 3; 3; 3; 3; 3; 3; 3; 3; 3; 3; 3; 3; 3; 3; 3; 3;
   3; 3; 3; 3; 3; 3; 3; 3; 3; 3; 3; 3; 3; 3; 3; 3; 3; 3; 3; 3; 3; 3; 3; 3; 3; 3; 3; 3; 3; 3; 3; 3;
   3; 3; 3; 1; 1; 1; 1; 1; 1; 1; 1; 1; 1; 1; 1; 1; 1; 1; 1; 1; 1; 1; 1; 1; 1; 1; 1; 1; 1; 1; 1; 1;
   1; 1; 1; 1; 1; 1; 1; 1; 1; 1; 1; 1; 1; 1; 1; 1; 1; 1; 1; 1; 1; 1; 1; 1; 1; 1; 1; 1; 1; 1; 1; 1;
   1; 1; 1; 1; 1; 1; 1; 1; 1; 1; 1; 1; 1; 1; 1; 1; 1; 1; 1; 1; 1; 1; 1; 3; 3; 3; 3; 3; 3; 3; 3; 3].

(** codetable.cc 76-97 *)
Definition default_inst2 : list Z :=
  [0; 0; 0; 0; 0; 0; 0; 0; 0; 0; 0; 0; 0; 0; 0; 0; 0; 0; 0; 0; 0; 0; 0; 0; 0; 0; 0; 0; 0; 0; 0; 0;
   0; 0; 0; 0; 0; 0; 0; 0; 0; 0; 0; 0; 0; 0; 0; 0; 0; 0; 0; 0; 0; 0; 0; 0; 0; 0; 0; 0; 0; 0; 0; 0;
   0; 0; 0; 0; 0; 0; 0; 0; 0; 0; 0; 0; 0; 0; 0; 0; 0; 0; 0; 0; 0; 0; 0; 0; 0; 0; 0; 0; 0; 0; 0; 0;
   0; 0; 0; 0; 0; 0; 0; 0; 0; 0; 0; 0; 0; 0; 0; 0; 0; 0; 0; 0; 0; 0; 0; 0; 0; 0; 0; 0; 0; 0; 0; 0;
   0; 0; 0; 0; 0; 0; 0; 0; 0; 0; 0; 0; 0; 0; 0; 0; 0; 0; 0; 0; 0; 0; 0; 0; 0; 0; 0; 0; 0; 0; 0; 0;
   0; 0; 0; 3; 3; 3; 3; 3; 3; 3; 3; 3; 3; 3; 3; 3; 3; 3; 3; 3; 3; 3; 3; 3; 3; 3; 3; 3; 3; 3; 3; 3;
   3; 3; 3; 3; 3; 3; 3; 3; 3; 3; 3; 3; 3; 3; 3; 3; 3; 3; 3; 3; 3; 3; 3; 3; 3; 3; 3; 3; 3; 3; 3; 3;
   3; 3; 3; 3; 3; 3; 3; 3; 3; 3; 3; 3; 3; 3; 3; 3; 3; 3; 3; 3; 3; 3; 3; 1; 1; 1; 1; 1; 1; 1; 1; 1].

(** codetable.cc 98-119 *)
Definition default_size1 : list Z :=
  [0; 0; 1; 2; 3; 4; 5; 6; 7; 8; 9; 10; 11; 12; 13; 14; 15; 16; 17; 0; 4; 5; 6; 7; 8; 9; 10; 11; 12; 13; 14; 15;
   16; 17; 18; 0; 4; 5; 6; 7; 8; 9; 10; 11; 12; 13; 14; 15; 16; 17; 18; 0; 4; 5; 6; 7; 8; 9; 10; 11; 12; 13; 14; 15;
   16; 17; 18; 0; 4; 5; 6; 7; 8; 9; 10; 11; 12; 13; 14; 15; 16; 17; 18; 0; 4; 5; 6; 7; 8; 9; 10; 11; 12; 13; 14; 15;
   16; 17; 18; 0; 4; 5; 6; 7; 8; 9; 10; 11; 12; 13; 14; 15; 16; 17; 18; 0; 4; 5; 6; 7; 8; 9; 10; 11; 12; 13; 14; 15;
   16; 17; 18; 0; 4; 5; 6; 7; 8; 9; 10; 11; 12; 13; 14; 15; 16; 17; 18; 0; 4; 5; 6; 7; 8; 9; 10; 11; 12; 13; 14; 15;
   16; 17; 18; 1; 1; 1; 2; 2; 2; 3; 3; 3; 4; 4; 4; 1; 1; 1; 2; 2; 2; 3; 3; 3; 4; 4; 4; 1; 1; 1; 2; 2;
   2; 3; 3; 3; 4; 4; 4; 1; 1; 1; 2; 2; 2; 3; 3; 3; 4; 4; 4; 1; 1; 1; 2; 2; 2; 3; 3; 3; 4; 4; 4; 1;
   1; 1; 2; 2; 2; 3; 3; 3; 4; 4; 4; 1; 2; 3; 4; 1; 2; 3; 4; 1; 2; 3; 4; 4; 4; 4; 4; 4; 4; 4; 4; 4].

(** codetable.cc 120-141 *)
Definition default_size2 : list Z :=
  [0; 0; 0; 0; 0; 0; 0; 0; 0; 0; 0; 0; 0; 0; 0; 0; 0; 0; 0; 0; 0; 0; 0; 0; 0; 0; 0; 0; 0; 0; 0; 0;
   0; 0; 0; 0; 0; 0; 0; 0; 0; 0; 0; 0; 0; 0; 0; 0; 0; 0; 0; 0; 0; 0; 0; 0; 0; 0; 0; 0; 0; 0; 0; 0;
   0; 0; 0; 0; 0; 0; 0; 0; 0; 0; 0; 0; 0; 0; 0; 0; 0; 0; 0; 0; 0; 0; 0; 0; 0; 0; 0; 0; 0; 0; 0; 0;
   0; 0; 0; 0; 0; 0; 0; 0; 0; 0; 0; 0; 0; 0; 0; 0; 0; 0; 0; 0; 0; 0; 0; 0; 0; 0; 0; 0; 0; 0; 0; 0;
   0; 0; 0; 0; 0; 0; 0; 0; 0; 0; 0; 0; 0; 0; 0; 0; 0; 0; 0; 0; 0; 0; 0; 0; 0; 0; 0; 0; 0; 0; 0; 0;
   0; 0; 0; 4; 5; 6; 4; 5; 6; 4; 5; 6; 4; 5; 6; 4; 5; 6; 4; 5; 6; 4; 5; 6; 4; 5; 6; 4; 5; 6; 4; 5;
   6; 4; 5; 6; 4; 5; 6; 4; 5; 6; 4; 5; 6; 4; 5; 6; 4; 5; 6; 4; 5; 6; 4; 5; 6; 4; 5; 6; 4; 5; 6; 4;
   5; 6; 4; 5; 6; 4; 5; 6; 4; 5; 6; 4; 4; 4; 4; 4; 4; 4; 4; 4; 4; 4; 4; 1; 1; 1; 1; 1; 1; 1; 1; 1].

(** codetable.cc 142-163 *)
Definition default_mode1 : list Z :=
  [0; 0; 0; 0; 0; 0; 0; 0; 0; 0; 0; 0; 0; 0; 0; 0; 0; 0; 0; 0; 0; 0; 0; 0; 0; 0; 0; 0; 0; 0; 0; 0;
   0; 0; 0; 1; 1; 1; 1; 1; 1; 1; 1; 1; 1; 1; 1; 1; 1; 1; 1; 2; 2; 2; 2; 2; 2; 2; 2; 2; 2; 2; 2; 2;
   2; 2; 2; 3; 3; 3; 3; 3; 3; 3; 3; 3; 3; 3; 3; 3; 3; 3; 3; 4; 4; 4; 4; 4; 4; 4; 4; 4; 4; 4; 4; 4;
   4; 4; 4; 5; 5; 5; 5; 5; 5; 5; 5; 5; 5; 5; 5; 5; 5; 5; 5; 6; 6; 6; 6; 6; 6; 6; 6; 6; 6; 6; 6; 6;
   6; 6; 6; 7; 7; 7; 7; 7; 7; 7; 7; 7; 7; 7; 7; 7; 7; 7; 7; 8; 8; 8; 8; 8; 8; 8; 8; 8; 8; 8; 8; 8;
   8; 8; 8; 0; 0; 0; 0; 0; 0; 0; 0; 0; 0; 0; 0; 0; 0; 0; 0; 0; 0; 0; 0; 0; 0; 0; 0; 0; 0; 0; 0; 0;
   0; 0; 0; 0; 0; 0; 0; 0; 0; 0; 0; 0; 0; 0; 0; 0; 0; 0; 0; 0; 0; 0; 0; 0; 0; 0; 0; 0; 0; 0; 0; 0;
   0; 0; 0; 0; 0; 0; 0; 0; 0; 0; 0; 0; 0; 0; 0; 0; 0; 0; 0; 0; 0; 0; 0; 0; 1; 2; 3; 4; 5; 6; 7; 8].

(** codetable.cc 164-185 *)
Definition default_mode2 : list Z :=
  [0; 0; 0; 0; 0; 0; 0; 0; 0; 0; 0; 0; 0; 0; 0; 0; 0; 0; 0; 0; 0; 0; 0; 0; 0; 0; 0; 0; 0; 0; 0; 0;
   0; 0; 0; 0; 0; 0; 0; 0; 0; 0; 0; 0; 0; 0; 0; 0; 0; 0; 0; 0; 0; 0; 0; 0; 0; 0; 0; 0; 0; 0; 0; 0;
   0; 0; 0; 0; 0; 0; 0; 0; 0; 0; 0; 0; 0; 0; 0; 0; 0; 0; 0; 0; 0; 0; 0; 0; 0; 0; 0; 0; 0; 0; 0; 0;
   0; 0; 0; 0; 0; 0; 0; 0; 0; 0; 0; 0; 0; 0; 0; 0; 0; 0; 0; 0; 0; 0; 0; 0; 0; 0; 0; 0; 0; 0; 0; 0;
   0; 0; 0; 0; 0; 0; 0; 0; 0; 0; 0; 0; 0; 0; 0; 0; 0; 0; 0; 0; 0; 0; 0; 0; 0; 0; 0; 0; 0; 0; 0; 0;
   0; 0; 0; 0; 0; 0; 0; 0; 0; 0; 0; 0; 0; 0; 0; 1; 1; 1; 1; 1; 1; 1; 1; 1; 1; 1; 1; 2; 2; 2; 2; 2;
   2; 2; 2; 2; 2; 2; 2; 3; 3; 3; 3; 3; 3; 3; 3; 3; 3; 3; 3; 4; 4; 4; 4; 4; 4; 4; 4; 4; 4; 4; 4; 5;
   5; 5; 5; 5; 5; 5; 5; 5; 5; 5; 5; 6; 6; 6; 6; 7; 7; 7; 7; 8; 8; 8; 8; 0; 0; 0; 0; 0; 0; 0; 0; 0].

(** codetable.cc 52-185: kDefaultCodeTableData. *)
Definition default_table : table := {|
  inst1 := default_inst1; inst2 := default_inst2;
  size1 := default_size1; size2 := default_size2;
  mode1 := default_mode1; mode2 := default_mode2
|}.

(** The struct as the bytes of memory it occupies (sizeof = 1536, no padding):
    used by vcdecoder.cc 799-802 and 839-841 via casts and memcpy. *)
Definition table_bytes (t : table) : list Z :=
  inst1 t ++ inst2 t ++ size1 t ++ size2 t ++ mode1 t ++ mode2 t.
(** vcdecoder.cc 839-841: the memcpy in the other direction *)
Definition table_of_bytes (l : list Z) : table := {|
  inst1 := ztake 256 l;
  inst2 := ztake 256 (zdrop 256 l);
  size1 := ztake 256 (zdrop 512 l);
  size2 := ztake 256 (zdrop 768 l);
  mode1 := ztake 256 (zdrop 1024 l);
  mode2 := ztake 256 (zdrop 1280 l)
|}.

(** codetable.cc 187-225 [ValidateOpcode]. *)
Definition validate_opcode (inst size mode max_mode : Z) : bool :=
  negb (VCD_LAST_INSTRUCTION_TYPE <? inst)
  && negb (max_mode <? mode)
  && negb ((inst =? VCD_NOOP) && negb (size =? 0))
  && negb (negb (inst =? VCD_COPY) && negb (mode =? 0)).

(** codetable.cc 239, instruction_map.cc 157, 181: the range of the loops over all opcodes *)
Definition opcodes : list Z := map Z.of_nat (seq 0 256).

(** codetable.cc 239-258, one iteration of the loop of [Validate]; the state is
    hasOpcodeForTypeAndMode and no_errors_found.  [None] is a write outside
    hasOpcodeForTypeAndMode. *)
Definition validate_step (t : table) (max_mode : Z)
    (st : option (list bool * bool)) (i : Z) : option (list bool * bool) :=
  match st with
  | None => None
  | Some (has, ok) =>
      let ok := validate_opcode (tget (inst1 t) i) (tget (size1 t) i) (tget (mode1 t) i) max_mode && ok in
      let ok := validate_opcode (tget (inst2 t) i) (tget (size2 t) i) (tget (mode2 t) i) max_mode && ok in
      if (tget (size1 t) i =? 0) && (tget (inst2 t) i =? VCD_NOOP) &&
         (tget (inst1 t) i + tget (mode1 t) i <? VCD_LAST_INSTRUCTION_TYPE + max_mode + 1)
      then match put has (tget (inst1 t) i + tget (mode1 t) i) true with
           | None => None
           | Some has' => Some (has', ok)
           end
      else Some (has, ok)
  end.

(** codetable.cc 232-272 [Validate(max_mode)].  The array has 259 elements of
    which the first kNumberOfTypesAndModes are used; all elements start false
    here (the C++ code leaves the unused ones uninitialised).  The final loop
    (259-271) is a [forallb].  [None] is a write outside the array. *)
Definition validate (t : table) (max_mode : Z) : option bool :=
  match fold_left (validate_step t max_mode) opcodes (Some (zrepeat false 259, true)) with
  | None => None
  | Some (has, ok) =>
      Some (ok && forallb (fun i => (i =? VCD_NOOP) ||
                                    match get has i with Some b => b | None => false end)
                    (map Z.of_nat (seq 0 (Z.to_nat (VCD_LAST_INSTRUCTION_TYPE + max_mode + 1)))))
  end.
