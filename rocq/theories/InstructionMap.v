(** Model of src/instruction_map.{h,cc}. *)

From Verif Require Import Base AddrCache CodeTable.

(** codetable.h 48-49: [OpcodeOrNone], kNoOpcode. *)
Definition kNoOpcode : Z := 256.

(** instruction_map.h 91-153 [FirstInstructionMap].  The two-dimensional array
    first_opcodes_[num][max+1] is represented by its non-kNoOpcode cells
    (row, column, opcode). *)
Record first_map := {
  f_num : Z;                         (* num_instruction_type_modes_ *)
  f_max : Z;                         (* max_size_1_ *)
  f_cells : list (Z * Z * Z)         (* first_opcodes_ *)
}.

(** The content of a cell. *)
(** instruction_map.h 116 and 136-147 *)
Fixpoint cell2 (l : list (Z * Z * Z)) (r c : Z) : Z :=
  match l with
  | [] => kNoOpcode
  | (r', c', op) :: tl => if (r' =? r) && (c' =? c) then op else cell2 tl r c
  end.

(** instruction_map.h 96-104 [FirstInstructionMap::Add]; [None] is an access
    outside the array (the row or the column does not exist). *)
Definition first_add (m : first_map) (inst size mode opcode : Z) : option first_map :=
  if (inst + mode <? f_num m) && (size <=? f_max m) then
    if cell2 (f_cells m) (inst + mode) size =? kNoOpcode
    then Some {| f_num := f_num m; f_max := f_max m;
                 f_cells := (inst + mode, size, opcode) :: f_cells m |}
    else Some m
  else None.

(** instruction_map.h 108-117 [FirstInstructionMap::Lookup]; [None] is a read
    outside the array. *)
Definition first_lookup (m : first_map) (inst size mode : Z) : option Z :=
  let inst_mode := if inst =? VCD_COPY then inst + mode else inst in
  if f_max m <? size then Some kNoOpcode
  else if inst_mode <? f_num m then Some (cell2 (f_cells m) inst_mode size)
  else None.

(** instruction_map.h 157-196 [SecondInstructionMap]: a sparse three-dimensional
    array, represented by its non-kNoOpcode cells (first opcode, row, column,
    opcode). *)
Record second_map := {
  s_num : Z;
  s_max : Z;
  s_cells : list (Z * Z * Z * Z)
}.

(** instruction_map.h 179-190 and instruction_map.cc 130-150 *)
Fixpoint cell3 (l : list (Z * Z * Z * Z)) (f r c : Z) : Z :=
  match l with
  | [] => kNoOpcode
  | (f', r', c', op) :: tl =>
      if (f' =? f) && (r' =? r) && (c' =? c) then op else cell3 tl f r c
  end.

(** instruction_map.cc 102-124 [SecondInstructionMap::Add] *)
Definition second_add (m : second_map) (first inst size mode opcode : Z) : option second_map :=
  if (inst + mode <? s_num m) && (size <=? s_max m) then
    if cell3 (s_cells m) first (inst + mode) size =? kNoOpcode
    then Some {| s_num := s_num m; s_max := s_max m;
                 s_cells := (first, inst + mode, size, opcode) :: s_cells m |}
    else Some m
  else None.

(** instruction_map.cc 126-145 [SecondInstructionMap::Lookup].  The row is
    checked even when no row was allocated for this first opcode. *)
Definition second_lookup (m : second_map) (first inst size mode : Z) : option Z :=
  if s_max m <? size then Some kNoOpcode
  else
    let inst_mode := if inst =? VCD_COPY then inst + mode else inst in
    if inst_mode <? s_num m then Some (cell3 (s_cells m) first inst_mode size)
    else None.

(** instruction_map.cc 36-45 [FindMaxSize] *)
Definition find_max_size (l : list Z) : Z :=
  fold_left (fun m x => if m <? x then x else m) l 0.

(** instruction_map.h 39-203: the members first_instruction_map_ and second_instruction_map_ *)
Record instruction_map := { im_first : first_map; im_second : second_map }.

(** instruction_map.cc 157-176, one iteration of the first pass. *)
Definition first_pass (t : table) (m : option first_map) (opcode : Z) : option first_map :=
  match m with
  | None => None
  | Some m =>
      if tget (inst2 t) opcode =? VCD_NOOP then
        first_add m (tget (inst1 t) opcode) (tget (size1 t) opcode) (tget (mode1 t) opcode) opcode
      else if tget (inst1 t) opcode =? VCD_NOOP then
        first_add m (tget (inst2 t) opcode) (tget (size2 t) opcode) (tget (mode2 t) opcode) opcode
      else Some m
  end.

(** instruction_map.cc 177-193, one iteration of the second pass. *)
Definition second_pass (t : table) (fm : first_map) (m : option second_map) (opcode : Z)
  : option second_map :=
  match m with
  | None => None
  | Some m =>
      if negb (tget (inst1 t) opcode =? VCD_NOOP) && negb (tget (inst2 t) opcode =? VCD_NOOP) then
        match first_lookup fm (tget (inst1 t) opcode) (tget (size1 t) opcode) (tget (mode1 t) opcode) with
        | None => None
        | Some single =>
            if single =? kNoOpcode then Some m
            else second_add m single (tget (inst2 t) opcode) (tget (size2 t) opcode)
                            (tget (mode2 t) opcode) opcode
        end
      else Some m
  end.

(** instruction_map.cc 150-194, the constructor; [None] is an access outside an
    array. *)
Definition make_map (t : table) (max_mode : Z) : option instruction_map :=
  let num := VCD_LAST_INSTRUCTION_TYPE + max_mode + 1 in
  match fold_left (first_pass t) opcodes
          (Some {| f_num := num; f_max := find_max_size (size1 t); f_cells := [] |}) with
  | None => None
  | Some fm =>
      match fold_left (second_pass t fm) opcodes
              (Some {| s_num := num; s_max := find_max_size (size2 t); s_cells := [] |}) with
      | None => None
      | Some sm => Some {| im_first := fm; im_second := sm |}
      end
  end.

(** instruction_map.cc 27-34 [GetDefaultInstructionMap] *)
Definition default_map : option instruction_map := make_map default_table default_last_mode.
