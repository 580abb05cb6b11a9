(** Model of src/decodetable.{h,cc}. *)

From Verif Require Import Base Varint AddrCache CodeTable InstructionMap.

(** The part of [VCDiffCodeTableReader] (decodetable.h 124-155) that survives
    between calls is the code table and pending_second_instruction_ ([None] for
    kNoOpcode).  last_instruction_start_ and last_pending_second_instruction_
    are set at the start of GetNextInstruction (decodetable.cc 55-56) and only
    read by the UnGetInstruction that may follow it, so UnGetInstruction
    (decodetable.h 108-122) is modelled by going back to the reader state and
    instruction cursor from before GetNextInstruction. *)

(** Result of [GetNextInstruction]. *)
(** decodetable.h 86-99, decodetable.cc 49-110: the returned type, *size, *mode and the new reader state *)
Inductive next_inst :=
| NI (type size mode : Z) (pending : option Z) (rest : list Z)
| NI_eod (pending : option Z) (rest : list Z)      (* VCD_INSTRUCTION_END_OF_DATA *)
| NI_err.                                           (* VCD_INSTRUCTION_ERROR *)

(** decodetable.cc 61-90, the do-while loop.  [inst] is the instruction stream
    from the cursor to its end.  Result: type, size and mode from the code
    table, pending second instruction and cursor; or [inl] pending, cursor when
    the stream is exhausted. *)
Fixpoint inst_loop (t : table) (pending : option Z) (inst : list Z)
  : (Z * Z * Z * option Z * list Z) + (option Z * list Z) :=
  match pending with
  | Some op =>
      inl (tget (inst2 t) op, tget (size2 t) op, tget (mode2 t) op, None, inst)
  | None =>
      match inst with
      | [] => inr (None, [])
      | op :: tl =>
          let pending' := if tget (inst2 t) op =? VCD_NOOP then None else Some op in
          if tget (inst1 t) op =? VCD_NOOP then inst_loop t pending' tl
          else inl (tget (inst1 t) op, tget (size1 t) op, tget (mode1 t) op, pending', tl)
      end
  end.

(** decodetable.cc 47-110 [GetNextInstruction] (the reader has been Init-ed). *)
Definition get_next_instruction (t : table) (pending : option Z) (inst : list Z) : next_inst :=
  match inst_loop t pending inst with
  | inr (p, rest) => NI_eod p rest
  | inl (ty, size, mode, p, rest) =>
      if size =? 0 then
        match parse I32 rest with
        | Ok (n, rest') => NI ty n mode p rest'
        | Eod => NI_eod pending inst
        | _ => NI_err
        end
      else NI ty size mode p rest
  end.

(** decodetable.cc 36-45 [UseCodeTable]: the table in use afterwards, and the
    return value.  [None] is undefined behaviour inside Validate. *)
Definition use_code_table (current new : table) (max_mode : Z) : option (table * bool) :=
  match validate new max_mode with
  | None => None
  | Some true => Some (new, true)
  | Some false => Some (current, false)
  end.
