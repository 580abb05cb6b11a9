(** Model of src/encodetable.cc and src/google/encodetable.h:
    [VCDiffCodeTableWriter]. *)

From Verif Require Import Base SpecEncode Varint AddrCache CodeTable InstructionMap.

(** encodetable.h 119-216: the members of [VCDiffCodeTableWriter].  The pointers
    data_for_add_and_run_ and addresses_for_copy_ are modelled by the flag
    [wr_il] (encodetable.cc 92-100 [InitSectionPointers]): they point either to
    instructions_and_sizes_ or to the separate strings.  [wr_map = None] is a
    null instruction_map_. *)
Record writer := {
  wr_il : bool;                        (* interleaved *)
  wr_max_mode : Z;                     (* max_mode_ *)
  wr_table : table;                    (* code_table_data_ *)
  wr_near : Z; wr_same : Z;            (* sizes given to address_cache_ *)
  wr_inst : list Z;                    (* instructions_and_sizes_ *)
  wr_data : list Z;                    (* separate_data_for_add_and_run_ *)
  wr_addr : list Z;                    (* separate_addresses_for_copy_ *)
  wr_cache : cache;                    (* address_cache_ *)
  wr_dict_size : Z;                    (* dictionary_size_ *)
  wr_len : Z;                          (* target_length_ *)
  wr_map : option instruction_map;     (* instruction_map_ *)
  wr_last : Z;                         (* last_opcode_index_ *)
  wr_has_cks : bool;                   (* add_checksum_ *)
  wr_cks : Z                           (* checksum_ *)
}.

(** An address cache on which Init has not been called (addrcache.cc 46-55). *)
Definition raw_cache (ns ss : Z) : cache :=
  {| near_size := ns; same_size := ss; next_slot := 0; near_a := []; same_a := [] |}.

(** encodetable.cc 68-84, the constructor for a custom code table. *)
Definition new_custom_writer (il : bool) (ns ss : Z) (t : table) (max_mode : Z) : writer :=
  {| wr_il := il; wr_max_mode := max_mode; wr_table := t; wr_near := ns; wr_same := ss;
     wr_inst := []; wr_data := []; wr_addr := []; wr_cache := raw_cache ns ss;
     wr_dict_size := 0; wr_len := 0; wr_map := None; wr_last := -1;
     wr_has_cks := false; wr_cks := 0 |}.

(** encodetable.cc 56-66, the constructor for the default code table. *)
Definition new_writer (il : bool) : writer :=
  new_custom_writer il kDefaultNearCacheSize kDefaultSameCacheSize default_table default_last_mode.

(** Assignments to members. *)
(** encodetable.cc 102-120 *)
Definition set_state (w : writer) (c : cache) (dict_size len : Z) (m : option instruction_map)
    (last : Z) : writer :=
  {| wr_il := wr_il w; wr_max_mode := wr_max_mode w; wr_table := wr_table w;
     wr_near := wr_near w; wr_same := wr_same w;
     wr_inst := wr_inst w; wr_data := wr_data w; wr_addr := wr_addr w; wr_cache := c;
     wr_dict_size := dict_size; wr_len := len; wr_map := m; wr_last := last;
     wr_has_cks := wr_has_cks w; wr_cks := wr_cks w |}.
(** encodetable.cc 154-235 *)
Definition set_inst (w : writer) (inst : list Z) (last : Z) : writer :=
  {| wr_il := wr_il w; wr_max_mode := wr_max_mode w; wr_table := wr_table w;
     wr_near := wr_near w; wr_same := wr_same w;
     wr_inst := inst; wr_data := wr_data w; wr_addr := wr_addr w; wr_cache := wr_cache w;
     wr_dict_size := wr_dict_size w; wr_len := wr_len w; wr_map := wr_map w; wr_last := last;
     wr_has_cks := wr_has_cks w; wr_cks := wr_cks w |}.
(** encodetable.cc 237-272, 367-378 *)
Definition set_sections (w : writer) (inst data addr : list Z) (len : Z) : writer :=
  {| wr_il := wr_il w; wr_max_mode := wr_max_mode w; wr_table := wr_table w;
     wr_near := wr_near w; wr_same := wr_same w;
     wr_inst := inst; wr_data := data; wr_addr := addr; wr_cache := wr_cache w;
     wr_dict_size := wr_dict_size w; wr_len := len; wr_map := wr_map w; wr_last := wr_last w;
     wr_has_cks := wr_has_cks w; wr_cks := wr_cks w |}.

(** encodetable.cc 102-120 [Init]: new state and return value; [None] is
    undefined behaviour while making the instruction map.  The default map is
    the map made from the default table (instruction_map.cc 27-34). *)
Definition writer_init (w : writer) (dict_size : Z) : option (writer * bool) :=
  match (match wr_map w with
         | Some m => Some m
         | None => make_map (wr_table w) (wr_max_mode w)
         end) with
  | None => None
  | Some m =>
      match cache_init (wr_near w) (wr_same w) with
      | None => Some (set_state w (wr_cache w) dict_size (wr_len w) (Some m) (wr_last w), false)
      | Some c => Some (set_state w c dict_size 0 (Some m) (-1), true)
      end
  end.

(** format_extension_flags.h 32-50: the three bits of VCDiffFormatExtensionFlags. *)
Record flags := { fl_interleaved : bool; fl_checksum : bool; fl_json : bool }.
(** format_extension_flags.h 35 *)
Definition VCD_STANDARD_FORMAT : flags := {| fl_interleaved := false; fl_checksum := false; fl_json := false |}.

(** encodetable.cc 29-43, 122-136 [WriteHeader]: the bytes appended. *)
Definition write_header (f : flags) : list Z :=
  if fl_interleaved f || fl_checksum f || fl_json f then [214; 195; 196; 83; 0] else [214; 195; 196; 0; 0].

(** encodetable.cc 278-286 [AppendSizeToString], [AppendSizeToOutputString] *)
Definition size_bytes (size : Z) : list Z := encode_bytes I32 (to_int32 size).

(** encodetable.cc 274-276 [CalculateLengthOfSizeAsVarint] *)
Definition size_length (size : Z) : Z := varint_length (to_int32 size).

(** instruction_map.h 48-68 [LookupFirstOpcode], [LookupSecondOpcode] are
    [first_lookup] and [second_lookup]. *)

(** encodetable.cc 212-234, the part of [EncodeInstruction] for an opcode of its
    own. *)
Definition encode_single (w : writer) (m : instruction_map) (inst size mode : Z) : option writer :=
  match (if size <=? 255 then first_lookup (im_first m) inst size mode else Some kNoOpcode) with
  | None => None
  | Some op =>
      if negb (op =? kNoOpcode) then
        Some (set_inst w (wr_inst w ++ [to_uchar op]) (zlen (wr_inst w)))
      else
        match first_lookup (im_first m) inst 0 mode with
        | None => None
        | Some op =>
            if op =? kNoOpcode then Some w                        (* VCD_DFATAL *)
            else Some (set_inst w (wr_inst w ++ [to_uchar op] ++ size_bytes size) (zlen (wr_inst w)))
        end
  end.

(** encodetable.cc 171-235 [EncodeInstruction]; [None] is an access outside an
    array or string. *)
Definition encode_instruction (w : writer) (inst size mode : Z) : option writer :=
  match wr_map w with
  | None => Some w                                                 (* VCD_DFATAL *)
  | Some m =>
      if 0 <=? wr_last w then
        match get (wr_inst w) (wr_last w) with
        | None => None
        | Some last =>
            match (if size <=? 255 then second_lookup (im_second m) last inst size mode
                   else Some kNoOpcode) with
            | None => None
            | Some op =>
                if negb (op =? kNoOpcode) then
                  match put (wr_inst w) (wr_last w) (to_uchar op) with
                  | None => None
                  | Some l => Some (set_inst w l (-1))
                  end
                else
                  match second_lookup (im_second m) last inst 0 mode with
                  | None => None
                  | Some op =>
                      if negb (op =? kNoOpcode) then
                        match put (wr_inst w) (wr_last w) (to_uchar op) with
                        | None => None
                        | Some l => Some (set_inst w (l ++ size_bytes size) (-1))
                        end
                      else encode_single w m inst size mode
                  end
            end
        end
      else encode_single w m inst size mode
  end.

(** Appending to *data_for_add_and_run_ and *addresses_for_copy_. *)
(** encodetable.cc 239-240, 270-271 *)
Definition append_data (w : writer) (l : list Z) (size : Z) : writer :=
  if wr_il w then set_sections w (wr_inst w ++ l) (wr_data w) (wr_addr w) (to_size (wr_len w + size))
  else set_sections w (wr_inst w) (wr_data w ++ l) (wr_addr w) (to_size (wr_len w + size)).
(** encodetable.cc 258-265 *)
Definition append_addr (w : writer) (l : list Z) (size : Z) : writer :=
  if wr_il w then set_sections w (wr_inst w ++ l) (wr_data w) (wr_addr w) (to_size (wr_len w + size))
  else set_sections w (wr_inst w) (wr_data w) (wr_addr w ++ l) (to_size (wr_len w + size)).

(** encodetable.cc 237-241 [Add] *)
Definition writer_add (w : writer) (data : list Z) : option writer :=
  match encode_instruction w VCD_ADD (zlen data) 0 with
  | None => None
  | Some w => Some (append_data w data (zlen data))
  end.

(** encodetable.cc 268-272 [Run] *)
Definition writer_run (w : writer) (size byte : Z) : option writer :=
  match encode_instruction w VCD_RUN size 0 with
  | None => None
  | Some w => Some (append_data w [byte] size)
  end.

(** encodetable.cc 243-266 [Copy] *)
Definition writer_copy (w : writer) (offset size : Z) : option writer :=
  match wr_map w with
  | None => Some w                                                 (* VCD_DFATAL *)
  | Some _ =>
      match encode_address (wr_cache w) offset (to_int32 (wr_dict_size w + wr_len w)) with
      | None => None
      | Some (mode, e, c) =>
          let w1 := set_state w c (wr_dict_size w) (wr_len w) (wr_map w) (wr_last w) in
          match encode_instruction w1 VCD_COPY size mode with
          | None => None
          | Some w2 => Some (append_addr w2 (addr_bytes c mode e) size)
          end
      end
  end.

(** codetablewriter_interface.h 43-75: a call of [Add], [Copy] or [Run], named
    by an [instruction] of the specification. *)
Definition writer_call (w : writer) (i : instruction) : option writer :=
  match i with
  | Add d => writer_add w d
  | Copy a n => writer_copy w a n
  | Run n b => writer_run w n b
  end.
(** codetablewriter_interface.h 55-62: a sequence of such calls *)
Fixpoint writer_calls (w : writer) (l : list instruction) : option writer :=
  match l with
  | [] => Some w
  | i :: tl => match writer_call w i with Some w' => writer_calls w' tl | None => None end
  end.

(** encodetable.h 86-89 [AddChecksum] *)
Definition add_checksum (w : writer) (cks : Z) : writer :=
  {| wr_il := wr_il w; wr_max_mode := wr_max_mode w; wr_table := wr_table w;
     wr_near := wr_near w; wr_same := wr_same w;
     wr_inst := wr_inst w; wr_data := wr_data w; wr_addr := wr_addr w; wr_cache := wr_cache w;
     wr_dict_size := wr_dict_size w; wr_len := wr_len w; wr_map := wr_map w; wr_last := wr_last w;
     wr_has_cks := true; wr_cks := cks |}.

(** encodetable.cc 290-305 [CalculateLengthOfTheDeltaEncoding] *)
Definition delta_length (w : writer) : Z :=
  size_length (wr_len w) + 1 + size_length (zlen (wr_data w)) + size_length (zlen (wr_inst w))
  + size_length (zlen (wr_addr w)) + zlen (wr_data w) + zlen (wr_inst w) + zlen (wr_addr w)
  + (if wr_has_cks w then varint_length (wr_cks w) else 0).

(** encodetable.cc 307-365, the bytes that [Output] appends for a window that is
    not empty. *)
Definition window_bytes (w : writer) : list Z :=
  [if wr_has_cks w then 5 else 1]
  ++ size_bytes (wr_dict_size w) ++ size_bytes 0
  ++ size_bytes (delta_length w)
  ++ size_bytes (wr_len w) ++ [0]
  ++ size_bytes (zlen (wr_data w)) ++ size_bytes (zlen (wr_inst w)) ++ size_bytes (zlen (wr_addr w))
  ++ (if wr_has_cks w then encode_bytes I64 (wr_cks w) else [])
  ++ wr_data w ++ wr_inst w ++ wr_addr w.

(** encodetable.cc 307-385 [Output]: new state and bytes appended.  The return
    value of Init is only logged.  ReserveAdditionalBytes is not modelled. *)
Definition writer_output (w : writer) : option (writer * list Z) :=
  let '(w', out) := match wr_inst w with
                    | [] => (w, [])
                    | _ => (set_sections w [] [] [] (wr_len w), window_bytes w)
                    end in
  match writer_init w' (wr_dict_size w') with
  | None => None
  | Some (w'', _) => Some (w'', out)
  end.
