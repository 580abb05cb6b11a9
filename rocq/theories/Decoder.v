(** Model of src/vcdecoder.cc: the streaming decoder. *)

From Verif Require Import Base Varint AddrCache CodeTable InstructionMap DecodeTable
  HeaderParser Adler.

(** vcdecoder.cc 327, 331, 336 *)
Definition kDefaultMaximumTargetFileSize : Z := 67108864.
(** vcdecoder.cc 331 *)
Definition kTargetSizeLimit : Z := 2147483647.
(** vcdecoder.cc 336 *)
Definition kUnlimitedBytes : Z := size_max - 2.

(** ** A delta window *)

(** The members of [VCDiffDeltaFileWindow] (vcdecoder.cc 261-302) that are set by
    ReadHeader and keep their meaning until the window has been decoded, plus
    the two parts of the address cache and of the reader that change while
    decoding.  When found_header_ is false there is no such record: the members
    that an unsuccessful ReadHeader may have set are set again by the next
    ReadHeader, and are otherwise only used to compute the argument of
    ReserveAdditionalBytes (864-872), which is not modelled. *)
Record window := {
  w_kind : seg_kind;          (* what source_segment_ptr_ points into *)
  w_pos : Z;                  (* offset of source_segment_ptr_ in it *)
  w_seglen : Z;               (* source_segment_length_ *)
  w_len : Z;                  (* target_window_length_ *)
  w_has_cks : bool;           (* has_checksum_ *)
  w_cks : Z;                  (* expected_checksum_ *)
  w_expected : Z;             (* interleaved_bytes_expected_ *)
  w_pending : option Z;       (* reader_.pending_second_instruction_ *)
  w_cache : cache             (* *parent_->addr_cache() *)
}.

(** State while decoding the body of a window (vcdecoder.cc 1155-1337).
    [b_inst], [b_data], [b_addr] are the unparsed parts of the three sections;
    in the interleaved format the three sections share one cursor
    (222-233), kept in [b_inst]. *)
Record body := {
  b_il : bool;                (* IsInterleaved() *)
  b_inst : list Z;
  b_data : list Z;
  b_addr : list Z;
  b_pending : option Z;
  b_cache : cache;
  b_target : list Z           (* decoded_target_ *)
}.

(** vcdecoder.cc 1020-1047 [SetUpWindowSections]: the section that data_for_add_and_run_ refers to *)
Definition data_of (st : body) : list Z := if b_il st then b_inst st else b_data st.
(** vcdecoder.cc 1020-1047: the section that addresses_for_copy_ refers to *)
Definition addr_of (st : body) : list Z := if b_il st then b_inst st else b_addr st.

(** the new cursor of instructions_and_sizes_ after decodetable.cc 49-110 *)
Definition with_inst (st : body) (pending : option Z) (inst : list Z) : body :=
  {| b_il := b_il st; b_inst := inst; b_data := b_data st; b_addr := b_addr st;
     b_pending := pending; b_cache := b_cache st; b_target := b_target st |}.
(** the new cursor of data_for_add_and_run_, vcdecoder.cc 1161, 1172 *)
Definition with_data (st : body) (d target : list Z) : body :=
  {| b_il := b_il st;
     b_inst := if b_il st then d else b_inst st;
     b_data := if b_il st then b_data st else d;
     b_addr := b_addr st;
     b_pending := b_pending st; b_cache := b_cache st; b_target := target |}.
(** the new cursor of addresses_for_copy_, vcdecoder.cc 1182-1186 *)
Definition with_addr (st : body) (a : list Z) (c : cache) (target : list Z) : body :=
  {| b_il := b_il st;
     b_inst := if b_il st then a else b_inst st;
     b_data := b_data st;
     b_addr := if b_il st then b_addr st else a;
     b_pending := b_pending st; b_cache := c; b_target := target |}.

(** vcdecoder.cc 1147-1153 [CopyBytes], [RunByte].  ReadHeader reserved capacity
    for [cap] = target_window_start_pos_ + target_window_length_ bytes
    (1102-1107).  Growing beyond that may reallocate decoded_target_ and
    invalidate the pointers held into it, so it counts as undefined
    behaviour ([None]). *)
Definition append_target (cap : Z) (target bytes : list Z) : option (list Z) :=
  if zlen target + zlen bytes <=? cap then Some (target ++ bytes) else None.

(** Reading [n] bytes at source_segment_ptr_ + address; [None] is a read outside
    the dictionary or the decoded target. *)
(** vcdecoder.cc 1204-1206, 1219-1229: the source of memcpy *)
Definition read_source (dict : list Z) (w : window) (target : list Z) (address n : Z)
  : option (list Z) :=
  match w_kind w with
  | SegNone => slice (@nil Z) address n
  | SegDict => slice dict (w_pos w + address) n
  | SegTarget => slice target (w_pos w + address) n
  end.

(** Results of the copy loop and of the body loop: [XFuel] is running out of the
    fuel that bounds the model's loop (proved unreachable). *)
(** vcdiff_defs.h 29-39 [VCDiffResult], with the state where it is still used *)
Inductive xres (A : Type) := XOk (a : A) | XEod (a : A) | XErr | XUB | XFuel.
Arguments XOk {A}. Arguments XEod {A}. Arguments XErr {A}. Arguments XUB {A}. Arguments XFuel {A}.

(** vcdecoder.cc 1217-1230: copying from the target window, with the while loop
    for a copy that reads bytes it has itself written.  [td] is
    target_bytes_decoded, [start] is target_window_start_pos_. *)
Fixpoint copy_loop (fuel : nat) (cap start : Z) (target : list Z) (td address size : Z)
  : xres (list Z) :=
  match fuel with
  | O => XFuel
  | S fuel' =>
      if td - address <? size then
        let n := td - address in
        match slice target (start + address) n with
        | None => XUB
        | Some bs =>
            match append_target cap target bs with
            | None => XUB
            | Some target' => copy_loop fuel' cap start target' (td + n) (address + n) (size - n)
            end
        end
      else
        match slice target (start + address) size with
        | None => XUB
        | Some bs =>
            match append_target cap target bs with
            | None => XUB
            | Some target' => XOk target'
            end
        end
  end.

(** vcdecoder.cc 1202-1230, the part of [DecodeCopy] after the address is known:
    the new decoded_target_. *)
Definition copy_bytes (dict : list Z) (w : window) (start : Z) (target : list Z)
    (address size : Z) : xres (list Z) :=
  let cap := start + w_len w in
  let td := zlen target - start in
  if address + size <=? w_seglen w then
    match read_source dict w target address size with
    | None => XUB
    | Some bs => match append_target cap target bs with None => XUB | Some t => XOk t end
    end
  else if address <? w_seglen w then
    let n := w_seglen w - address in
    match read_source dict w target address n with
    | None => XUB
    | Some bs =>
        match append_target cap target bs with
        | None => XUB
        | Some t =>
            copy_loop (S (Z.to_nat size)) cap start t (td + n)
                      (address + n - w_seglen w) (size - n)
        end
    end
  else
    copy_loop (S (Z.to_nat size)) cap start target td (address - w_seglen w) size.

(** vcdecoder.cc 1155-1163 [DecodeAdd] *)
Definition decode_add (w : window) (start : Z) (st : body) (size : Z) : xres body :=
  if zlen (data_of st) <? size then XEod st
  else match append_target (start + w_len w) (b_target st) (ztake size (data_of st)) with
       | None => XUB
       | Some t => XOk (with_data st (zdrop size (data_of st)) t)
       end.

(** vcdecoder.cc 1165-1173 [DecodeRun] *)
Definition decode_run (w : window) (start : Z) (st : body) (size : Z) : xres body :=
  match data_of st with
  | [] => XEod st
  | b :: tl =>
      match append_target (start + w_len w) (b_target st) (zrepeat b size) with
      | None => XUB
      | Some t => XOk (with_data st tl t)
      end
  end.

(** vcdecoder.cc 1175-1231 [DecodeCopy].  The check of lines 1194-1199 cannot
    fire: DecodeAddress only returns addresses in range. *)
Definition decode_copy (dict : list Z) (w : window) (start : Z) (st : body)
    (size mode : Z) : xres body :=
  let here := to_int32 (w_seglen w + (zlen (b_target st) - start)) in
  match decode_address (b_cache st) here mode (addr_of st) with
  | Eod => XEod st
  | Err => XErr
  | UB => XUB
  | Ok (address, rest, c) =>
      match copy_bytes dict w start (b_target st) address size with
      | XOk t => XOk (with_addr st rest c t)
      | XUB => XUB
      | XFuel => XFuel
      | _ => XErr
      end
  end.

(** vcdecoder.cc 1270-1284 *)
Definition decode_instruction (dict : list Z) (w : window) (start : Z) (st : body)
    (ty size mode : Z) : xres body :=
  if ty =? VCD_ADD then decode_add w start st size
  else if ty =? VCD_RUN then decode_run w start st size
  else if ty =? VCD_COPY then decode_copy dict w start st size mode
  else XErr.

(** vcdecoder.cc 1241-1295, the while loop of [DecodeBody].  After an
    instruction that found too little data, UnGetInstruction (1287) goes back to
    the state [st] before GetNextInstruction; the Decode functions have changed
    nothing in that case. *)
Fixpoint body_loop (fuel : nat) (dict : list Z) (t : table) (w : window) (start : Z)
    (st : body) : xres body :=
  if zlen (b_target st) - start <? w_len w then
    match fuel with
    | O => XFuel
    | S fuel' =>
        match get_next_instruction t (b_pending st) (b_inst st) with
        | NI_eod p rest => XEod (with_inst st p rest)
        | NI_err => XErr
        | NI ty size mode p rest =>
            if (w_len w <? size) || (w_len w <? size + (zlen (b_target st) - start)) then XErr
            else
              match decode_instruction dict w start (with_inst st p rest) ty size mode with
              | XOk st' => body_loop fuel' dict t w start st'
              | XEod _ => XEod st
              | XErr => XErr
              | XUB => XUB
              | XFuel => XFuel
              end
        end
    end
  else XOk st.

(** bound on the iterations of the loop vcdecoder.cc 1241-1295 *)
Definition body_fuel (st : body) : nat := 2 * length (b_inst st) + 2.

(** the tests [Empty] of headerparser.h 53 *)
Definition nonempty {A} (l : list A) : bool := match l with [] => false | _ => true end.

(** vcdecoder.cc 1233-1337 [DecodeBody] without the updates of the chunk position:
    the loop, then the checks at the end of the window.  The check of lines
    1234-1240 (internal error) cannot fire because the cursor of the chunk is
    the cursor of the instruction section by construction. *)
Definition decode_body (dict : list Z) (t : table) (w : window) (start : Z) (st : body)
  : xres body :=
  match body_loop (body_fuel st) dict t w start st with
  | XOk st' =>
      if negb (zlen (b_target st') - start =? w_len w) then XErr
      else if w_has_cks w &&
              negb (compute_adler32 (zdrop start (b_target st')) =? w_cks w) then XErr
      else if nonempty (b_inst st') then XErr
      else if negb (b_il st') && (nonempty (b_data st') || nonempty (b_addr st')) then XErr
      else XOk st'
  | r => r
  end.

(** ** The decoder *)

(** The members of [VCDiffStreamingDecoderImpl] (vcdecoder.cc 540-614), except
    custom_code_table_decoder_ and custom_code_table_ (non-null exactly when a
    custom code table is being or has been read for this delta file; its
    content is copied to the reader), and including the window
    (delta_window_) and the code table of its reader. *)
Record core := {
  d_started : bool;           (* start_decoding_was_called_ *)
  d_dict : list Z;            (* dictionary_ptr_, dictionary_size_ *)
  d_unparsed : list Z;        (* unparsed_bytes_ *)
  d_target : list Z;          (* decoded_target_ *)
  d_version : Z;              (* vcdiff_version_code_ *)
  d_sizes : option (Z * Z);   (* addr_cache_: its near and same cache sizes *)
  d_string : list Z;          (* custom_code_table_string_ *)
  d_planned : Z;              (* planned_target_file_size_ *)
  d_max_file : Z;             (* maximum_target_file_size_ *)
  d_max_window : Z;           (* maximum_target_window_size_ *)
  d_total : Z;                (* total_of_target_window_sizes_ *)
  d_out_pos : Z;              (* decoded_target_output_position_ *)
  d_allow : bool;             (* allow_vcd_target_ *)
  d_win : option window;      (* delta_window_, when found_header_ *)
  d_start : Z;                (* delta_window_.target_window_start_pos_ *)
  d_table : table             (* code table of delta_window_.reader_ *)
}.

(** custom_code_table_decoder_ is the optional second component. *)
(** vcdecoder.cc 312-619; the nested decoder is the member in line 576 *)
Inductive dec := Dec (c : core) (nested : option dec).

(** assignment to the members vcdecoder.cc 556, 562, 597 *)
Definition set_win (c : core) (w : option window) (start : Z) (target : list Z) (total : Z) : core :=
  {| d_started := d_started c; d_dict := d_dict c; d_unparsed := d_unparsed c;
     d_target := target; d_version := d_version c; d_sizes := d_sizes c;
     d_string := d_string c; d_planned := d_planned c; d_max_file := d_max_file c;
     d_max_window := d_max_window c; d_total := total; d_out_pos := d_out_pos c;
     d_allow := d_allow c; d_win := w; d_start := start; d_table := d_table c |}.

(** assignment to the members vcdecoder.cc 556, 562, 601 *)
Definition set_target_out (c : core) (target : list Z) (out_pos start : Z) : core :=
  {| d_started := d_started c; d_dict := d_dict c; d_unparsed := d_unparsed c;
     d_target := target; d_version := d_version c; d_sizes := d_sizes c;
     d_string := d_string c; d_planned := d_planned c; d_max_file := d_max_file c;
     d_max_window := d_max_window c; d_total := d_total c; d_out_pos := out_pos;
     d_allow := d_allow c; d_win := d_win c; d_start := start; d_table := d_table c |}.

(** assignment to the member vcdecoder.cc 548 *)
Definition set_unparsed (c : core) (u : list Z) : core :=
  {| d_started := d_started c; d_dict := d_dict c; d_unparsed := u;
     d_target := d_target c; d_version := d_version c; d_sizes := d_sizes c;
     d_string := d_string c; d_planned := d_planned c; d_max_file := d_max_file c;
     d_max_window := d_max_window c; d_total := d_total c; d_out_pos := d_out_pos c;
     d_allow := d_allow c; d_win := d_win c; d_start := d_start c; d_table := d_table c |}.

(** assignment to the members vcdecoder.cc 560-570 *)
Definition set_file (c : core) (version : Z) (sizes : option (Z * Z)) (s : list Z) (t : table) : core :=
  {| d_started := d_started c; d_dict := d_dict c; d_unparsed := d_unparsed c;
     d_target := d_target c; d_version := version; d_sizes := sizes;
     d_string := s; d_planned := d_planned c; d_max_file := d_max_file c;
     d_max_window := d_max_window c; d_total := d_total c; d_out_pos := d_out_pos c;
     d_allow := d_allow c; d_win := d_win c; d_start := d_start c; d_table := t |}.

(** vcdecoder.cc 637-649 [Reset] (988-1006 for delta_window_). *)
Definition reset (c : core) : core :=
  {| d_started := false; d_dict := []; d_unparsed := d_unparsed c;
     d_target := d_target c; d_version := 0; d_sizes := None;
     d_string := d_string c; d_planned := kUnlimitedBytes; d_max_file := d_max_file c;
     d_max_window := d_max_window c; d_total := 0; d_out_pos := 0;
     d_allow := d_allow c; d_win := None; d_start := zlen (d_target c);
     d_table := d_table c |}.

(** vcdecoder.cc 626-632, the constructor. *)
Definition new_core : core :=
  {| d_started := false; d_dict := []; d_unparsed := [];
     d_target := []; d_version := 0; d_sizes := None;
     d_string := []; d_planned := kUnlimitedBytes;
     d_max_file := kDefaultMaximumTargetFileSize;
     d_max_window := kDefaultMaximumTargetFileSize; d_total := 0; d_out_pos := 0;
     d_allow := true; d_win := None; d_start := 0; d_table := default_table |}.
(** vcdecoder.cc 626-632: the constructor *)
Definition new_decoder : dec := Dec new_core None.

(** vcdecoder.cc 651-664 [StartDecoding], on the core. *)
Definition start_core (c : core) (dict : list Z) : core :=
  {| d_started := true; d_dict := dict; d_unparsed := [];
     d_target := []; d_version := 0; d_sizes := None;
     d_string := d_string c; d_planned := kUnlimitedBytes; d_max_file := d_max_file c;
     d_max_window := d_max_window c; d_total := 0; d_out_pos := 0;
     d_allow := d_allow c; d_win := None; d_start := 0; d_table := d_table c |}.

(** vcdecoder.cc 651-664 [StartDecoding] *)
Definition start_decoding (d : dec) (dict : list Z) : dec :=
  let '(Dec c n) := d in
  if d_started c then d else Dec (start_core c dict) None.

(** vcdecoder.cc 378-381, 383-392, 481-488: the setters. *)
Definition set_limits (c : core) (max_file max_window : Z) (allow : bool) (planned : Z) : core :=
  {| d_started := d_started c; d_dict := d_dict c; d_unparsed := d_unparsed c;
     d_target := d_target c; d_version := d_version c; d_sizes := d_sizes c;
     d_string := d_string c; d_planned := planned; d_max_file := max_file;
     d_max_window := max_window; d_total := d_total c; d_out_pos := d_out_pos c;
     d_allow := allow; d_win := d_win c; d_start := d_start c; d_table := d_table c |}.
(** vcdecoder.cc 378-381 *)
Definition set_maximum_target_file_size (d : dec) (n : Z) : dec * bool :=
  let '(Dec c nested) := d in
  (Dec (set_limits c n (d_max_window c) (d_allow c) (d_planned c)) nested, true).
(** vcdecoder.cc 383-392 *)
Definition set_maximum_target_window_size (d : dec) (n : Z) : dec * bool :=
  let '(Dec c nested) := d in
  if kTargetSizeLimit <? n then (d, false)
  else (Dec (set_limits c (d_max_file c) n (d_allow c) (d_planned c)) nested, true).
(** vcdecoder.cc 481-488 *)
Definition set_allow_vcd_target (d : dec) (b : bool) : dec :=
  let '(Dec c nested) := d in
  if d_started c then d
  else Dec (set_limits c (d_max_file c) (d_max_window c) b (d_planned c)) nested.

(** vcdecoder.cc 395-397 *)
Definition has_planned (c : core) : bool := negb (d_planned c =? kUnlimitedBytes).

(** vcdecoder.cc 408-425 [ReachedPlannedTargetFileSize] *)
Definition reached_planned (c : core) : bool :=
  has_planned c && (d_planned c <=? d_total c).

(** vcdecoder.cc 946-984 [TargetWindowWouldExceedSizeLimits], with the
    wrap-around of the size_t subtractions. *)
Definition would_exceed (c : core) (window_size : Z) : bool :=
  (d_max_window c <? window_size)
  || (has_planned c && (to_size (d_planned c - d_total c) <? window_size))
  || (to_size (d_max_file c - d_total c) <? window_size).

(** vcdecoder.cc 364, 376: AllowInterleaved, AllowChecksum ('S' = 83). *)
Definition allow_extensions (c : core) : bool := d_version c =? 83.

(** vcdecoder.cc 1073-1122 [ReadHeader] with 1008-1052 [SetUpWindowSections], and
    the initialisation of the address cache and reader that follow (1049,
    1353-1357).  Result: the window, its body, and the chunk after a complete
    standard window (unused for the interleaved format) and after the header.
    Omitted: the check of lines 1043-1047, implied by the length check in
    ParseSectionLengths. *)
Definition read_header (c : core) (data : list Z) : res (window * body * list Z * list Z) :=
  do '(ind, kind, seglen, pos, l) <-
     parse_win_indicator (zlen (d_dict c)) (zlen (d_target c)) (d_allow c) data;
  let has_cks := allow_extensions c && Z.testbit ind 2 in
  do '(delta_len, start) <- parse_size l;
  do '(target_len, l) <- parse_size start;
  if would_exceed c target_len then Err
  else
    do 'l <- parse_delta_indicator l;
    do '(n_data, n_inst, n_addr, cks, l) <- parse_section_lengths has_cks delta_len start l;
    let il := allow_extensions c && (n_data =? 0) && (n_addr =? 0) in
    if negb il && (zlen l <? n_data + n_inst + n_addr) then Eod
    else
      match d_sizes c with
      | None => UB                        (* addr_cache() is NULL *)
      | Some (ns, ss) =>
          match cache_init ns ss with
          | None => Err
          | Some ca =>
              let w := {| w_kind := kind; w_pos := pos; w_seglen := seglen;
                          w_len := target_len; w_has_cks := has_cks; w_cks := cks;
                          w_expected := if il then n_inst else 0;
                          w_pending := None; w_cache := ca |} in
              let st :=
                if il then
                  {| b_il := true; b_inst := ztake n_inst l; b_data := []; b_addr := [];
                     b_pending := None; b_cache := ca; b_target := d_target c |}
                else
                  {| b_il := false;
                     b_inst := ztake n_inst (zdrop n_data l);
                     b_data := ztake n_data l;
                     b_addr := ztake n_addr (zdrop (n_data + n_inst) l);
                     b_pending := None; b_cache := ca; b_target := d_target c |} in
              Ok (w, st, zdrop (n_data + n_inst + n_addr) l, l)
          end
      end.

(** Result of DecodeWindow and of DecodeChunk's loop: core, unparsed rest of the
    chunk. *)
(** vcdecoder.cc 1339-1390: result of [DecodeWindow] *)
Definition dres := xres (core * list Z).

(** vcdecoder.cc 1373-1389: DecodeBody and what DecodeWindow does with its
    result.  [avail] is the chunk at the start of the body (after the header, or
    the whole chunk when resuming), [after] the chunk after a complete standard
    window, [total] is total_of_target_window_sizes_.
    In the interleaved format UpdateInstructionPointer (1124-1132) advances the
    chunk by the bytes taken from the instruction section and lowers
    interleaved_bytes_expected_ by as much. *)
Definition finish_window (c : core) (total : Z) (w : window) (st : body)
    (avail after : list Z) : dres :=
  match decode_body (d_dict c) (d_table c) w (d_start c) st with
  | XOk st' =>
      let parsed := zlen (b_inst st) - zlen (b_inst st') in
      let rest := if b_il st then zdrop parsed avail else after in
      (* Reset(): target_window_start_pos_ becomes decoded_target()->size() *)
      XOk (set_win c None (zlen (b_target st')) (b_target st') total, rest)
  | XEod st' =>
      let parsed := zlen (b_inst st) - zlen (b_inst st') in
      let expected := w_expected w - parsed in
      if b_il st && (0 <? expected) then
        let w' := {| w_kind := w_kind w; w_pos := w_pos w; w_seglen := w_seglen w;
                     w_len := w_len w; w_has_cks := w_has_cks w; w_cks := w_cks w;
                     w_expected := expected; w_pending := b_pending st';
                     w_cache := b_cache st' |} in
        XEod (set_win c (Some w') (d_start c) (b_target st') total, zdrop parsed avail)
      else XErr
  | XErr => XErr
  | XUB => XUB
  | XFuel => XFuel
  end.

(** vcdecoder.cc 1339-1390 [DecodeWindow] *)
Definition decode_window (c : core) (data : list Z) : dres :=
  match d_win c with
  | None =>
      match read_header c data with
      | Eod => XEod (c, data)
      | Err => XErr
      | UB => XUB
      | Ok (w, st, after, l) =>
          finish_window c (to_size (d_total c + w_len w)) w st l after
      end
  | Some w =>
      (* resuming; only interleaved windows are kept *)
      let st := {| b_il := true; b_inst := ztake (w_expected w) data; b_data := []; b_addr := [];
                   b_pending := w_pending w; b_cache := w_cache w; b_target := d_target c |} in
      finish_window c (d_total c) w st data []
  end.

(** vcdecoder.cc 850-858 [FlushDecodedTarget]: new core, bytes appended to the
    output. *)
Definition flush_target (c : core) : core * list Z :=
  (set_target_out c [] 0 0, zdrop (d_out_pos c) (d_target c)).

(** vcdecoder.cc 860-878 [AppendNewOutputText] (ReserveAdditionalBytes is not
    modelled). *)
Definition append_new_output (c : core) : core * list Z :=
  (set_target_out c (d_target c) (zlen (d_target c)) (d_start c),
   zdrop (d_out_pos c) (d_target c)).

(** vcdecoder.cc 900-915, the loop over windows; [out] is what has been appended
    to the output string. *)
Fixpoint window_loop (fuel : nat) (c : core) (data out : list Z)
  : xres (core * list Z) * list Z :=
  match data with
  | [] => (XOk (c, []), out)
  | _ =>
      match fuel with
      | O => (XFuel, out)
      | S fuel' =>
          match decode_window c data with
          | XOk (c', rest) =>
              if reached_planned c' then (XOk (c', rest), out)
              else if d_allow c' then window_loop fuel' c' rest out
              else let '(c'', o) := flush_target c' in window_loop fuel' c'' rest (out ++ o)
          | r => (r, out)
          end
      end
  end.

(** vcdecoder.cc 695-733: checks of the fixed part of the file header. *)
Definition check_magic (data : list Z) : res unit :=
  let n := zlen data in
  let b i := nth i data 0 in
  if (4 <=? n) && negb (b 3%nat =? 0) && negb (b 3%nat =? 83) then Err
  else if ((3 <=? n) && negb (b 2%nat =? 196)) || ((2 <=? n) && negb (b 1%nat =? 195))
          || ((1 <=? n) && negb (b 0%nat =? 214)) then Err
  else if n <? 5 then Eod
  else Ok tt.

(** vcdecoder.cc 760-781, the parsing part of [InitCustomCodeTable]: cache sizes
    and rest. *)
Definition parse_cache_sizes (l : list Z) : res (Z * Z * list Z) :=
  do '(ns, l) <- parse_size l;
  do '(ss, l) <- parse_size l;
  if (255 <? ns) || (255 <? ss) then Err else Ok (ns, ss, l).

(** The decoder made for the code table (vcdecoder.cc 798-804). *)
Definition table_decoder : dec :=
  let c := start_core new_core (table_bytes default_table) in
  Dec (set_limits c (d_max_file c) (d_max_window c) (d_allow c) 1536) None.

(** vcdecoder.cc 690-758 [ReadDeltaFileHeader] (with 760-806): new state and the
    rest of the chunk. *)
Definition read_file_header (d : dec) (data : list Z) : res (dec * list Z) :=
  let '(Dec c nested) := d in
  match d_sizes c with
  | Some _ => Ok (d, data)                       (* FoundFileHeader() *)
  | None =>
      do '_ <- check_magic data;
      let version := nth 3 data 0 in
      let ind := nth 4 data 0 in
      if Z.testbit ind 0 then Err
      else if Z.testbit ind 1 then
        do '(ns, ss, rest) <- parse_cache_sizes (zdrop 5 data);
        Ok (Dec (set_file c version (Some (ns, ss)) [] (d_table c)) (Some table_decoder), rest)
      else
        Ok (Dec (set_file c version (Some (kDefaultNearCacheSize, kDefaultSameCacheSize))
                          (d_string c) (d_table c)) nested, zdrop 5 data)
  end.

(** vcdecoder.cc 445-469 [IsDecodingComplete] *)
Definition is_decoding_complete (d : dec) : bool :=
  let '(Dec c nested) := d in
  match d_sizes c, nested, d_win c with
  | None, _, _ => negb (nonempty (d_unparsed c))
  | _, Some _, _ => false
  | _, _, Some _ => false
  | _, _, _ => if reached_planned c then true else negb (nonempty (d_unparsed c))
  end.

(** vcdecoder.cc 929-944 [FinishDecoding] *)
Definition finish_decoding (d : dec) : dec * bool :=
  let '(Dec c nested) := d in
  (Dec (reset c) None, d_started c && is_decoding_complete d).

(** Result of DecodeChunk: new state, return value, bytes appended to the output;
    [CUB] undefined behaviour, [CFuel] the model's recursion bound was hit. *)
(** vcdecoder.cc 880-925: result of [DecodeChunk] *)
Inductive cres := CRet (d : dec) (ok : bool) (out : list Z) | CUB | CFuel.

(** headerparser.cc 67-76 [FinishExcept] *)
Definition finish_except (n : Z) (data : list Z) : list Z :=
  if zlen data <? n then [] else zdrop (zlen data - n) data.

(** vcdecoder.cc 917-924, the end of [DecodeChunk], for a result other than
    RESULT_ERROR. *)
Definition chunk_done (c : core) (nested : option dec) (rest out : list Z) : cres :=
  let '(c', o) := append_new_output (set_unparsed c rest) in
  CRet (Dec c' nested) true (out ++ o).

(** The same for RESULT_ERROR.  On this path unparsed_bytes_ keeps what was
    appended to it; it is not read again before StartDecoding clears it. *)
(** vcdecoder.cc 917-920 *)
Definition chunk_failed (c : core) (out : list Z) : cres := CRet (Dec (reset c) None) false out.

(** vcdecoder.cc 899-916 and the end: the window loop on the data left after the
    headers. *)
Definition chunk_windows (c : core) (data : list Z) : cres :=
  match window_loop (S (length data)) c data [] with
  | (XOk (c', rest), out) => chunk_done c' None rest out
  | (XEod (c', rest), out) => chunk_done c' None rest out
  | (XErr, out) => chunk_failed c out
  | (XUB, _) => CUB
  | (XFuel, _) => CFuel
  end.

(** vcdecoder.cc 880-925 [DecodeChunk] with 808-848 [ReadCustomCodeTable].
    The recursion is through custom_code_table_decoder_.  Since
    custom_code_table_string_ only exists while the nested decoder does, it is
    part of the outer core. *)
Fixpoint decode_chunk_fuel (fuel : nat) (d : dec) (data : list Z) : cres :=
  match fuel with
  | O => CFuel
  | S fuel' =>
      let '(Dec c0 _) := d in
      if negb (d_started c0) then chunk_failed c0 []
      else
        let chunk := d_unparsed c0 ++ data in
        match read_file_header d chunk with
        | UB => CUB
        | Err => chunk_failed c0 []
        | Eod => let '(Dec c n) := d in chunk_done c n chunk []
        | Ok (Dec c None, rest) => chunk_windows c rest
        | Ok (Dec c (Some nd), rest) =>
            match decode_chunk_fuel fuel' nd rest with
            | CUB => CUB
            | CFuel => CFuel
            | CRet _ false _ => chunk_failed c []
            | CRet nd' true o =>
                let s := d_string c ++ o in
                if zlen s <? 1536 then
                  chunk_done (set_file c (d_version c) (d_sizes c) s (d_table c)) (Some nd') [] []
                else
                  let '(Dec nc _, fin) := finish_decoding nd' in
                  if negb fin then chunk_failed c []
                  else if negb (zlen s =? 1536) then chunk_failed c []
                  else
                    let rest' := finish_except (zlen (d_unparsed nc)) rest in
                    match d_sizes c with
                    | None => CUB
                    | Some (ns, ss) =>
                        match use_code_table (d_table c) (table_of_bytes s) (last_mode ns ss) with
                        | None => CUB
                        | Some (t, _) =>      (* return value ignored, line 846 *)
                            chunk_windows (set_file c (d_version c) (d_sizes c) [] t) rest'
                        end
                    end
            end
        end
  end.

(** A bound on the nesting of code table decoders: each one that is created has
    at least seven bytes less input than its parent. *)
(** bound on the depth of the recursion vcdecoder.cc 819 *)
Fixpoint chunk_fuel (d : dec) (data : list Z) : nat :=
  let '(Dec c nested) := d in
  match nested with
  | Some nd => S (chunk_fuel nd data)
  | None => S (length (d_unparsed c ++ data))
  end.

(** vcdecoder.cc 880-925 [DecodeChunk] *)
Definition decode_chunk (d : dec) (data : list Z) : cres :=
  decode_chunk_fuel (chunk_fuel d data) d data.

(** vcdecoder.cc 1428-1440 [VCDiffDecoder::DecodeToInterface]: the return value,
    the content of the target string, and the state of the decoder_ member. *)
Definition decode_to_interface (d : dec) (dict encoding : list Z) : option (dec * bool * list Z) :=
  match decode_chunk (start_decoding d dict) encoding with
  | CRet d' false out => Some (d', false, out)
  | CRet d' true out =>
      let '(d'', ok) := finish_decoding d' in Some (d'', ok, out)
  | _ => None
  end.

(** The streaming interface on a whole delta delivered in the given pieces:
    StartDecoding, DecodeChunk for each piece until one returns false, then
    FinishDecoding.  Result: did every call return true, and the output. *)
(** the use documented in google/vcdecoder.h 33-51 *)
Fixpoint decode_chunks (d : dec) (chunks : list (list Z)) (out : list Z)
  : option (dec * bool * list Z) :=
  match chunks with
  | [] => Some (d, true, out)
  | x :: tl =>
      match decode_chunk d x with
      | CRet d' true o => decode_chunks d' tl (out ++ o)
      | CRet d' false o => Some (d', false, out ++ o)
      | _ => None
      end
  end.
(** the use documented in google/vcdecoder.h 33-51 *)
Definition decode_stream (d : dec) (dict : list Z) (chunks : list (list Z))
  : option (bool * list Z) :=
  match decode_chunks (start_decoding d dict) chunks [] with
  | None => None
  | Some (_, false, out) => Some (false, out)
  | Some (d', true, out) => Some (snd (finish_decoding d'), out)
  end.
