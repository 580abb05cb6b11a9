(** Model of src/vcdiff_main.cc with I/O errors: reading may fail at any byte, and
    what is written goes through the buffer of the C library to a device that may
    refuse it.  ([Cli] models the same functions with writes that reach the file at
    once and no such errors, and with the file system; here input and output are
    different files.) *)

From Verif Require Import Base SpecEncode EncodeTable Engine Encoder Decoder Cli.

(** ** Files *)

(** A file open for reading: what fseek/ftell report as its size (None: failure), the
    bytes that have not been read, and whether a read error rather than the end of the
    file comes after them. *)
(** vcdiff_main.cc 173: input_file_; 210-220 [FileSize] *)
Record rfile := {
  rf_size : option Z;
  rf_rest : list Z;
  rf_bad : bool;
  rf_eof : bool;
  rf_err : bool
}.

(** fread(buf, 1, n, f) (ISO C 7.21.8.1), as called in vcdiff_main.cc 239, 314 *)
Definition fread_io (f : rfile) (n : Z) : list Z * rfile :=
  if n =? 0 then ([], f)
  else
    let bytes := ztake n (rf_rest f) in
    let short := zlen bytes <? n in
    (bytes, {| rf_size := rf_size f; rf_rest := zdrop n (rf_rest f); rf_bad := rf_bad f;
               rf_eof := rf_eof f || (short && negb (rf_bad f)); rf_err := rf_err f || (short && rf_bad f) |}).

(** A file open for writing: the bytes that are on the device, the bytes that the C
    library has buffered, and the error indicator. *)
(** vcdiff_main.cc 174: output_file_ *)
Record wfile := { wf_disk : list Z; wf_buf : list Z; wf_err : bool }.

(** What the C library and the device do.  Both functions are given what is on the
    device and what is to be written; they tell how many of these bytes are put on the
    device now, and whether an error was reported.  After an error of fwrite some of the
    bytes that were not put on the device may be lost: [Some n] is an error after which
    the first [n] of them are still in the buffer. *)
(** the behaviour of fwrite and fclose, vcdiff_main.cc 328, 205 *)
Record device := {
  de_write : list Z -> list Z -> Z * option Z;
  de_close : list Z -> list Z -> Z * bool
}.

(** fwrite, as called in vcdiff_main.cc 328 *)
Definition fwrite_io (v : device) (f : wfile) (l : list Z) : wfile :=
  let pending := wf_buf f ++ l in
  let '(k, failed) := de_write v (wf_disk f) pending in
  let left := zdrop k pending in
  {| wf_disk := wf_disk f ++ ztake k pending;
     wf_buf := match failed with None => left | Some n => ztake n left end;
     wf_err := wf_err f || match failed with None => false | Some _ => true end |}.

(** fclose (or for stdout the flush at exit): what is left on the device, and whether
    an error was reported; vcdiff_main.cc 204-207 *)
Definition fclose_io (v : device) (f : wfile) : list Z * bool :=
  let '(k, failed) := de_close v (wf_disk f) (wf_buf f) in (wf_disk f ++ ztake k (wf_buf f), failed).

(** ** The program *)

(** What a run has done: it has returned and left these bytes on the device (fclose
    failed or not), behaviour was undefined, or it has not come to an end after [fuel]
    passes through the read loop. *)
(** vcdiff_main.cc 590-663: exit status of the program *)
Inductive io_outcome := IExit (ok : bool) (closed : list Z * bool) | IUndefined | IRunning.

(** vcdiff_main.cc 199-208: the destructor; the result of fclose is not used *)
Definition leave (v : device) (ok : bool) (f : wfile) : io_outcome := IExit ok (fclose_io v f).

(** nothing was opened for writing: vcdiff_main.cc 376-378, 455-457 *)
Definition leave_early : io_outcome := IExit false ([], false).

(** vcdiff_main.cc 222-250 [OpenDictionary]; None: the file cannot be opened *)
Definition open_dictionary_io (f : option rfile) : option (list Z) :=
  match f with
  | None => None
  | Some f =>
      match rf_size f with
      | None => None
      | Some n =>
          if 0 <? n then
            let '(bytes, _) := fread_io f n in
            if zlen bytes =? n then Some bytes else None
          else Some []
      end
  end.

(** vcdiff_main.cc 252-287 [OpenFileForReading]: the file and the size of the buffer;
    [std]: no name was given *)
Definition open_for_reading_io (f : option rfile) (std : bool) (buffersize : Z) : option (rfile * Z) :=
  match f with
  | None => None
  | Some f =>
      if std then Some (f, buffersize)
      else
        match rf_size f with
        | None => None
        | Some n => Some (f, if n <? buffersize then n else buffersize)
        end
  end.

(** vcdiff_main.cc 324-337 [WriteOutput] *)
Definition write_output_io (v : device) (f : wfile) (output : list Z) : bool * wfile :=
  if nonempty output then
    let f' := fwrite_io v f output in (negb (wf_err f'), f')
  else (true, f).

(** vcdiff_main.cc 419-439: the do loop of [Encode], and what follows it *)
Fixpoint encode_loop_io (fuel : nat) (v : device) (inp : rfile) (buf : Z) (out : wfile) (e : encoder) (output : list Z) : io_outcome :=
  match fuel with
  | O => IRunning
  | S fuel' =>
      let '(written, out1) := write_output_io v out output in
      if negb written then leave v false out1
      else
        let '(bytes, inp1) := fread_io inp buf in
        if rf_err inp1 then leave v false out1
        else
          let next := fun e1 o1 =>
            if rf_eof inp1 then
              let '(_, _, o2) := finish_encoding e1 in
              let '(written, out2) := write_output_io v out1 (o1 ++ o2) in leave v written out2
            else encode_loop_io fuel' v inp1 buf out1 e1 o1 in
          if nonempty bytes then
            match encode_chunk e bytes with
            | None => IUndefined
            | Some (_, false, _) => leave v false out1
            | Some (e1, true, o1) => next e1 o1
            end
          else next e []
  end.

(** vcdiff_main.cc 370-448 [Encode]; [opens]: the output file can be opened *)
Definition encode_io (fuel : nat) (v : device) (s : settings) (dictionary target : option rfile) (opens : bool) : io_outcome :=
  match open_dictionary_io dictionary with
  | None => leave_early
  | Some dict =>
      match open_for_reading_io target (negb (nonempty (s_target s))) (s_buffersize s) with
      | None => leave_early
      | Some (inp, buf) =>
          if negb opens then leave_early
          else
            let out := {| wf_disk := []; wf_buf := []; wf_err := false |} in
            match engine_init (new_engine dict) with
            | None => IUndefined
            | Some (_, false) => leave v false out
            | Some (en, true) =>
                let f := {| fl_interleaved := s_interleaved s; fl_checksum := s_checksum s; fl_json := s_json s |} in
                match start_encoding (new_encoder en f (s_target_matches s)) with
                | None => IUndefined
                | Some (_, false, _) => leave v false out
                | Some (e, true, output) => encode_loop_io fuel v inp buf out e output
                end
            end
      end
  end.

(** vcdiff_main.cc 476-504: the do loop of [Decode], and what follows it *)
Fixpoint decode_loop_io (fuel : nat) (v : device) (inp : rfile) (buf : Z) (out : wfile) (d : dec) : io_outcome :=
  match fuel with
  | O => IRunning
  | S fuel' =>
      let '(bytes, inp1) := fread_io inp buf in
      if rf_err inp1 then leave v false out
      else
        let next := fun d1 o1 =>
          let '(written, out1) := write_output_io v out o1 in
          if negb written then leave v false out1
          else if rf_eof inp1 then leave v (snd (finish_decoding d1)) out1
          else decode_loop_io fuel' v inp1 buf out1 d1 in
        if nonempty bytes then
          match decode_chunk d bytes with
          | CRet d1 true o1 => next d1 o1
          | CRet _ false _ => leave v false out
          | CUB | CFuel => IUndefined
          end
        else next d []
  end.

(** vcdiff_main.cc 450-512 [Decode] *)
Definition decode_io (fuel : nat) (v : device) (s : settings) (dictionary delta : option rfile) (opens : bool) : io_outcome :=
  match open_dictionary_io dictionary with
  | None => leave_early
  | Some dict =>
      match open_for_reading_io delta (negb (nonempty (s_delta s))) (s_buffersize s) with
      | None => leave_early
      | Some (inp, buf) =>
          if negb opens then leave_early
          else decode_loop_io fuel v inp buf {| wf_disk := []; wf_buf := []; wf_err := false |} (start_decoding (cli_decoder s) dict)
      end
  end.

(** vcdiff_main.cc 339-368 [CompareOutput] *)
Definition compare_output_io (orig : rfile) (output : list Z) : bool * rfile :=
  if nonempty output then
    let '(bytes, orig1) := fread_io orig (zlen output) in
    if rf_err orig1 then (false, orig1)
    else if zlen bytes <? zlen output then (false, orig1)
    else (if list_eq_dec Z.eq_dec output bytes then true else false, orig1)
  else (true, orig).

(** vcdiff_main.cc 540-579: the do loop of [DecodeAndCompare], and what follows it; fgetc
    gives EOF at the end of the file and after an error.  Here None is undefined
    behaviour, or [fuel] is used up. *)
Fixpoint compare_loop_io (fuel : nat) (inp : rfile) (buf : Z) (orig : rfile) (d : dec) : option bool :=
  match fuel with
  | O => None
  | S fuel' =>
      let '(bytes, inp1) := fread_io inp buf in
      if rf_err inp1 then Some false
      else
        let next := fun d1 o1 =>
          let '(same, orig1) := compare_output_io orig o1 in
          if negb same then Some false
          else if rf_eof inp1 then
            if negb (snd (finish_decoding d1)) then Some false
            else
              let '(c, orig2) := fread_io orig1 1 in
              if nonempty c then Some false else Some (negb (rf_err orig2))
          else compare_loop_io fuel' inp1 buf orig1 d1 in
        if nonempty bytes then
          match decode_chunk d bytes with
          | CRet d1 true o1 => next d1 o1
          | CRet _ false _ => Some false
          | CUB | CFuel => None
          end
        else next d []
  end.

(** vcdiff_main.cc 514-586 [DecodeAndCompare] *)
Definition compare_io (fuel : nat) (s : settings) (dictionary delta target : option rfile) : option bool :=
  match open_dictionary_io dictionary with
  | None => Some false
  | Some dict =>
      match open_for_reading_io delta (negb (nonempty (s_delta s))) (s_buffersize s) with
      | None => Some false
      | Some (inp, buf) =>
          match open_for_reading_io target (negb (nonempty (s_target s))) (s_buffersize s) with
          | None => Some false
          | Some (orig, _) => compare_loop_io fuel inp buf orig (start_decoding (cli_decoder s) dict)
          end
      end
  end.

(** vcdiff_main.cc 627-653: "vcdiff test".  [reopen] is the delta file as it is found when
    it is opened again; the other two files are read a second time, too. *)
Definition test_io (fuel : nat) (v : device) (s : settings) (dictionary target : option rfile) (opens : bool)
    (reopen : list Z -> option rfile) (dictionary2 target2 : option rfile) : io_outcome :=
  if negb (nonempty (s_target s)) || negb (nonempty (s_delta s)) then leave_early
  else
    match encode_io fuel v s dictionary target opens with
    | IExit true (disk, failed) =>
        match compare_io fuel s dictionary2 (reopen disk) target2 with
        | Some ok => IExit ok (disk, failed)
        | None => IUndefined
        end
    | r => r
    end.
