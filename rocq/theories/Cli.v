(** Model of src/vcdiff_main.cc: the command line tool.

    Simplifications.  Files are regular files in a map from names to contents;
    the only I/O failures are that a file to be read does not exist and that a
    file may not be written.  Writes reach the file at once.  Flag parsing
    (gflags), --stats and the texts of messages are left out.  The buffers can
    always be allocated. *)

From Verif Require Import Base SpecEncode EncodeTable Engine Encoder Decoder.

(** An empty name is a flag that was not given. *)
(** vcdiff_main.cc 45-51: the string flags *)
Definition name := list Z.
(** equality of file names, as fopen in vcdiff_main.cc 225, 266, 301 uses them *)
Definition name_eq (a b : name) : bool := if list_eq_dec Z.eq_dec a b then true else false.

(** the file system as seen by vcdiff_main.cc 220-330 *)
Record world := {
  wo_files : name -> option (list Z);
  wo_writable : name -> bool;
  wo_stdin : list Z;
  wo_stdout : list Z
}.
(** the effect of fopen "wb" and fwrite, vcdiff_main.cc 301, 328 *)
Definition set_content (w : world) (n : name) (l : list Z) : world :=
  {| wo_files := fun m => if name_eq m n then Some l else wo_files w m;
     wo_writable := wo_writable w; wo_stdin := wo_stdin w; wo_stdout := wo_stdout w |}.

(** A FILE* open for reading; stdin if [fi_name] is empty. *)
(** vcdiff_main.cc 173: input_file_ *)
Record file := { fi_name : name; fi_pos : Z; fi_eof : bool }.
(** vcdiff_main.cc 252-287: what the opened file contains *)
Definition content (w : world) (n : name) : list Z :=
  match n with [] => wo_stdin w | _ => match wo_files w n with Some l => l | None => [] end end.

(** fread(buf, 1, n, f) (ISO C 7.21.8.1): if [n] is 0 the state of the stream does
    not change; the end-of-file indicator is set when fewer than [n] bytes are
    left. *)
(** as called in vcdiff_main.cc 239, 314, 347 *)
Definition fread (w : world) (f : file) (n : Z) : list Z * file :=
  if n =? 0 then ([], f)
  else
    let bytes := ztake n (zdrop (fi_pos f) (content w (fi_name f))) in
    (bytes, {| fi_name := fi_name f; fi_pos := fi_pos f + zlen bytes; fi_eof := fi_eof f || (zlen bytes <? n) |}).

(** fwrite to a file that was opened with "wb", or to stdout (empty name) *)
(** as called in vcdiff_main.cc 328 *)
Definition fwrite (w : world) (n : name) (l : list Z) : world :=
  match n with
  | [] => {| wo_files := wo_files w; wo_writable := wo_writable w; wo_stdin := wo_stdin w; wo_stdout := wo_stdout w ++ l |}
  | _ => set_content w n (content w n ++ l)
  end.

(** vcdiff_main.cc 45-70: the flags *)
Record settings := {
  s_dictionary : name;
  s_target : name;
  s_delta : name;
  s_buffersize : Z;
  s_allow_vcd_target : bool;
  s_checksum : bool;
  s_interleaved : bool;
  s_json : bool;
  s_target_matches : bool;
  s_max_file : Z;
  s_max_window : Z
}.

(** What a run of the program has done: it has returned, behaviour was undefined,
    or it has not come to an end after [fuel] passes through the read loop. *)
(** vcdiff_main.cc 590-663: exit status of the program *)
Inductive outcome := Exit (ok : bool) (w : world) | Undefined | Running.

(** vcdiff_main.cc 222-250 [OpenDictionary] *)
Definition open_dictionary (w : world) (s : settings) : option (list Z) := wo_files w (s_dictionary s).

(** vcdiff_main.cc 252-287 [OpenFileForReading] (with a NULL handle): the file, and the
    size of the buffer *)
Definition open_for_reading (w : world) (n : name) (buffersize : Z) : option (file * Z) :=
  match n with
  | [] => Some ({| fi_name := []; fi_pos := 0; fi_eof := false |}, buffersize)
  | _ =>
      match wo_files w n with
      | None => None
      | Some l => Some ({| fi_name := n; fi_pos := 0; fi_eof := false |}, if zlen l <? buffersize then zlen l else buffersize)
      end
  end.

(** vcdiff_main.cc 294-310 [OpenOutputFile]: "wb" truncates *)
Definition open_output (w : world) (n : name) : option world :=
  match n with
  | [] => Some w
  | _ => if wo_writable w n then Some (set_content w n []) else None
  end.

(** vcdiff_main.cc 324-337 [WriteOutput] *)
Definition write_output (w : world) (n : name) (output : list Z) : world :=
  if nonempty output then fwrite w n output else w.

(** vcdiff_main.cc 419-439: the do loop of [Encode], and what follows it.
    ReadInput (312-322) evaluates &input_buffer_[0], which is itself undefined for
    an empty vector; the model takes it to give a pointer that fread does not
    use. *)
Fixpoint encode_loop (fuel : nat) (w : world) (inp : file) (buf : Z) (out : name) (e : encoder) (output : list Z) : outcome :=
  match fuel with
  | O => Running
  | S fuel' =>
      let w1 := write_output w out output in
      let '(bytes, inp1) := fread w1 inp buf in
      let next := fun e1 o1 =>
        if fi_eof inp1 then
          let '(_, _, o2) := finish_encoding e1 in Exit true (write_output w1 out (o1 ++ o2))
        else encode_loop fuel' w1 inp1 buf out e1 o1 in
      if nonempty bytes then
        match encode_chunk e bytes with
        | None => Undefined
        | Some (_, false, _) => Exit false w1
        | Some (e1, true, o1) => next e1 o1
        end
      else next e []
  end.

(** vcdiff_main.cc 370-448 [Encode] *)
Definition cli_encode (fuel : nat) (w : world) (s : settings) : outcome :=
  match open_dictionary w s with
  | None => Exit false w
  | Some dict =>
      match open_for_reading w (s_target s) (s_buffersize s) with
      | None => Exit false w
      | Some (inp, buf) =>
          match open_output w (s_delta s) with
          | None => Exit false w
          | Some w1 =>
              match engine_init (new_engine dict) with
              | None => Undefined
              | Some (_, false) => Exit false w1
              | Some (en, true) =>
                  let f := {| fl_interleaved := s_interleaved s; fl_checksum := s_checksum s; fl_json := s_json s |} in
                  match start_encoding (new_encoder en f (s_target_matches s)) with
                  | None => Undefined
                  | Some (_, false, _) => Exit false w1
                  | Some (e, true, output) => encode_loop fuel w1 inp buf (s_delta s) e output
                  end
              end
          end
      end
  end.

(** vcdiff_main.cc 459-464: the decoder of [Decode] and [DecodeAndCompare] *)
Definition cli_decoder (s : settings) : dec :=
  set_allow_vcd_target
    (fst (set_maximum_target_window_size (fst (set_maximum_target_file_size new_decoder (s_max_file s))) (s_max_window s)))
    (s_allow_vcd_target s).

(** vcdiff_main.cc 476-504: the do loop of [Decode], and what follows it *)
Fixpoint decode_loop (fuel : nat) (w : world) (inp : file) (buf : Z) (out : name) (d : dec) : outcome :=
  match fuel with
  | O => Running
  | S fuel' =>
      let '(bytes, inp1) := fread w inp buf in
      let next := fun d1 o1 =>
        let w1 := write_output w out o1 in
        if fi_eof inp1 then Exit (snd (finish_decoding d1)) w1
        else decode_loop fuel' w1 inp1 buf out d1 in
      if nonempty bytes then
        match decode_chunk d bytes with
        | CRet d1 true o1 => next d1 o1
        | CRet _ false _ => Exit false w
        | CUB | CFuel => Undefined
        end
      else next d []
  end.

(** vcdiff_main.cc 450-512 [Decode] *)
Definition cli_decode (fuel : nat) (w : world) (s : settings) : outcome :=
  match open_dictionary w s with
  | None => Exit false w
  | Some dict =>
      match open_for_reading w (s_delta s) (s_buffersize s) with
      | None => Exit false w
      | Some (inp, buf) =>
          match open_output w (s_target s) with
          | None => Exit false w
          | Some w1 => decode_loop fuel w1 inp buf (s_target s) (start_decoding (cli_decoder s) dict)
          end
      end
  end.

(** vcdiff_main.cc 339-368 [CompareOutput] *)
Definition compare_output (w : world) (orig : file) (output : list Z) : bool * file :=
  if nonempty output then
    let '(bytes, orig1) := fread w orig (zlen output) in
    if zlen bytes <? zlen output then (false, orig1)
    else (if list_eq_dec Z.eq_dec output bytes then true else false, orig1)
  else (true, orig).

(** vcdiff_main.cc 540-579: the do loop of [DecodeAndCompare], and what follows it *)
Fixpoint compare_loop (fuel : nat) (w : world) (inp : file) (buf : Z) (orig : file) (d : dec) : outcome :=
  match fuel with
  | O => Running
  | S fuel' =>
      let '(bytes, inp1) := fread w inp buf in
      let next := fun d1 o1 =>
        let '(same, orig1) := compare_output w orig o1 in
        if negb same then Exit false w
        else if fi_eof inp1 then
          if negb (snd (finish_decoding d1)) then Exit false w
          else Exit (negb (nonempty (fst (fread w orig1 1)))) w
        else compare_loop fuel' w inp1 buf orig1 d1 in
      if nonempty bytes then
        match decode_chunk d bytes with
        | CRet d1 true o1 => next d1 o1
        | CRet _ false _ => Exit false w
        | CUB | CFuel => Undefined
        end
      else next d []
  end.

(** vcdiff_main.cc 514-586 [DecodeAndCompare] *)
Definition cli_compare (fuel : nat) (w : world) (s : settings) : outcome :=
  match open_dictionary w s with
  | None => Exit false w
  | Some dict =>
      match open_for_reading w (s_delta s) (s_buffersize s) with
      | None => Exit false w
      | Some (inp, buf) =>
          match open_for_reading w (s_target s) (s_buffersize s) with
          | None => Exit false w
          | Some (orig, _) => compare_loop fuel w inp buf orig (start_decoding (cli_decoder s) dict)
          end
      end
  end.

(** vcdiff_main.cc 590-663 [main]; [Exit true] is exit status 0.  The check of
    --buffersize applies when the flag was given; its default is not 0. *)
(** vcdiff_main.cc 601-661: the first argument *)
Inductive command := CEncode | CDecode | CTest | COther.
(** vcdiff_main.cc 590-663 [main] *)
Definition vcdiff (fuel : nat) (c : command) (s : settings) (w : world) : outcome :=
  if negb (nonempty (s_dictionary s)) then Exit false w
  else if s_buffersize s =? 0 then Exit false w
  else
    match c with
    | CEncode => cli_encode fuel w s
    | CDecode => cli_decode fuel w s
    | CTest =>
        if negb (nonempty (s_target s)) || negb (nonempty (s_delta s)) then Exit false w
        else
          match cli_encode fuel w s with
          | Exit true w1 => cli_compare fuel w1 s
          | r => r
          end
    | COther => Exit false w
    end.
