(** Model of the sizes that src/vcdiff_main.cc reports with --stats.

    The functions of [Cli] again, with the variables input_size and output_size.  The
    percentage and the words around the numbers are left out. *)

From Verif Require Import Base SpecEncode EncodeTable Engine Encoder Decoder Cli.

(** vcdiff_main.cc 441-446, 505-510, 579-584: a report, with the size of the target
    ("Original size", "Decompressed size") and of the delta ("Compressed size") *)
Record report := { rp_target : Z; rp_delta : Z }.

(** vcdiff_main.cc 419-446: the do loop of [Encode], what follows it, and the report;
    [i] is input_size, [o] is output_size *)
Fixpoint stats_encode_loop (fuel : nat) (w : world) (inp : file) (buf : Z) (out : name) (e : encoder) (output : list Z)
    (i o : Z) : outcome * list report :=
  match fuel with
  | O => (Running, [])
  | S fuel' =>
      let w1 := write_output w out output in
      let '(bytes, inp1) := fread w1 inp buf in
      let o1 := to_size (o + zlen output) in
      let next := fun e1 out1 i1 =>
        if fi_eof inp1 then
          let '(_, _, out2) := finish_encoding e1 in
          let o2 := to_size (o1 + zlen (out1 ++ out2)) in
          (Exit true (write_output w1 out (out1 ++ out2)),
           if 0 <? i1 then [{| rp_target := i1; rp_delta := o2 |}] else [])
        else stats_encode_loop fuel' w1 inp1 buf out e1 out1 i1 o1 in
      if nonempty bytes then
        match encode_chunk e bytes with
        | None => (Undefined, [])
        | Some (_, false, _) => (Exit false w1, [])
        | Some (e1, true, out1) => next e1 out1 (to_size (i + zlen bytes))
        end
      else next e [] i
  end.

(** vcdiff_main.cc 370-448 [Encode] *)
Definition stats_encode (fuel : nat) (w : world) (s : settings) : outcome * list report :=
  match open_dictionary w s with
  | None => (Exit false w, [])
  | Some dict =>
      match open_for_reading w (s_target s) (s_buffersize s) with
      | None => (Exit false w, [])
      | Some (inp, buf) =>
          match open_output w (s_delta s) with
          | None => (Exit false w, [])
          | Some w1 =>
              match engine_init (new_engine dict) with
              | None => (Undefined, [])
              | Some (_, false) => (Exit false w1, [])
              | Some (en, true) =>
                  let f := {| fl_interleaved := s_interleaved s; fl_checksum := s_checksum s; fl_json := s_json s |} in
                  match start_encoding (new_encoder en f (s_target_matches s)) with
                  | None => (Undefined, [])
                  | Some (_, false, _) => (Exit false w1, [])
                  | Some (e, true, output) => stats_encode_loop fuel w1 inp buf (s_delta s) e output 0 0
                  end
              end
          end
      end
  end.

(** vcdiff_main.cc 476-510: the do loop of [Decode], what follows it, and the report.
    The output string is empty after the loop, so that 500-504 change nothing. *)
Fixpoint stats_decode_loop (fuel : nat) (w : world) (inp : file) (buf : Z) (out : name) (d : dec) (i o : Z)
    : outcome * list report :=
  match fuel with
  | O => (Running, [])
  | S fuel' =>
      let '(bytes, inp1) := fread w inp buf in
      let next := fun d1 out1 i1 =>
        let w1 := write_output w out out1 in
        let o1 := to_size (o + zlen out1) in
        if fi_eof inp1 then
          (Exit (snd (finish_decoding d1)) w1,
           if snd (finish_decoding d1) && (0 <? o1) then [{| rp_target := o1; rp_delta := i1 |}] else [])
        else stats_decode_loop fuel' w1 inp1 buf out d1 i1 o1 in
      if nonempty bytes then
        match decode_chunk d bytes with
        | CRet d1 true out1 => next d1 out1 (to_size (i + zlen bytes))
        | CRet _ false _ => (Exit false w, [])
        | CUB | CFuel => (Undefined, [])
        end
      else next d [] i
  end.

(** vcdiff_main.cc 450-512 [Decode] *)
Definition stats_decode (fuel : nat) (w : world) (s : settings) : outcome * list report :=
  match open_dictionary w s with
  | None => (Exit false w, [])
  | Some dict =>
      match open_for_reading w (s_delta s) (s_buffersize s) with
      | None => (Exit false w, [])
      | Some (inp, buf) =>
          match open_output w (s_target s) with
          | None => (Exit false w, [])
          | Some w1 => stats_decode_loop fuel w1 inp buf (s_target s) (start_decoding (cli_decoder s) dict) 0 0
          end
      end
  end.

(** vcdiff_main.cc 540-584: the do loop of [DecodeAndCompare], what follows it, and the report *)
Fixpoint stats_compare_loop (fuel : nat) (w : world) (inp : file) (buf : Z) (orig : file) (d : dec) (i o : Z)
    : outcome * list report :=
  match fuel with
  | O => (Running, [])
  | S fuel' =>
      let '(bytes, inp1) := fread w inp buf in
      let next := fun d1 out1 i1 =>
        let '(same, orig1) := compare_output w orig out1 in
        let o1 := to_size (o + zlen out1) in
        if negb same then (Exit false w, [])
        else if fi_eof inp1 then
          if negb (snd (finish_decoding d1)) then (Exit false w, [])
          else if nonempty (fst (fread w orig1 1)) then (Exit false w, [])
          else (Exit true w, if 0 <? o1 then [{| rp_target := o1; rp_delta := i1 |}] else [])
        else stats_compare_loop fuel' w inp1 buf orig1 d1 i1 o1 in
      if nonempty bytes then
        match decode_chunk d bytes with
        | CRet d1 true out1 => next d1 out1 (to_size (i + zlen bytes))
        | CRet _ false _ => (Exit false w, [])
        | CUB | CFuel => (Undefined, [])
        end
      else next d [] i
  end.

(** vcdiff_main.cc 514-586 [DecodeAndCompare] *)
Definition stats_compare (fuel : nat) (w : world) (s : settings) : outcome * list report :=
  match open_dictionary w s with
  | None => (Exit false w, [])
  | Some dict =>
      match open_for_reading w (s_delta s) (s_buffersize s) with
      | None => (Exit false w, [])
      | Some (inp, buf) =>
          match open_for_reading w (s_target s) (s_buffersize s) with
          | None => (Exit false w, [])
          | Some (orig, _) => stats_compare_loop fuel w inp buf orig (start_decoding (cli_decoder s) dict) 0 0
          end
      end
  end.

(** vcdiff_main.cc 590-663 [main] with --stats: the outcome and the reports *)
Definition vcdiff_stats (fuel : nat) (c : command) (s : settings) (w : world) : outcome * list report :=
  if negb (nonempty (s_dictionary s)) then (Exit false w, [])
  else if s_buffersize s =? 0 then (Exit false w, [])
  else
    match c with
    | CEncode => stats_encode fuel w s
    | CDecode => stats_decode fuel w s
    | CTest =>
        if negb (nonempty (s_target s)) || negb (nonempty (s_delta s)) then (Exit false w, [])
        else
          match stats_encode fuel w s with
          | (Exit true w1, r1) => let (x, r2) := stats_compare fuel w1 s in (x, r1 ++ r2)
          | r => r
          end
    | COther => (Exit false w, [])
    end.
