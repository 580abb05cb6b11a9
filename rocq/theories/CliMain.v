(** Model of the arguments of main in src/vcdiff_main.cc.

    Flags have been taken out of the arguments by gflags (vcdiff_main.cc 594) and are in
    [settings]; what is left are the other arguments. *)

From Verif Require Import Base SpecEncode EncodeTable Engine Encoder Decoder Cli.

(** vcdiff_main.cc 615-616, 623-624, 629: the names of the commands, as bytes *)
Definition str_encode : name := [101;110;99;111;100;101].
(** vcdiff_main.cc 616 "delta" *)
Definition str_delta : name := [100;101;108;116;97].
(** vcdiff_main.cc 623 "decode" *)
Definition str_decode : name := [100;101;99;111;100;101].
(** vcdiff_main.cc 624 "patch" *)
Definition str_patch : name := [112;97;116;99;104].
(** vcdiff_main.cc 629 "test" *)
Definition str_test : name := [116;101;115;116].

(** vcdiff_main.cc 615-661: strcmp with the names *)
Definition command_of (a : name) : command :=
  if name_eq a str_encode || name_eq a str_delta then CEncode
  else if name_eq a str_decode || name_eq a str_patch then CDecode
  else if name_eq a str_test then CTest
  else COther.

(** vcdiff_main.cc 590-663 [main]; [args] are argv[1], argv[2], ... after the flags
    were taken out (argc is one more).  595-600: exactly one. *)
Definition vcdiff_main (fuel : nat) (args : list name) (s : settings) (w : world) : outcome :=
  match args with
  | [a] => vcdiff fuel (command_of a) s w
  | _ => Exit false w
  end.
