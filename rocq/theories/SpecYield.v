(** Specification: the target data that the bytes received so far determine.

    [yields dict X O]: the bytes [X] begin with a file header, complete windows and
    possibly a part of a further window of the interleaved format, and these produce
    [O]; or [O] is empty.  Nothing is required of what follows in [X], and there is
    no limit on sizes.  ([Spec.head], [SpecParts.windows_parts] and
    [SpecBegun.begun_window] with the tolerances that the decoder grants; VCD_TARGET
    may be used.)  RFC 3284 sections 4.1 to 4.3. *)

From Verif Require Import Base Spec SpecParts SpecBegun.

(** RFC 3284 sections 4.1 to 4.3; in the code what src/vcdecoder.cc 1074-1130 (DecodeWindow)
    and 1233-1337 (DecodeBody) have decoded when the data ends. *)
Definition yields (dict X O : list Z) : Prop :=
  O = [] \/
  exists h v tbl ns ss ws z Ts m, X = h ++ ws ++ z /\ head (tol true) (tol true) h v tbl ns ss /\
    windows_parts (tol true) (tol true) (file_format v tbl ns ss true) dict (fun _ _ => True) [] ws Ts /\
    O = concat Ts ++ m /\
    (m = [] \/ exists w rest L, z = w ++ rest /\ begun_window (file_format v tbl ns ss true) dict (concat Ts) w L m).
