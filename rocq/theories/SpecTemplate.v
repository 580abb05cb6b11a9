(** Where the bytes of a target come from: the specification for C76. *)

From Verif Require Import Base Spec.

(** A byte that the delta gives, or the byte of the dictionary at a position. *)
Inductive origin := Given (b : Z) | At (p : Z).

Definition byte_at (dict : list Z) (o : origin) : Z :=
  match o with Given b => b | At p => nth (Z.to_nat p) dict 0 end.
(** The bytes that a list of origins stands for, with this dictionary. *)
Definition filled (dict : list Z) (t : list origin) : list Z := map (byte_at dict) t.

(** Bytes, and positions in a dictionary of length [n] *)
Definition origin_ok (n : Z) (o : origin) : Prop :=
  match o with Given b => byte_ok b | At p => 0 <= p < n end.

(** The data begins with a file header of the SDCH format (version 'S'), the only one
    with checksums. *)
Definition sdch (delta : list Z) : Prop := exists ind tl, delta = file_header 83 ind ++ tl.

(** As [Spec.windows], with what each window yields and whether it has a checksum
    (format_extension_flags.h VCD_FORMAT_CHECKSUM: bit 2 of the window indicator). *)
Inductive windows_marked (t tl : tolerance) (f : format) (dict : list Z) (ok : list Z -> list Z -> Prop)
  : list Z -> list Z -> list (bool * list Z) -> Prop :=
| wm_nil : forall prev, windows_marked t tl f dict ok prev [] []
| wm_cons : forall prev w T rest parts,
    window (match rest with [] => tl | _ => t end) f dict prev w T -> ok prev T ->
    windows_marked t tl f dict ok (prev ++ T) rest parts ->
    windows_marked t tl f dict ok prev (w ++ rest) ((f_ext f && Z.testbit (hd 0 w) 2, T) :: parts).

(** As [Spec.vcd_file]. *)
Inductive vcd_file_marked (t tl : tolerance) (allow_target : bool) (ok : list Z -> list Z -> Prop) (dict : list Z)
  : list Z -> list (bool * list Z) -> Prop :=
| fm_empty : vcd_file_marked t tl allow_target ok dict [] []
| fm_intro : forall h version tbl ns ss ws parts,
    head t (match ws with [] => tl | _ => t end) h version tbl ns ss -> modes_fit ns ss ws ->
    windows_marked t tl (file_format version tbl ns ss allow_target) dict ok [] ws parts ->
    vcd_file_marked t tl allow_target ok dict (h ++ ws) parts.
