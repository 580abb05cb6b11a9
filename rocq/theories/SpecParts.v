(** Specification: the windows of a delta file one by one, and strings that grow.

    [Spec.windows] says what a sequence of windows produces; here the target data
    of each window is kept apart, so that one can count windows. *)

From Verif Require Import Base Spec.

(** [windows_parts t tl f dict ok prev bytes parts]: [bytes] are windows with the
    target data [parts], one element per window, after [prev].  As
    [Spec.windows]. *)
Inductive windows_parts (t tl : tolerance) (f : format) (dict : list Z) (ok : list Z -> list Z -> Prop)
  : list Z -> list Z -> list (list Z) -> Prop :=
| wp_nil : forall prev, windows_parts t tl f dict ok prev [] []
| wp_cons : forall prev w T rest Ts,
    window (match rest with [] => tl | _ => t end) f dict prev w T -> ok prev T ->
    windows_parts t tl f dict ok (prev ++ T) rest Ts ->
    windows_parts t tl f dict ok prev (w ++ rest) (T :: Ts).

(** A file with the target windows [parts].  As [Spec.vcd_file]. *)
Inductive vcd_file_parts (t tl : tolerance) (allow_target : bool) (ok : list Z -> list Z -> Prop) (dict : list Z)
  : list Z -> list (list Z) -> Prop :=
| fp_empty : vcd_file_parts t tl allow_target ok dict [] []
| fp_intro : forall h version tbl ns ss ws parts,
    head t (match ws with [] => tl | _ => t end) h version tbl ns ss -> modes_fit ns ss ws ->
    windows_parts t tl (file_format version tbl ns ss allow_target) dict ok [] ws parts ->
    vcd_file_parts t tl allow_target ok dict (h ++ ws) parts.

(** google/output_string.h 45-57 [OutputStringInterface]: the calls which change an
    output string, as far as the decoder uses them.  vcdecoder.cc uses neither
    clear nor push_back on the output of DecodeChunk. *)
Inductive out_call :=
| Append (s : list Z)            (* append(s, n) *)
| Reserve (n : Z).               (* ReserveAdditionalBytes(n) *)

(** google/output_string.h 70-73: the bytes which the calls append. *)
Fixpoint appended (calls : list out_call) : list Z :=
  match calls with
  | [] => []
  | Append s :: tl => s ++ appended tl
  | Reserve _ :: tl => appended tl
  end.

(** A string with the given size and capacity on which the calls are made.  It
    is resized exactly when the requested number of bytes does not fit into its
    capacity; the new capacity is then anything that suffices.  (A string type
    may also shrink its capacity in reserve; such types are excluded.)
    [resized size cap calls n]: the calls can resize the string [n] times. *)
Inductive resized : Z -> Z -> list out_call -> Z -> Prop :=
| rz_nil : forall size cap, resized size cap [] 0
| rz_append_fits : forall size cap s tl n, size + zlen s <= cap ->
    resized (size + zlen s) cap tl n -> resized size cap (Append s :: tl) n
| rz_append_grows : forall size cap s tl n cap', cap < size + zlen s -> size + zlen s <= cap' ->
    resized (size + zlen s) cap' tl n -> resized size cap (Append s :: tl) (1 + n)
| rz_reserve_fits : forall size cap k tl n, size + k <= cap ->
    resized size cap tl n -> resized size cap (Reserve k :: tl) n
| rz_reserve_grows : forall size cap k tl n cap', cap < size + k -> size + k <= cap' ->
    resized size cap' tl n -> resized size cap (Reserve k :: tl) (1 + n).
