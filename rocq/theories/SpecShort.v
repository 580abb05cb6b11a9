(** All the ways to write a given list of instructions as a window: C64.
    No definition of a model file is used here. *)

From Verif Require Import Base Spec SpecEncode SpecInstr.

(** [plain_window il ck dict bytes T l]: [bytes] is a window of RFC 3284 sections 4.2 and
    4.3 whose source segment is the whole dictionary and whose sections are not
    compressed; its instructions, with the default code table, are [l] and yield [T].
    [il]: the sections are interleaved; [ck]: there is a checksum.  Any address mode, any
    opcode, for one instruction or for two, and any integer (also with leading zeros)
    that means the right thing may be used. *)
Inductive plain_window (il ck : bool) (dict : list Z) : list Z -> list Z -> list instruction -> Prop :=
| plain_window_intro : forall b_seg b_pos b_delta b_target b_data b_inst b_addr b_sum items hist T l,
    let data := concat (map item_data items) in
    let inst := concat (map item_inst items) in
    let addr := concat (map item_addr items) in
    let body := if il then concat (map item_bytes items) else data ++ inst ++ addr in
    let rest := b_target ++ [0] ++ b_data ++ b_inst ++ b_addr ++ b_sum ++ body in
    varint b_seg (zlen dict) -> varint b_pos 0 -> varint b_delta (zlen rest) ->
    varint b_target (zlen T) ->
    varint b_data (if il then 0 else zlen data) ->
    varint b_inst (if il then zlen body else zlen inst) ->
    varint b_addr (if il then 0 else zlen addr) ->
    (if ck then varint b_sum (adler_sum 0 T) else b_sum = []) ->
    items_read rfc_table 4 3 (zlen T) dict items ([], []) (hist, T) l ->
    plain_window il ck dict ([if ck then 5 else 1] ++ b_seg ++ b_pos ++ b_delta ++ rest) T l.
