(** A window of the interleaved format that is divided between two of its opcodes.

    [cut_window f dict prev p q T1 T]: [p ++ q] is a window that yields [T] after
    [prev]; [p] is the window up to an opcode, and the instructions in [p] yield
    [T1].  The fields are those of [window] (RFC 3284 sections 4.2, 4.3; vcdecoder.cc 1038-1337) with the
    interleaved body of the SDCH format. *)

From Verif Require Import Base Spec.

Inductive cut_window (f : format) (dict prev : list Z) : list Z -> list Z -> list Z -> list Z -> Prop :=
| cut_window_intro : forall ind seg_bytes seg b_delta delta_len b_target di b_nd b_ni n_inst
                            b_na b_cks done todo hist1 T1 hist T,
    f_ext f = true ->
    byte_ok ind -> segment f dict prev ind seg_bytes seg ->
    varint b_delta delta_len ->
    varint b_target (zlen T) ->
    byte_ok di -> Z.land di 7 = 0 ->
    varint b_nd 0 -> varint b_ni n_inst -> varint b_na 0 ->
    checksum_field f ind b_cks T ->
    n_inst = zlen (concat (map item_bytes (done ++ todo))) ->
    delta_len = zlen (b_target ++ [di] ++ b_nd ++ b_ni ++ b_na ++ b_cks) + n_inst ->
    items_mean false (f_table f) (f_near f) (f_same f) (zlen T) seg done ([], []) (hist1, T1) ->
    items_mean false (f_table f) (f_near f) (f_same f) (zlen T) seg todo (hist1, T1) (hist, T) ->
    cut_window f dict prev
      ([ind] ++ seg_bytes ++ b_delta ++ b_target ++ [di] ++ b_nd ++ b_ni ++ b_na ++ b_cks ++ concat (map item_bytes done))
      (concat (map item_bytes todo)) T1 T.
