(** Deltas of which one byte was damaged: the specification for C77. *)

From Verif Require Import Base Spec.

(** One byte of the data of an instruction, [b], was replaced by [b']: of the data of an
    ADD, or the byte of a RUN (no other instruction has data). *)
Inductive damaged_piece (b b' : Z) : piece -> piece -> Prop :=
| dp_intro : forall s u v a,
    damaged_piece b b' {| p_size := s; p_data := u ++ b :: v; p_addr := a |}
                       {| p_size := s; p_data := u ++ b' :: v; p_addr := a |}.
Inductive damaged_items (b b' : Z) : list item -> list item -> Prop :=
| dis_first : forall op p p' q l, damaged_piece b b' p p' ->
    damaged_items b b' ({| i_op := op; i_first := p; i_second := q |} :: l)
                       ({| i_op := op; i_first := p'; i_second := q |} :: l)
| dis_second : forall op p q q' l, damaged_piece b b' q q' ->
    damaged_items b b' ({| i_op := op; i_first := p; i_second := q |} :: l)
                       ({| i_op := op; i_first := p; i_second := q' |} :: l)
| dis_later : forall i l l', damaged_items b b' l l' -> damaged_items b b' (i :: l) (i :: l').

(** [damaged_window t f dict prev b b' w w' T]: [w] is a window with a checksum that
    yields [T], and [w'] is [w] with one byte [b] of the data of an instruction replaced by [b'].
    The premises are those of [Spec.window], and the last three. *)
Inductive damaged_window (t : tolerance) (f : format) (dict prev : list Z) (b b' : Z) : list Z -> list Z -> list Z -> Prop :=
| damaged_window_intro : forall ind seg_bytes seg b_delta delta_len b_target di b_nd n_data b_ni n_inst
                        b_na n_addr b_cks items body hist T items' body',
    byte_ok ind -> segment f dict prev ind seg_bytes seg ->
    varint b_delta delta_len ->
    varint b_target (zlen T) ->
    byte_ok di -> Z.land di 7 = 0 ->
    varint b_nd n_data -> varint b_ni n_inst -> varint b_na n_addr ->
    checksum_field f ind b_cks T ->
    layout t f items n_data n_inst n_addr body ->
    delta_len = zlen (b_target ++ [di] ++ b_nd ++ b_ni ++ b_na ++ b_cks) + n_data + n_inst + n_addr ->
    items_mean (t_drop t) (f_table f) (f_near f) (f_same f) (zlen T) seg items ([], []) (hist, T) ->
    f_ext f = true /\ Z.testbit ind 2 = true ->
    damaged_items b b' items items' ->
    layout t f items' n_data n_inst n_addr body' ->
    damaged_window t f dict prev b b'
      ([ind] ++ seg_bytes ++ b_delta ++ b_target ++ [di] ++ b_nd ++ b_ni ++ b_na ++ b_cks ++ body)
      ([ind] ++ seg_bytes ++ b_delta ++ b_target ++ [di] ++ b_nd ++ b_ni ++ b_na ++ b_cks ++ body') T.

(** [damaged_file t tl allow ok dict b b' X X' T out]: [X] is a file that denotes [out]; [X'] is
    [X] with one byte damaged, in a window that yields [T]. *)
Inductive damaged_file (t tl : tolerance) (allow_target : bool) (ok : list Z -> list Z -> Prop) (dict : list Z) (b b' : Z)
  : list Z -> list Z -> list Z -> list Z -> Prop :=
| damaged_file_intro : forall h version tbl ns ss ws1 prev w w' T ws2 out,
    head t t h version tbl ns ss -> modes_fit ns ss (ws1 ++ w ++ ws2) ->
    windows t t (file_format version tbl ns ss allow_target) dict ok [] ws1 prev ->
    damaged_window (match ws2 with [] => tl | _ => t end) (file_format version tbl ns ss allow_target) dict prev b b' w w' T ->
    ok prev T ->
    windows t tl (file_format version tbl ns ss allow_target) dict ok (prev ++ T) ws2 out ->
    damaged_file t tl allow_target ok dict b b' (h ++ ws1 ++ w ++ ws2) (h ++ ws1 ++ w' ++ ws2) T out.
