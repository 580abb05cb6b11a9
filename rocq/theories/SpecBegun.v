(** Specification: a window of the interleaved format of which only a part is there.

    [begins tbl ns ss L seg bytes s s']: the bytes are instructions in the interleaved
    layout which lead from the state [s] to [s']; they end behind an instruction,
    possibly behind the first of the two instructions of an opcode.  As
    [Spec.items_mean] with [Spec.item_bytes].  (RFC 3284 sections 4.2 and 4.3; in the code
    what VCDiffDeltaFileWindow::DecodeBody, src/vcdecoder.cc 1233-1337, has executed
    when the data ends.) *)

From Verif Require Import Base Spec.

Inductive begins (tbl : code_table) (ns ss L : Z) (seg : list Z) : list Z -> wstate -> wstate -> Prop :=
| bg_nil : forall s, begins tbl ns ss L seg [] s s
| bg_half : forall op p s s',
    byte_ok op -> zlen (snd s) < L -> half_means ns ss L seg (fst (tbl op)) p s s' ->
    begins tbl ns ss L seg ([op] ++ piece_bytes p) s s'
| bg_cons : forall op p q rest s s1 s2 s3,
    byte_ok op -> zlen (snd s) < L ->
    half_means ns ss L seg (fst (tbl op)) p s s1 ->
    half_means ns ss L seg (snd (tbl op)) q s1 s2 ->
    begins tbl ns ss L seg rest s2 s3 ->
    begins tbl ns ss L seg ([op] ++ piece_bytes p ++ piece_bytes q ++ rest) s s3.

(** [begun_window f dict prev bytes L m]: the bytes are the beginning of a window which
    declares [L] bytes of target data and no data and address sections, after
    [prev]; the instructions in them yield [m].  The fields are those of
    [Spec.window]; of the checksum only its presence is required. *)
Inductive begun_window (f : format) (dict prev : list Z) : list Z -> Z -> list Z -> Prop :=
| begun_window_intro : forall ind seg_bytes seg b_delta delta_len b_target L di b_nd b_ni n_inst
                              b_na b_cks cks body hist m,
    f_ext f = true ->
    byte_ok ind -> segment f dict prev ind seg_bytes seg ->
    varint b_delta delta_len ->
    varint b_target L ->
    byte_ok di -> Z.land di 7 = 0 ->
    varint b_nd 0 -> varint b_ni n_inst -> varint b_na 0 ->
    checksum_bytes true ind b_cks cks ->
    delta_len = zlen (b_target ++ [di] ++ b_nd ++ b_ni ++ b_na ++ b_cks) + n_inst ->
    zlen body <= n_inst ->
    begins (f_table f) (f_near f) (f_same f) L seg body ([], []) (hist, m) ->
    zlen m < L ->
    begun_window f dict prev
      ([ind] ++ seg_bytes ++ b_delta ++ b_target ++ [di] ++ b_nd ++ b_ni ++ b_na ++ b_cks ++ body) L m.

(** One of the two strings is a prefix of the other. *)
Definition agree (a b : list Z) : Prop := (exists c, b = a ++ c) \/ (exists c, a = b ++ c).
