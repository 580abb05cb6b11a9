(** C81 for files of any length: errors are not reported too early. *)

From Verif Require Import Base ListFacts Spec SpecLong Varint VarintFacts AddrCache CodeTable CodeTableFacts Decoder BodyFacts Usable Stream Session Reuse Files
  LongStream Properties_Stream Properties_Decode Properties_Long Properties_InTime.
From Coq Require Import ZifyBool ZifyNat.

(** As C81_not_premature, with the bound of 2^31 on each window instead of on the whole
    file (see C82): if a call fails, no continuation makes the bytes received so far a
    file header with windows that are all valid, within the limits of the decoder and
    within 31 bits. *)
Theorem C81_not_premature_long : forall d dict chunks d' out y target h v tbl ns ss ws,
  idle_plain d -> bytes_ok dict -> zlen dict <= 2147483647 -> Forall bytes_ok chunks -> bytes_ok y ->
  decode_chunks (start_decoding d dict) chunks [] = Some (d', false, out) ->
  concat chunks ++ y = h ++ ws -> head strict strict h v tbl ns ss -> modes_fit ns ss ws -> zlen h <= 2147483647 -> ~ bad_cache (h ++ ws) ->
  ~ windows_each strict strict (file_format v tbl ns ss (target_allowed d)) dict
      (fun prev w T => window_sized dict (within (max_window d) (max_file d)) prev w T /\ target_segment_low w T) [] ws target.
Proof.
  intros d dict chunks d' out y target h v tbl ns ss ws IP BD ZD F BY DC E HD MF ZH NB WS.
  assert (concat (chunks ++ [y]) = h ++ ws) as EC by (rewrite concat_app; cbn [concat]; rewrite app_nil_r; exact E).
  assert (Forall bytes_ok (chunks ++ [y])) as FC by (apply Forall_app; auto).
  assert (~ bad_cache (concat (chunks ++ [y]))) as NB' by (rewrite EC; exact NB).
  pose proof (C82_decoder_target strict d dict h v tbl ns ss ws target (chunks ++ [y]) IP BD ZD eq_refl HD MF ZH WS FC EC NB') as C.
  unfold decode_stream in C. rewrite decode_chunks_app, DC in C. discriminate C.
Qed.
Print Assumptions C81_not_premature_long.

(** The first window of C82_target_case, and behind it the window indicator 7 (VCD_SOURCE
    and VCD_TARGET at once), which is refused at once; so no file within the limits, of
    whatever length, begins so. *)
Example C81_long_case :
  idle_plain new_decoder /\
  (exists d', decode_chunks (start_decoding new_decoder []) [file_header 0 0 ++ c82_first] [] = Some (d', true, c82_four)) /\
  (exists d', decode_chunks (start_decoding new_decoder []) [file_header 0 0 ++ c82_first; [7]] [] = Some (d', false, c82_four)) /\
  forall y ws target, bytes_ok y -> c82_first ++ [7] ++ y = ws ->
    ~ windows_each strict strict (file_format 0 rfc_table 4 3 (target_allowed new_decoder)) []
        (fun prev w T => window_sized [] (within (max_window new_decoder) (max_file new_decoder)) prev w T /\ target_segment_low w T) [] ws target.
Proof.
  split; [apply ip_new|].
  split; [eexists; vm_compute; reflexivity|].
  assert (exists d', decode_chunks (start_decoding new_decoder []) [file_header 0 0 ++ c82_first; [7]] [] = Some (d', false, c82_four)) as DC
    by (eexists; vm_compute; reflexivity).
  split; [exact DC|]. destruct DC as (d' & DC). intros y ws target BY <-.
  apply (C81_not_premature_long new_decoder [] [file_header 0 0 ++ c82_first; [7]] d' c82_four y target (file_header 0 0)).
  - apply ip_new.
  - constructor.
  - rewrite zlen_nil. lia.
  - constructor; [apply bytes_okb_ok; reflexivity|constructor; [apply bytes_okb_ok; reflexivity|constructor]].
  - exact BY.
  - exact DC.
  - cbn [concat]. rewrite app_nil_r, <- !app_assoc. reflexivity.
  - constructor; [left; reflexivity|unfold byte_ok; lia|reflexivity|reflexivity].
  - right. lia.
  - vm_compute. discriminate.
  - apply no_code_table_bad. intros v ind tl EQ. injection EQ as _ <- _. reflexivity.
Qed.
