(** C81: an invalid window is rejected by the call which delivers its last byte. *)

From Verif Require Import Base ListFacts Spec SpecParts SpecBegun SpecYield SpecStalled Varint VarintFacts AddrCache CodeTable HeaderParser InstructionMap DecodeTable Decoder
  BodyFacts WindowExt WindowHeader WindowStep Refine Totals Abstract Chunk Sim Usable Stream Session Reuse Unique Files Fields Chunked Count Kept Held BegunFacts FailedFacts Prompt InTime StalledFacts
  Properties_Varint Properties_Stream Properties_Held Properties_Decode Properties_Prompt.
From Coq Require Import ZifyBool ZifyNat.

(** What is wanted: if no call has failed, every complete window received is valid.
    The input is a file header, windows with the data [Ts], and a further window with
    the header fields [hd] and as many bytes [body] behind them as [hd] declares; then
    that window is valid, within the limits and uses VCD_TARGET only if allowed. *)
Definition in_time (d : dec) (dict : list Z) (chunks : list (list Z)) : Prop :=
  forall h v tbl ns ss ws Ts hd D body rest,
  concat chunks = h ++ ws ++ hd ++ body ++ rest -> head (tol true) (tol true) h v tbl ns ss ->
  windows_parts (tol true) (tol true) (file_format v tbl ns ss true) dict (fun _ _ => True) [] ws Ts ->
  declares (v =? 83) hd D -> zlen body = h_data_len D + h_inst_len D + h_addr_len D ->
  exists w1 w2 T, hd ++ body = w1 ++ w2 /\
    Spec.window (tol true) (file_format v tbl ns ss (target_allowed d)) dict (concat Ts) w1 T /\
    within (max_window d) (max_file d) (concat Ts) T.

(** In the format of the RFC this holds, and the window is exactly these bytes. *)
Theorem C81_in_time_rfc : forall d dict chunks d' out h tbl ns ss ws Ts hd D body rest,
  idle_plain d -> bytes_ok dict -> Forall bytes_ok chunks ->
  decode_chunks (start_decoding d dict) chunks [] = Some (d', true, out) ->
  concat chunks = h ++ ws ++ hd ++ body ++ rest -> head (tol true) (tol true) h 0 tbl ns ss ->
  windows_parts (tol true) (tol true) (file_format 0 tbl ns ss true) dict (fun _ _ => True) [] ws Ts ->
  declares false hd D -> zlen body = h_data_len D + h_inst_len D + h_addr_len D ->
  exists T, Spec.window (tol true) (file_format 0 tbl ns ss (target_allowed d)) dict (concat Ts) (hd ++ body) T /\
    within (max_window d) (max_file d) (concat Ts) T.
Proof.
  intros d dict chunks d' out h tbl ns ss ws Ts hd D body rest IP BD F DC EC HD WP DCL ZB.
  destruct (chunks_in_time _ _ _ _ _ IP BD F DC _ _ _ _ _ _ _ _ _ _ _ _ _ _ _ _ _ EC HD WP DCL ZB) as [(w1 & w2 & T & E & N & W & K)|(m & (b & r & L & _ & _ & B & _) & _)].
  - rewrite N, app_nil_r in E by lia. rewrite E. exists T. split; [exact W|exact K].
  - destruct (begun_opened _ _ _ _ _ _ B) as (_ & _ & _ & _ & X & _). discriminate X.
Qed.
Print Assumptions C81_in_time_rfc.

(** In both formats with one exception: a window of the interleaved format may be
    stalled ([SpecStalled.stalled]); then the output ends with what its instructions
    produce.  (In the interleaved format the valid window may be shorter than its
    declared length: the tolerance of C05.) *)
Theorem C81_in_time_partial : forall d dict chunks d' out h v tbl ns ss ws Ts hd D body rest,
  idle_plain d -> bytes_ok dict -> Forall bytes_ok chunks ->
  decode_chunks (start_decoding d dict) chunks [] = Some (d', true, out) ->
  concat chunks = h ++ ws ++ hd ++ body ++ rest -> head (tol true) (tol true) h v tbl ns ss ->
  windows_parts (tol true) (tol true) (file_format v tbl ns ss true) dict (fun _ _ => True) [] ws Ts ->
  declares (v =? 83) hd D -> zlen body = h_data_len D + h_inst_len D + h_addr_len D ->
  (exists w1 w2 T, hd ++ body = w1 ++ w2 /\
     Spec.window (tol true) (file_format v tbl ns ss (target_allowed d)) dict (concat Ts) w1 T /\
     within (max_window d) (max_file d) (concat Ts) T) \/
  exists m, stalled (file_format v tbl ns ss (target_allowed d)) dict (concat Ts) (hd ++ body) m /\ out = concat Ts ++ m.
Proof.
  intros d dict chunks d' out h v tbl ns ss ws Ts hd D body rest IP BD F DC EC HD WP DCL ZB.
  destruct (chunks_in_time _ _ _ _ _ IP BD F DC _ _ _ _ _ _ _ _ _ _ _ _ _ _ _ _ _ EC HD WP DCL ZB) as [(w1 & w2 & T & E & _ & W & K)|S]; [left|right; exact S].
  exists w1, w2, T. auto.
Qed.
Print Assumptions C81_in_time_partial.

(** The exception: "ADD 3 a" in a section of two bytes.  The window can never be
    completed, yet whatever follows, in whatever pieces, every call succeeds and
    nothing is output; only FinishDecoding reports the error.  All that follows is
    kept in memory. *)
Definition stalled_window : list Z := [0;7;3;0;0;2;0;4;97].

Lemma stalled_call : forall y, exists d', decode_chunk (start_decoding new_decoder []) (file_header 83 0 ++ stalled_window ++ y) = CRet d' true [] /\
  unparsed d' = [4;97] ++ y /\ snd (finish_decoding d') = false.
Proof.
  intros y. set (c0 := start_core (let '(Dec c _) := new_decoder in c) []).
  change (start_decoding new_decoder []) with (Dec c0 None). unfold decode_chunk. cbn [chunk_fuel decode_chunk_fuel].
  change (d_started c0) with true. cbn [negb]. change (d_unparsed c0) with (@nil Z).
  set (u := stalled_window ++ y). set (k := set_file c0 83 (Some (4, 3)) [] default_table).
  assert (read_file_header (Dec c0 None) (file_header 83 0 ++ u) = Ok (Dec k None, u)) as RF.
  { clearbody u. unfold read_file_header. change (d_sizes c0) with (@None (Z * Z)). cbv iota. unfold check_magic. unfold file_header. cbn [app]. rewrite !zlen_cons.
    pose proof (zlen_nonneg _ u). cbn [nth]. destruct (Z.ltb_spec (1 + (1 + (1 + (1 + (1 + zlen u))))) 5); [lia|].
    rewrite !andb_false_r. cbn. change (214 :: 195 :: 196 :: 83 :: 0 :: u) with ([214;195;196;83;0] ++ u). rewrite zdrop_app_eq by reflexivity. reflexivity. }
  cbn [app]. change (file_header 83 0 ++ u) with (file_header 83 0 ++ u) in RF. rewrite RF.
  unfold chunk_windows.
  assert (zlen (d_dict k) <= int32_max) as ZD by (change (d_dict k) with (@nil Z); rewrite zlen_nil; unfold int32_max; lia).
  assert (zlen (d_target k) <= int32_max) as ZT by (change (d_target k) with (@nil Z); rewrite zlen_nil; unfold int32_max; lia).
  assert (segment (fmt k 4 3) (d_dict k) (d_target k) 0 [] []) as SG by (constructor; reflexivity).
  assert (forall b, 0 <= b < 128 -> varint [b] b /\ b <= int32_max) as V by (intros b B; split; [apply v1; exact B|unfold int32_max; lia]).
  assert (7 = zlen ([3] ++ [0] ++ [0] ++ [2] ++ [0] ++ []) + 0 + 2 + 0) as DL by reflexivity.
  destruct (V 7 ltac:(lia)) as [V7 L7]. destruct (V 3 ltac:(lia)) as [V3 L3]. destruct (V 0 ltac:(lia)) as [V0 L0]. destruct (V 2 ltac:(lia)) as [V2 L2].
  assert (would_exceed k 3 = false) as WE by (vm_compute; reflexivity).
  destruct (header_complete k 4 3 0 [] [] [7] 7 [3] 3 0 [0] 0 [2] 2 [0] 0 [] 0 ([4;97] ++ y) ZD ZT SG V7 L7 V3 L3 WE eq_refl V0 L0 V2 L2 V0 L0 (conj eq_refl eq_refl) DL)
    as (kind & pos & _ & _ & HF).
  change ([0] ++ [] ++ [7] ++ [3] ++ [0] ++ [0] ++ [2] ++ [0] ++ [] ++ [4;97] ++ y) with u in HF.
  destruct (cache_init 4 3) as [ca|] eqn:CI; [|discriminate CI].
  set (w := fields_window k (kind, zlen (@nil Z), pos, 3, 0, 2, 0, 0, allow_extensions k && Z.testbit 0 2) ca) in *.
  assert (decode_window k u = XEod (mid_core k w 2 None ca [] 3, [4;97] ++ y)) as DW.
  { rewrite (decode_window_none k 4 3) by reflexivity. rewrite HF. change (fields_il k _) with true. cbn [negb andb]. rewrite CI. cbv zeta. fold w.
    rewrite finish_il_eq.
    assert (ztake 2 ([4;97] ++ y) = [4;97]) as ZK by (apply ztake_app_eq; reflexivity).
    change (w_expected w) with 2. unfold il_state. change (w_expected w) with 2. rewrite ZK.
    change (w_cache w) with ca. change (w_pending w) with (@None Z). change (d_target k) with (@nil Z).
    assert (loop (d_dict k) (d_table k) w (d_start k) {| b_il := true; b_inst := [4;97]; b_data := []; b_addr := []; b_pending := None; b_cache := ca; b_target := [] |} =
      XEod {| b_il := true; b_inst := [4;97]; b_data := []; b_addr := []; b_pending := None; b_cache := ca; b_target := [] |}) as LP.
    { injection CI as <-. vm_compute. reflexivity. }
    rewrite LP. reflexivity. }
  cbn [window_loop]. rewrite DW.
  eexists. split; [reflexivity|]. split; reflexivity.
Qed.

Theorem C81_in_time_refuted : exists delta, bytes_ok delta /\ forall y chunks, bytes_ok y -> concat chunks = delta ++ y ->
  ~ in_time new_decoder [] chunks /\
  exists d', decode_chunks (start_decoding new_decoder []) chunks [] = Some (d', true, []) /\ snd (finish_decoding d') = false /\
    (chunks = [delta ++ y] -> exists before, unparsed d' = before ++ y).
Proof.
  exists (file_header 83 0 ++ stalled_window). assert (bytes_ok (file_header 83 0 ++ stalled_window)) as B0 by (apply bytes_okb_ok; reflexivity).
  split; [exact B0|]. intros y chunks BY EC.
  assert (Forall bytes_ok chunks) as F.
  { assert (bytes_ok (concat chunks)) as B by (rewrite EC; apply bytes_ok_app; auto). clear - B.
    induction chunks as [|x c IH]; [constructor|]. cbn [concat] in B. apply bytes_ok_app in B as [B1 B2]. constructor; auto. }
  destruct (stalled_call y) as (d1 & D1 & UP & FI). rewrite app_assoc in D1.
  assert (decode_chunks (start_decoding new_decoder []) [concat chunks] [] = Some (d1, true, [])) as DC1.
  { rewrite EC. cbn [decode_chunks]. rewrite D1. reflexivity. }
  pose proof (idle_plain_idle _ ip_new) as [ID _].
  destruct (C06_split_keeps_success new_decoder [] chunks d1 [] ID ltac:(constructor) F DC1) as (d2 & D2 & FI2).
  split.
  - intros IT. set (D := {| h_ind := 0; h_delta_len := 7; h_counted := 5; h_target_len := 3; h_data_len := 0; h_inst_len := 2; h_addr_len := 0; h_checksum := None |}).
    assert (declares true [0;7;3;0;0;2;0] D) as DCL.
    { apply (declares_intro true 0 [] [7] 7 [3] 3 0 [0] 0 [2] 2 [0] 0 [] None); try (apply v1; lia); [reflexivity|split; reflexivity]. }
    assert (head (tol true) (tol true) (file_header 83 0) 83 rfc_table 4 3) as HD by (constructor; auto; unfold byte_ok; lia).
    destruct (IT (file_header 83 0) 83 rfc_table 4 3 [] [] [0;7;3;0;0;2;0] D [4;97] y) as (w1 & w2 & T & E & W & _); [|exact HD|constructor|exact DCL|reflexivity|].
    { rewrite EC, <- app_assoc. reflexivity. }
    cbn [concat] in W. rewrite <- (app_nil_r w1) in E.
    assert (w1 ++ w2 = [0;7;3;0;0;2;0] ++ [4;97]) as E' by (rewrite app_nil_r in E; auto).
    destruct (window_declares _ _ _ _ _ _ _ _ _ _ W E' DCL) as (ZT & _). change (h_target_len D) with 3 in ZT.
    destruct (C80_nothing_held_back new_decoder [] chunks d2 [] ip_new ltac:(constructor) F D2) as [_ P].
    destruct (P T) as (more & EM).
    { right. exists (file_header 83 0), 83, rfc_table, 4, 3, w1, (w2 ++ y), [T], []. split.
      - rewrite EC, <- app_assoc. f_equal. rewrite app_assoc, E'. reflexivity.
      - split; [exact HD|]. split; [|split; [cbn [concat]; rewrite !app_nil_r; reflexivity|left; reflexivity]].
        rewrite <- (app_nil_r w1). constructor; [|exact Logic.I|constructor]. exact W. }
    symmetry in EM. apply app_eq_nil in EM as [-> _]. rewrite zlen_nil in ZT. discriminate ZT.
  - exists d2. split; [exact D2|]. split; [congruence|]. intros ->. cbn [concat decode_chunks] in D2. rewrite D1 in D2.
    assert (d2 = d1) as -> by congruence. exists [4;97]. exact UP.
Qed.
Print Assumptions C81_in_time_refuted.

(** A stalled window is never left: if the window that is complete is not valid and
    yet no call has failed, then whatever follows, in whatever pieces, no call fails,
    nothing more is output, and FinishDecoding fails. *)
Theorem C81_stalled_forever : forall d dict chunks d' out h v tbl ns ss ws Ts hd D body rest,
  idle_plain d -> bytes_ok dict -> Forall bytes_ok chunks ->
  decode_chunks (start_decoding d dict) chunks [] = Some (d', true, out) ->
  concat chunks = h ++ ws ++ hd ++ body ++ rest -> head (tol true) (tol true) h v tbl ns ss ->
  windows_parts (tol true) (tol true) (file_format v tbl ns ss true) dict (fun _ _ => True) [] ws Ts ->
  declares (v =? 83) hd D -> zlen body = h_data_len D + h_inst_len D + h_addr_len D ->
  ~ (exists w1 w2 T, hd ++ body = w1 ++ w2 /\
     Spec.window (tol true) (file_format v tbl ns ss (target_allowed d)) dict (concat Ts) w1 T /\
     within (max_window d) (max_file d) (concat Ts) T) ->
  forall more, Forall bytes_ok more ->
  exists d'', decode_chunks (start_decoding d dict) (chunks ++ more) [] = Some (d'', true, out) /\ snd (finish_decoding d'') = false.
Proof.
  intros d dict chunks d' out h v tbl ns ss ws Ts hd D body rest IP BD F DC EC HD WP DCL ZB INV.
  assert (OUT : forall more, Forall bytes_ok more -> forall d2 out2, decode_chunks (start_decoding d dict) (chunks ++ more) [] = Some (d2, true, out2) ->
    (exists m, stalled (file_format v tbl ns ss (target_allowed d)) dict (concat Ts) (hd ++ body) m /\ out2 = concat Ts ++ m) /\
    snd (finish_decoding d2) = false /\ forall y, bytes_ok y -> exists d3 o, decode_chunk d2 y = CRet d3 true o).
  { intros more FM d2 out2 DC2. assert (Forall bytes_ok (chunks ++ more)) as F2 by (apply Forall_app; auto).
    assert (concat (chunks ++ more) = h ++ ws ++ hd ++ body ++ rest ++ concat more) as EC2 by (rewrite concat_app, EC, <- !app_assoc; reflexivity).
    split.
    - destruct (chunks_in_time _ _ _ _ _ IP BD F2 DC2 _ _ _ _ _ _ _ _ _ _ _ _ _ _ _ _ _ EC2 HD WP DCL ZB) as [(w1 & w2 & T & E & _ & W & K)|X]; [|exact X].
      destruct INV. exists w1, w2, T. auto.
    - exact (chunks_stay _ _ _ _ _ IP BD F2 DC2 _ _ _ _ _ _ _ _ _ _ _ _ _ _ _ _ _ EC2 HD WP DCL ZB INV). }
  assert (decode_chunks (start_decoding d dict) (chunks ++ []) [] = Some (d', true, out)) as DC0 by (rewrite app_nil_r; exact DC).
  destruct (OUT [] ltac:(constructor) d' out DC0) as ((m & SM & EO) & FI & _).
  induction more as [|y more IH] using rev_ind; intros FM; [exists d'; auto|].
  apply Forall_app in FM as [FM FY]. destruct (IH FM) as (d2 & DC2 & _).
  destruct (OUT more FM d2 out DC2) as (_ & _ & STEP). inversion FY as [|? ? BY _]; subst.
  destruct (STEP y BY) as (d3 & o & D3).
  assert (decode_chunks (start_decoding d dict) (chunks ++ more ++ [y]) [] = Some (d3, true, (concat Ts ++ m) ++ o)) as DC3.
  { rewrite app_assoc, decode_chunks_app, DC2. cbn [decode_chunks]. rewrite D3. reflexivity. }
  destruct (OUT (more ++ [y]) ltac:(apply Forall_app; auto) d3 _ DC3) as ((m3 & SM3 & EO3) & FI3 & _).
  pose proof (stalled_same _ _ _ _ _ _ SM SM3) as <-. exists d3. split; [rewrite DC3, EO3; reflexivity|exact FI3].
Qed.
Print Assumptions C81_stalled_forever.

(** Its hypotheses for the window above, with nothing before and after it. *)
Example C81_stalled_case : let hd := [0;7;3;0;0;2;0] in let body := [4;97] in exists d' D,
  decode_chunks (start_decoding new_decoder []) [file_header 83 0 ++ hd ++ body] [] = Some (d', true, []) /\
  head (tol true) (tol true) (file_header 83 0) 83 rfc_table 4 3 /\
  declares (83 =? 83) hd D /\ zlen body = h_data_len D + h_inst_len D + h_addr_len D /\
  ~ (exists w1 w2 T, hd ++ body = w1 ++ w2 /\
     Spec.window (tol true) (file_format 83 rfc_table 4 3 (target_allowed new_decoder)) [] [] w1 T /\
     within (max_window new_decoder) (max_file new_decoder) [] T).
Proof.
  cbv zeta. set (D := {| h_ind := 0; h_delta_len := 7; h_counted := 5; h_target_len := 3; h_data_len := 0; h_inst_len := 2; h_addr_len := 0; h_checksum := None |}).
  destruct (stalled_call []) as (d1 & D1 & _). rewrite app_nil_r in D1.
  assert (decode_chunks (start_decoding new_decoder []) [file_header 83 0 ++ stalled_window] [] = Some (d1, true, [])) as DC by (cbn [decode_chunks]; rewrite D1; reflexivity).
  assert (head (tol true) (tol true) (file_header 83 0) 83 rfc_table 4 3) as HD by (constructor; auto; unfold byte_ok; lia).
  assert (declares true [0;7;3;0;0;2;0] D) as DCL.
  { apply (declares_intro true 0 [] [7] 7 [3] 3 0 [0] 0 [2] 2 [0] 0 [] None); try (apply v1; lia); [reflexivity|split; reflexivity]. }
  exists d1, D. split; [exact DC|]. split; [exact HD|]. split; [exact DCL|]. split; [reflexivity|].
  intros (w1 & w2 & T & E & W & _). symmetry in E.
  destruct (window_declares _ _ _ _ _ _ _ _ _ _ W E DCL) as (ZT & _). change (h_target_len D) with 3 in ZT.
  assert (Forall bytes_ok [file_header 83 0 ++ stalled_window]) as F by (constructor; [apply bytes_okb_ok; reflexivity|constructor]).
  destruct (C80_nothing_held_back new_decoder [] _ d1 [] ip_new ltac:(constructor) F DC) as [_ P].
  destruct (P T) as (more & EM).
  { right. exists (file_header 83 0), 83, rfc_table, 4, 3, w1, w2, [T], []. split.
    - cbn [concat]. rewrite app_nil_r. f_equal. symmetry. exact E.
    - split; [exact HD|]. split; [|split; [cbn [concat]; rewrite !app_nil_r; reflexivity|left; reflexivity]].
      rewrite <- (app_nil_r w1). constructor; [|exact Logic.I|constructor]. exact W. }
  symmetry in EM. apply app_eq_nil in EM as [-> _]. rewrite zlen_nil in ZT. discriminate ZT.
Qed.

(** The other way round, errors are not reported too early: if a call fails, no
    continuation makes the bytes received so far a well-formed delta within the
    limits.  (The sizes and the cache excepted for which C05 is not claimed.) *)
Theorem C81_not_premature : forall d dict chunks d' out y target,
  idle_plain d -> bytes_ok dict -> Forall bytes_ok chunks -> bytes_ok y ->
  decode_chunks (start_decoding d dict) chunks [] = Some (d', false, out) ->
  ~ bad_cache (concat chunks ++ y) ->
  zlen (concat chunks ++ y) <= int32_max -> zlen dict <= int32_max -> zlen target <= int32_max -> zlen dict + zlen target <= int32_max + 1 ->
  ~ vcd_file strict strict (target_allowed d) (within (max_window d) (max_file d)) dict (concat chunks ++ y) target.
Proof.
  intros d dict chunks d' out y target IP BD F BY DC NB S1 S2 S3 S4 V.
  assert (concat (chunks ++ [y]) = concat chunks ++ y) as EC by (rewrite concat_app; cbn [concat]; rewrite app_nil_r; reflexivity).
  pose proof (C05_decoder_complete strict d dict (chunks ++ [y]) target IP BD) as C. rewrite EC in C.
  specialize (C ltac:(apply Forall_app; auto) NB eq_refl V S1 S2 S3 S4).
  unfold decode_stream in C. rewrite decode_chunks_app, DC in C. discriminate C.
Qed.
Print Assumptions C81_not_premature.

(** "abc" in the format of the RFC, and the same window with the opcode of ADD 2 in
    place of ADD 3: it is rejected by the call that delivers its last byte, and not
    by an earlier one. *)
Example C81_case : let h := file_header 0 0 in let hd := [0;9;3;0;3;1;0] in
  idle_plain new_decoder /\
  (exists D, declares false hd D /\ zlen [97;98;99;4] = h_data_len D + h_inst_len D + h_addr_len D) /\
  (exists d', decode_chunks (start_decoding new_decoder []) [h ++ hd ++ [97;98;99;4]] [] = Some (d', true, [97;98;99])) /\
  (exists d', decode_chunks (start_decoding new_decoder []) [h ++ hd ++ [97;98;99]] [] = Some (d', true, [])) /\
  (exists d', decode_chunks (start_decoding new_decoder []) [h ++ hd ++ [97;98;99]; [3]] [] = Some (d', false, [])) /\
  (exists d', decode_chunks (start_decoding new_decoder []) [h ++ [0;9;3;0;3;1]; [0;97;98]; [99;3;0]] [] = Some (d', false, [])).
Proof.
  cbv zeta. split; [apply ip_new|]. split.
  { eexists. split; [apply (declares_intro false 0 [] [9] 9 [3] 3 0 [3] 3 [1] 1 [0] 0 [] None); try (apply v1; lia); [reflexivity|split; reflexivity]|reflexivity]. }
  repeat (split; [eexists; vm_compute; reflexivity|]). eexists; vm_compute; reflexivity.
Qed.
