(** C72: nothing is output that has not been verified. *)

From Verif Require Import Base ListFacts Spec SpecParts SpecBegun CodeTable Decoder WindowStep Usable
  Stream Session Reuse Unique Files Chunked Count Kept FailedFacts Properties_Stream Properties_Decode.
From Coq Require Import ZifyBool ZifyNat.

(** ** C72

    At any time, also after a call has failed, the output consists of the target
    data of complete windows of the delta: [Spec.window] demands that the window
    makes sense as a whole and that its checksum, if any, is that of its data.

    It fails for the interleaved format: "abc" is output, then the rest of the
    window comes and the checksum is found to be wrong. *)
Theorem C72_refuted : exists d dict chunks d' out, idle_plain d /\ bytes_ok dict /\ Forall bytes_ok chunks /\
  decode_chunks (start_decoding d dict) chunks [] = Some (d', false, out) /\
  ~ exists h v tbl ns ss ws z Ts, concat chunks = h ++ ws ++ z /\ head lax lax h v tbl ns ss /\
      windows_parts lax lax (file_format v tbl ns ss (target_allowed d)) dict (admits d) [] ws Ts /\ out = concat Ts.
Proof.
  exists new_decoder, [], [file_header 83 0 ++ [4;14;6;0;0;8;0;1;4;97;98;99]; [4;100;101;102]].
  eexists _, [97;98;99]. split; [apply ip_new|]. split; [constructor|].
  split; [repeat constructor; unfold byte_ok; lia|]. split; [vm_compute; reflexivity|].
  intros (h & v & tbl & ns & ss & ws & z & Ts & EX & HD & WS & EO). cbn [concat app] in EX. unfold file_header in EX. cbn [app] in EX.
  assert (h = [214;195;196;83;0]) as ->.
  { inversion HD as [v0 ind V BI I0 I1 E|v0 ind b1 n1 b2 s1 h' v' tbl' ns' ss' ws' s tbl0 V BI I0 I1]; subst; unfold file_header in EX; cbn [app] in EX;
      injection EX as <- <- _; [reflexivity|discriminate I1]. }
  cbn [app] in EX. assert ([4;14;6;0;0;8;0;1;4;97;98;99;4;100;101;102] = ws ++ z) as E by congruence. clear EX.
  inversion WS as [prev|prev w T rest Ts' W K WS' E1 E2 E3]; subst; [discriminate EO|].
  cbn [concat app] in EO. assert (zlen T <= 3) as ZT.
  { change 3 with (zlen [97;98;99]). rewrite EO, zlen_app. pose proof (zlen_nonneg _ (concat Ts')). lia. }
  inversion W as [ind sb seg bd dl bt di bnd nd bni ni bna na bcks items body hist T1 BI SG VD VT BDI DI VND VNI VNA CF LA DL IM EW ET]; subst.
  rewrite <- !app_assoc in E. cbn [app] in E. injection E as <- E.
  inversion SG as [B0 B1|b1 b2 len p0 s B0 B1|b1 b2 len p0 s B0 B1]; subst; try discriminate B0; try discriminate B1. cbn [app] in E.
  destruct (varint_inj [14] bd 14 _ _ _ (v1 14 ltac:(lia)) VD E) as (<- & _ & E').
  destruct (varint_inj [6] bt 6 (zlen T) _ _ (v1 6 ltac:(lia)) VT E') as (_ & L & _). lia.
Qed.
Print Assumptions C72_refuted.

(** What holds: the output consists of the data of complete windows and of a
    part [m] of the next one; [m] is empty unless the next window is interleaved.
    ([SpecBegun.begun_window]: its header declares no data and no address section, and a
    target longer than [m]; [m] is what the instructions in [w] yield.) *)
Theorem C72_whole_windows_partial : forall d dict chunks d' ok out, idle_plain d -> bytes_ok dict -> Forall bytes_ok chunks ->
  decode_chunks (start_decoding d dict) chunks [] = Some (d', ok, out) ->
  out = [] \/
  exists h v tbl ns ss ws z Ts m, concat chunks = h ++ ws ++ z /\ head lax lax h v tbl ns ss /\
    windows_parts lax lax (file_format v tbl ns ss (target_allowed d)) dict (admits d) [] ws Ts /\
    out = concat Ts ++ m /\
    (m = [] \/
     exists w rest L, z = w ++ rest /\ begun_window (file_format v tbl ns ss (target_allowed d)) dict (concat Ts) w L m).
Proof.
  intros d dict chunks d' ok out IP BD F DC.
  destruct (chunks_accounted d dict chunks d' ok out IP BD F DC) as [->|(h & v & tbl & ns & ss & ws & z & Ts & m & E & HD & WS & EO & ALT)]; [left; reflexivity|right].
  exists h, v, tbl, ns, ss, ws, z, Ts, m. split; [exact E|]. split; [exact HD|]. split; [exact WS|]. split; [exact EO|].
  destruct ALT as [->|(w & rest & L & EZ & BW & _)]; [left; reflexivity|right]. exists w, rest, L. auto.
Qed.
Print Assumptions C72_whole_windows_partial.

(** The standard format (version byte 0), with or without a code table of its own. *)
Theorem C72_standard : forall d dict chunks d' ok out ind W, idle_plain d -> bytes_ok dict -> Forall bytes_ok chunks ->
  concat chunks = file_header 0 ind ++ W ->
  decode_chunks (start_decoding d dict) chunks [] = Some (d', ok, out) ->
  out = [] \/
  exists h tbl ns ss ws z Ts, concat chunks = h ++ ws ++ z /\ head lax lax h 0 tbl ns ss /\
    windows_parts lax lax (file_format 0 tbl ns ss (target_allowed d)) dict (admits d) [] ws Ts /\ out = concat Ts.
Proof.
  intros d dict chunks d' ok out ind W IP BD F EX DC.
  destruct (chunks_accounted d dict chunks d' ok out IP BD F DC) as [->|(h & v & tbl & ns & ss & ws & z & Ts & m & E & HD & WS & EO & ALT)]; [left; reflexivity|right].
  assert (v = 0) as ->.
  { rewrite EX in E. unfold file_header in E. cbn [app] in E.
    inversion HD as [v0 i0 V BI I0 I1 E1|v0 i0 b1 n1 b2 s1 h' v' tbl' ns' ss' ws' s tbl0 V BI I0 I1]; subst; unfold file_header in E; rewrite <- ?app_assoc in E; cbn [app] in E; congruence. }
  destruct ALT as [->|(w & rest & L & _ & BW & _)]; [|inversion BW; discriminate]. rewrite app_nil_r in EO.
  exists h, tbl, ns, ss, ws, z, Ts. auto.
Qed.
Print Assumptions C72_standard.

(** While VCD_TARGET is allowed, which is the default, the output of a call is
    only delivered when the call succeeds: a call that fails outputs nothing, in
    either format. *)
Theorem C72_failing_call : forall d dict pre x d1 o1 d' out, idle_plain d -> bytes_ok dict -> Forall bytes_ok pre -> bytes_ok x ->
  target_allowed d = true ->
  decode_chunks (start_decoding d dict) pre [] = Some (d1, true, o1) ->
  decode_chunks (start_decoding d dict) (pre ++ [x]) [] = Some (d', false, out) -> out = o1.
Proof. exact failing_call. Qed.
Print Assumptions C72_failing_call.

(** In particular a damaged delta that is given in one piece yields nothing. *)
Corollary C72_one_piece : forall d dict X d' out, idle_plain d -> bytes_ok dict -> bytes_ok X -> target_allowed d = true ->
  decode_chunks (start_decoding d dict) [X] [] = Some (d', false, out) -> out = [].
Proof.
  intros d dict X d' out IP BD BX TA DC.
  exact (failing_call d dict [] X _ [] d' out IP BD ltac:(constructor) BX TA eq_refl DC).
Qed.
Print Assumptions C72_one_piece.

(** Two windows "abc" and "de"; in the second one two bytes of data are missing
    behind the ADD of three.  With VCD_TARGET disallowed the first window is output
    although the call fails; otherwise nothing is. *)
Example C72_case : let h := file_header 0 0 in let w1 := [0;9;3;0;3;1;0;97;98;99;4] in let w2 := [0;7;3;0;1;1;0;100;4] in
  let d := set_allow_vcd_target new_decoder false in
  idle_plain d /\ idle_plain new_decoder /\ target_allowed new_decoder = true /\ bytes_ok (h ++ w1 ++ w2) /\
  (exists d', decode_chunks (start_decoding d []) [h ++ w1 ++ w2] [] = Some (d', false, [97;98;99])) /\
  (exists d', decode_chunks (start_decoding new_decoder []) [h ++ w1 ++ w2] [] = Some (d', false, [])) /\
  (exists d1 d', decode_chunks (start_decoding new_decoder []) [h; w1] [] = Some (d1, true, [97;98;99]) /\
    decode_chunks (start_decoding new_decoder []) ([h; w1] ++ [w2]) [] = Some (d', false, [97;98;99])).
Proof.
  cbv zeta. split; [apply ip_allow, ip_new|]. split; [apply ip_new|]. split; [reflexivity|]. split; [apply bytes_okb_ok; reflexivity|].
  split; [eexists; vm_compute; reflexivity|]. split; [eexists; vm_compute; reflexivity|].
  eexists _, _. split; vm_compute; reflexivity.
Qed.
