(** C80: a decoding that has not failed has output everything that its input determines. *)

From Verif Require Import Base ListFacts Spec SpecParts SpecBegun SpecYield CodeTable Decoder WindowStep Usable
  Stream Session Reuse Unique Files Chunked OutputCalls Count Kept BegunFacts FailedFacts Prompt.
From Coq Require Import ZifyBool ZifyNat.

(** Whatever the settings and the pieces, if no call has failed the output is yielded by
    the bytes received so far, and all that they yield is a beginning of the output: the
    decoder holds nothing back.  ([SpecYield.yields]: header, complete windows, and in
    the interleaved format the complete instructions of the next window.) *)
Theorem C80_nothing_held_back : forall d dict chunks d' out, idle_plain d -> bytes_ok dict -> Forall bytes_ok chunks ->
  decode_chunks (start_decoding d dict) chunks [] = Some (d', true, out) ->
  yields dict (concat chunks) out /\
  forall O, yields dict (concat chunks) O -> exists more, out = O ++ more.
Proof.
  intros d dict chunks d' out IP BD F DC. split.
  - destruct (chunks_accounted _ _ _ _ _ _ IP BD F DC) as [->|(h & v & tbl & ns & ss & ws & z & Ts & m & EC & HD & WS & -> & ALT)]; [left; reflexivity|right].
    exists h, v, tbl, ns, ss, ws, z, Ts, m. split; [exact EC|]. split; [exact HD|]. split; [eapply parts_target; eauto|]. split; [reflexivity|].
    destruct ALT as [->|(w & rest & L & E & B & _)]; [left; reflexivity|right]. exists w, rest, L. split; [exact E|]. eapply begun_target; eauto.
  - intros O [->|(h & v & tbl & ns & ss & ws & z & Ts & m & EC & HD & WS & -> & ALT)]; [exists out; reflexivity|].
    eapply chunks_prompt; eauto.
Qed.
Print Assumptions C80_nothing_held_back.

(** So no other decoding of these bytes, or of a beginning of them, with other settings
    and in other pieces, successful or not, can output more. *)
Theorem C80_no_decoding_outputs_more : forall d1 d2 dict c1 c2 r2 d1' d2' ok2 out1 out2,
  idle_plain d1 -> idle_plain d2 -> bytes_ok dict -> Forall bytes_ok c1 -> concat c1 = concat c2 ++ r2 ->
  decode_chunks (start_decoding d1 dict) c1 [] = Some (d1', true, out1) ->
  decode_chunks (start_decoding d2 dict) c2 [] = Some (d2', ok2, out2) ->
  exists more, out1 = out2 ++ more.
Proof.
  intros d1 d2 dict c1 c2 r2 d1' d2' ok2 out1 out2 IP1 IP2 BD F1 E D1 D2.
  assert (Forall bytes_ok c2) as F2.
  { apply bytes_concat in F1. rewrite E in F1. apply bytes_ok_app in F1 as [B _]. clear - B. induction c2 as [|x c IH]; [constructor|].
    cbn [concat] in B. apply bytes_ok_app in B as [B1 B2]. constructor; auto. }
  destruct (chunks_accounted _ _ _ _ _ _ IP2 BD F2 D2) as [->|(h & v & tbl & ns & ss & ws & z & Ts & m & EC & HD & WS & -> & ALT)]; [exists out1; reflexivity|].
  assert (concat c1 = h ++ ws ++ z ++ r2) as EX by (rewrite E, EC, <- !app_assoc; reflexivity).
  refine (chunks_prompt _ _ _ _ _ IP1 BD F1 D1 _ _ _ _ _ _ h v tbl ns ss ws (z ++ r2) Ts m EX HD WS _).
  destruct ALT as [->|(w & rest & L & -> & B & _)]; [left; reflexivity|right]. exists w, (rest ++ r2), L. rewrite <- app_assoc. auto.
Qed.
Print Assumptions C80_no_decoding_outputs_more.

(** Two windows of the interleaved format, "abc" and "defg".  Of the second one the
    header and "ADD 2 de" have come, and the opcode of a further ADD without all of its
    data: "abcde" is output after any split of these bytes into calls.  In the format of
    the RFC nothing of the second window is. *)
Example C80_case : let h := file_header 83 0 in let w1 := [0;9;3;0;0;4;0;4;97;98;99] in
  let w2 := [0;11;4;0;0;6;0;3;100;101;3;102] in
  let r1 := [0;9;3;0;3;1;0;97;98;99;4] in let r2 := [0;11;4;0;4;2;0;100;101;102;103;3] in
  idle_plain new_decoder /\ bytes_ok (h ++ w1 ++ w2) /\ bytes_ok (file_header 0 0 ++ r1 ++ r2) /\
  (exists d', decode_chunks (start_decoding new_decoder []) [h ++ w1 ++ w2] [] = Some (d', true, [97;98;99;100;101])) /\
  (exists d', decode_chunks (start_decoding new_decoder []) (map (fun b => [b]) (h ++ w1 ++ w2)) [] = Some (d', true, [97;98;99;100;101])) /\
  (exists d', decode_chunks (start_decoding new_decoder []) [file_header 0 0 ++ r1 ++ r2] [] = Some (d', true, [97;98;99])).
Proof.
  cbv zeta. split; [apply ip_new|]. split; [apply bytes_okb_ok; reflexivity|]. split; [apply bytes_okb_ok; reflexivity|].
  repeat (split; [eexists; vm_compute; reflexivity|]). eexists; vm_compute; reflexivity.
Qed.
