(** C79: decodings of one delta do not contradict each other. *)

From Verif Require Import Base ListFacts Spec SpecParts SpecBegun CodeTable Decoder WindowStep Usable
  Stream Session Reuse Unique Files Chunked OutputCalls Count Kept BegunFacts FailedFacts.
From Coq Require Import ZifyBool ZifyNat.

(** Two decodings of a delta with the same dictionary, each of them of all of it or of
    the part that has come so far, in pieces of any size, with any settings for the
    sizes and for VCD_TARGET, successful or not: one of the outputs is the beginning of the
    other. *)
Theorem C79_no_contradiction : forall d1 d2 dict delta c1 r1 c2 r2 d1' d2' ok1 ok2 out1 out2,
  idle_plain d1 -> idle_plain d2 -> bytes_ok dict -> bytes_ok delta ->
  delta = concat c1 ++ r1 -> delta = concat c2 ++ r2 ->
  decode_chunks (start_decoding d1 dict) c1 [] = Some (d1', ok1, out1) ->
  decode_chunks (start_decoding d2 dict) c2 [] = Some (d2', ok2, out2) ->
  (exists more, out2 = out1 ++ more) \/ (exists more, out1 = out2 ++ more).
Proof.
  intros d1 d2 dict delta c1 r1 c2 r2 d1' d2' ok1 ok2 out1 out2 IP1 IP2 BD BX E1 E2 D1 D2.
  assert (forall c r, delta = concat c ++ r -> Forall bytes_ok c) as FB.
  { intros c r ->. clear - BX. apply bytes_ok_app in BX as [B _]. induction c as [|x c IH]; [constructor|].
    cbn [concat] in B. apply bytes_ok_app in B as [B1 B2]. constructor; auto. }
  destruct (chunks_accounted _ _ _ _ _ _ IP1 BD (FB _ _ E1) D1) as [->|(h & v & tbl & ns & ss & ws & z & Ts & m & EC & HD & WS & -> & ALT)]; [left; eexists; reflexivity|].
  destruct (chunks_accounted _ _ _ _ _ _ IP2 BD (FB _ _ E2) D2) as [->|(h' & v' & tbl' & ns' & ss' & ws' & z' & Ts' & m' & EC' & HD' & WS' & -> & ALT')]; [right; eexists; reflexivity|].
  rewrite EC in E1. rewrite EC' in E2. rewrite E1 in E2. rewrite <- !app_assoc in E2.
  destruct (head_inj _ _ _ _ _ _ _ HD _ _ _ _ _ _ _ _ _ HD' E2) as (_ & <- & <- & <- & <- & E).
  pose proof (head_near _ _ _ _ _ _ _ HD) as HN.
  assert (forall a b, Unique.same_format (file_format v tbl ns ss a) (file_format v tbl ns ss b)) as SF by (intros; unfold Unique.same_format; cbn; auto).
  assert (forall ok f prev zz mm, mm = [] \/ next_interleaved ok f dict prev zz mm -> partly f dict prev zz mm) as PY.
  { intros ok f prev zz mm [->|(w & rest & L & A & B & _)]; [left; reflexivity|right; exists w, rest, L; auto]. }
  exact (parts_agree _ _ _ _ _ _ _ _ WS _ _ _ _ _ _ _ _ _ _ _ _ (SF _ _) (SF _ _) WS' (PY _ _ _ _ _ ALT) (PY _ _ _ _ _ ALT') E).
Qed.
Print Assumptions C79_no_contradiction.

(** A delta of the interleaved format with two windows, "abc" and "de"; the second one
    has a wrong checksum.  In one piece nothing of it is output; in three pieces
    "abcd" is; with VCD_TARGET disallowed "abc"; and with a limit of three bytes for the
    file "abc", as the second window is refused at its header. *)
Example C79_case : let h := file_header 83 0 in let w1 := [0;9;3;0;0;4;0;4;97;98;99] in
  let w2a := [4;10;2;0;0;4;0;7;2;100] in let w2b := [2;101] in
  let d := set_allow_vcd_target new_decoder false in
  let dl := fst (set_maximum_target_file_size new_decoder 3) in
  idle_plain new_decoder /\ idle_plain d /\ idle_plain dl /\ bytes_ok (h ++ w1 ++ w2a ++ w2b) /\
  (exists d', decode_chunks (start_decoding new_decoder []) [h ++ w1 ++ w2a ++ w2b] [] = Some (d', false, [])) /\
  (exists d', decode_chunks (start_decoding new_decoder []) [h ++ w1; w2a; w2b] [] = Some (d', false, [97;98;99;100])) /\
  (exists d', decode_chunks (start_decoding new_decoder []) [h ++ w1; w2a] [] = Some (d', true, [97;98;99;100])) /\
  (exists d', decode_chunks (start_decoding d []) [h ++ w1 ++ w2a ++ w2b] [] = Some (d', false, [97;98;99])) /\
  (exists d', decode_chunks (start_decoding dl []) [h ++ w1; w2a] [] = Some (d', false, [97;98;99])).
Proof.
  cbv zeta. split; [apply ip_new|]. split; [apply ip_allow, ip_new|]. split; [apply ip_max_file; [apply ip_new|unfold size_max; lia]|].
  split; [apply bytes_okb_ok; reflexivity|]. repeat (split; [eexists; vm_compute; reflexivity|]). eexists; vm_compute; reflexivity.
Qed.
