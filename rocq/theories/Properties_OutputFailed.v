(** C52, the deltas that are rejected. *)

From Verif Require Import Base Spec Varint CodeTable InstructionMap DecodeTable HeaderParser Adler Decoder
  Usable Sound Stream Session Reuse Files Output SpecParts Chunked OutputFacts OutputCalls OutputFailed Properties_Output.
From Coq Require Import ZifyBool ZifyNat.

(** A DecodeChunk that returns false may have appended windows before.  All the calls
    until then append what was output, and they resize the string at most once per
    complete window and once for the window that is wrong. *)
Theorem C52_rejected : forall d dict chunks d' out, idle_plain d -> bytes_ok dict -> Forall bytes_ok chunks ->
  decode_chunks (start_decoding d dict) chunks [] = Some (d', false, out) ->
  appended (stream_calls d dict chunks) = out /\
  ((forall size cap n, 0 <= size <= cap -> resized size cap (stream_calls d dict chunks) n -> n = 0) \/
   exists h v tbl ns ss ws z parts, concat chunks = h ++ ws ++ z /\ head (tol true) (tol true) h v tbl ns ss /\
    windows_parts (tol true) (tol true) (file_format v tbl ns ss (target_allowed d)) dict (admits d) [] ws parts /\
    forall size cap n, 0 <= size <= cap -> resized size cap (stream_calls d dict chunks) n -> n <= zlen parts + 1).
Proof. exact chunks_failed_within. Qed.
Print Assumptions C52_rejected.

(** The delta of [C52_case] with a second window whose last ADD is too long.  The
    first window is complete, and the string is resized twice: the bound is attained. *)
Definition c52_bad : list Z := [214;195;196;83;0] ++ [0;11;4;0;0;6;0;3;65;66;3;67;68] ++ [0;11;4;0;0;6;0;3;69;70;4;71;72].
Definition c52_bad_pieces : list (list Z) := [ztake 15 c52_bad; ztake 3 (zdrop 15 c52_bad); ztake 10 (zdrop 18 c52_bad); zdrop 28 c52_bad].
Example C52_rejected_case : concat c52_bad_pieces = c52_bad /\ Forall bytes_ok c52_bad_pieces /\
  (exists d', decode_chunks (start_decoding new_decoder []) c52_bad_pieces [] = Some (d', false, [65;66;67;68;69;70])) /\
  stream_calls new_decoder [] c52_bad_pieces = [Reserve 4; Append [65;66]; Append [67;68]; Reserve 4; Append [69;70]] /\
  resized 0 0 (stream_calls new_decoder [] c52_bad_pieces) 2.
Proof.
  split; [reflexivity|]. split; [unfold c52_bad_pieces; repeat apply Forall_cons; try apply Forall_nil; apply bytes_okb_ok; reflexivity|].
  split; [eexists; vm_compute; reflexivity|].
  assert (stream_calls new_decoder [] c52_bad_pieces = [Reserve 4; Append [65;66]; Append [67;68]; Reserve 4; Append [69;70]]) as -> by (vm_compute; reflexivity).
  split; [reflexivity|].
  change 2 with (1 + (1 + 0)). eapply (rz_reserve_grows 0 0 4 _ _ 4); [reflexivity|discriminate|].
  apply rz_append_fits; [discriminate|]. apply rz_append_fits; [discriminate|].
  eapply (rz_reserve_grows _ _ 4 _ _ 8); [reflexivity|discriminate|].
  apply rz_append_fits; [discriminate|]. constructor.
Qed.

(** All of it in one call: the first window is appended although the call fails. *)
Example C52_rejected_at_once : (exists d', decode_chunks (start_decoding new_decoder []) [c52_bad] [] = Some (d', false, [])) /\
  (exists d', decode_chunks (start_decoding (set_allow_vcd_target new_decoder false) []) [c52_bad] [] = Some (d', false, [65;66;67;68])) /\
  stream_calls (set_allow_vcd_target new_decoder false) [] [c52_bad] = [Append [65;66;67;68]].
Proof. split; [eexists; vm_compute; reflexivity|]. split; [eexists; vm_compute; reflexivity|vm_compute; reflexivity]. Qed.
