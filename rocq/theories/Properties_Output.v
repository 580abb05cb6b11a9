(** C52: how the decoder treats the output string.  C53: the setters of its limits. *)

From Verif Require Import Base Spec Varint CodeTable InstructionMap DecodeTable HeaderParser Adler Decoder
  Usable Sound Stream Session Reuse Files Output SpecParts Chunked OutputFacts OutputCalls.
From Coq Require Import ZifyBool ZifyNat.

(** ** C52 *)

(** A delta that is delivered in any pieces and accepted is a file which has exactly
    one division into windows; the calls append the target, and they resize a
    string of any size and capacity at most once per target window. *)
Theorem C52_one_resize_per_window : forall d dict chunks out, idle_plain d -> bytes_ok dict -> Forall bytes_ok chunks ->
  decode_stream d dict chunks = Some (true, out) ->
  appended (stream_calls d dict chunks) = out /\
  exists parts, concat parts = out /\
    (forall parts', vcd_file_parts (tol true) (tol true) (target_allowed d) (admits d) dict (concat chunks) parts' <-> parts' = parts) /\
    forall size cap n, 0 <= size <= cap -> resized size cap (stream_calls d dict chunks) n -> n <= zlen parts.
Proof.
  intros d dict chunks out IP BD F H. destruct (stream_within d dict chunks out IP BD F H) as (Ts & FP & CT & AP & WI).
  split; [exact AP|]. exists Ts. split; [exact CT|]. split.
  - intros parts'. split; [intros P; symmetry; eapply file_parts_unique; eauto|intros ->; exact FP].
  - intros size cap n SC RZ. pose proof (resized_bound _ _ _ _ _ RZ SC WI) as B.
    rewrite zlen_ends in B. exact B.
Qed.
Print Assumptions C52_one_resize_per_window.

(** Before the end of the data: at most once per complete window and once for the
    window that is being decoded. *)
Theorem C52_unfinished : forall d dict chunks d' out, idle_plain d -> bytes_ok dict -> Forall bytes_ok chunks ->
  decode_chunks (start_decoding d dict) chunks [] = Some (d', true, out) ->
  appended (stream_calls d dict chunks) = out /\
  ((forall size cap n, 0 <= size <= cap -> resized size cap (stream_calls d dict chunks) n -> n = 0) \/
   exists h v tbl ns ss ws z parts, concat chunks = h ++ ws ++ z /\ head (tol true) (tol true) h v tbl ns ss /\
    windows_parts (tol true) (tol true) (file_format v tbl ns ss (target_allowed d)) dict (admits d) [] ws parts /\
    forall size cap n, 0 <= size <= cap -> resized size cap (stream_calls d dict chunks) n -> n <= zlen parts + 1).
Proof. exact chunks_prefix_within. Qed.
Print Assumptions C52_unfinished.

(** Two interleaved windows of two ADDs each, in four pieces.  The first half of
    each window reserves space for all of it, and the string is resized twice. *)
Definition c52_delta : list Z := [214;195;196;83;0] ++ [0;11;4;0;0;6;0;3;65;66;3;67;68] ++ [0;11;4;0;0;6;0;3;69;70;3;71;72].
Definition c52_pieces : list (list Z) := [ztake 15 c52_delta; ztake 3 (zdrop 15 c52_delta); ztake 10 (zdrop 18 c52_delta); zdrop 28 c52_delta].
Example C52_case : concat c52_pieces = c52_delta /\ Forall bytes_ok c52_pieces /\
  decode_stream new_decoder [] c52_pieces = Some (true, [65;66;67;68;69;70;71;72]) /\
  stream_calls new_decoder [] c52_pieces = [Reserve 4; Append [65;66]; Append [67;68]; Reserve 4; Append [69;70]; Append [71;72]] /\
  resized 0 0 (stream_calls new_decoder [] c52_pieces) 2.
Proof.
  split; [reflexivity|]. split; [unfold c52_pieces; repeat apply Forall_cons; try apply Forall_nil; apply bytes_okb_ok; reflexivity|]. split; [vm_compute; reflexivity|].
  assert (stream_calls new_decoder [] c52_pieces = [Reserve 4; Append [65;66]; Append [67;68]; Reserve 4; Append [69;70]; Append [71;72]]) as -> by (vm_compute; reflexivity).
  split; [reflexivity|].
  change 2 with (1 + (1 + 0)). eapply (rz_reserve_grows 0 0 4 _ _ 4); [reflexivity|discriminate|].
  apply rz_append_fits; [discriminate|]. apply rz_append_fits; [discriminate|].
  eapply (rz_reserve_grows _ _ 4 _ _ 8); [reflexivity|discriminate|].
  apply rz_append_fits; [discriminate|]. apply rz_append_fits; [discriminate|]. constructor.
Qed.

(** Without ReserveAdditionalBytes the same pieces would resize four times. *)
Example C52_without_reserve : resized 0 0 [Append [65;66]; Append [67;68]; Append [69;70]; Append [71;72]] 4.
Proof.
  change 4 with (1 + (1 + (1 + (1 + 0)))).
  apply (rz_append_grows 0 0 _ _ _ 2); [reflexivity|discriminate|]. apply (rz_append_grows _ _ _ _ _ 4); [reflexivity|discriminate|].
  apply (rz_append_grows _ _ _ _ _ 6); [reflexivity|discriminate|]. apply (rz_append_grows _ _ _ _ _ 8); [reflexivity|discriminate|]. constructor.
Qed.

(** ** C53 *)

(** SetMaximumTargetWindowSize accepts exactly the sizes up to INT32_MAX.  If it
    refuses, nothing changes; otherwise no accepted delta has a longer window. *)
Theorem C53_window_limit : forall d n, idle_plain d -> 0 <= n <= size_max ->
  (snd (set_maximum_target_window_size d n) = true <-> n <= 2147483647) /\
  (snd (set_maximum_target_window_size d n) = false -> fst (set_maximum_target_window_size d n) = d) /\
  (snd (set_maximum_target_window_size d n) = true -> forall dict chunks out t tl allow ok parts,
    bytes_ok dict -> Forall bytes_ok chunks ->
    decode_stream (fst (set_maximum_target_window_size d n)) dict chunks = Some (true, out) ->
    vcd_file_parts t tl allow ok dict (concat chunks) parts -> Forall (fun T => zlen T <= n) parts).
Proof.
  intros d n IP N. pose proof (ip_max_window d n IP N) as IP'. destruct d as [c nd]. unfold set_maximum_target_window_size in *. unfold kTargetSizeLimit, int32_max in *.
  destruct (Z.ltb_spec 2147483647 n) as [L|L]; cbn [fst snd] in *.
  - split; [split; [discriminate|lia]|]. split; [reflexivity|discriminate].
  - split; [split; auto|]. split; [discriminate|]. intros _ dict chunks out t tl allow ok parts BD F H FP.
    destruct (stream_within _ dict chunks out IP' BD F H) as (Ts & FP' & _).
    rewrite (file_parts_unique _ _ _ _ _ _ _ _ _ _ _ _ FP FP'). eapply file_parts_ok; [exact FP'|].
    intros p T [W _]. exact W.
Qed.
Print Assumptions C53_window_limit.

(** SetMaximumTargetFileSize accepts sizes up to INT32_MAX, and then no accepted delta
    produces more.  Missing: larger sizes should be refused. *)
Theorem C53_file_limit_partial : forall d n dict chunks out, idle_plain d -> 0 <= n <= 2147483647 ->
  bytes_ok dict -> Forall bytes_ok chunks ->
  snd (set_maximum_target_file_size d n) = true /\
  (decode_stream (fst (set_maximum_target_file_size d n)) dict chunks = Some (true, out) -> zlen out <= n) /\
  (n = 0 -> decode_stream (fst (set_maximum_target_file_size d n)) dict chunks = Some (true, out) -> out = []).
Proof.
  intros d n dict chunks out IP N BD F.
  assert (0 <= n <= size_max) as N' by (unfold size_max; lia).
  assert (decode_stream (fst (set_maximum_target_file_size d n)) dict chunks = Some (true, out) -> zlen out <= n) as L.
  { intros H. destruct (stream_within _ dict chunks out (ip_max_file d n IP N') BD F H) as (Ts & FP & CT & _).
    destruct (file_parts_total _ _ _ _ _ _ _ FP) as [->|(p & T & E & K)]; [cbn in CT; rewrite <- CT, zlen_nil; lia|].
    rewrite <- CT, E. destruct d as [c nd]. destruct K as [_ K]. cbn in K. rewrite zlen_app. lia. }
  split; [destruct d; reflexivity|]. split; [exact L|]. intros -> H. specialize (L H).
  destruct out as [|b out]; [reflexivity|]. rewrite zlen_cons in L. pose proof (zlen_nonneg _ out). lia.
Qed.
Print Assumptions C53_file_limit_partial.

(** The documentation says that a size above INT32_MAX is refused and the limit
    stays; in fact it is accepted and replaces the limit. *)
Theorem C53_file_limit_refuted : exists d n delta out, idle_plain d /\ 2147483647 < n <= size_max /\ bytes_ok delta /\
  decode_stream d [] [delta] = Some (false, []) /\
  snd (set_maximum_target_file_size d n) = true /\
  decode_stream (fst (set_maximum_target_file_size d n)) [] [delta] = Some (true, out) /\ out <> [].
Proof.
  exists (fst (set_maximum_target_file_size new_decoder 3)), 4294967296, [214;195;196;0;0; 0;10;4;0;4;1;0;65;66;67;68;5], [65;66;67;68].
  split; [apply ip_max_file; [apply ip_new|unfold size_max; lia]|]. split; [unfold size_max; lia|].
  split; [apply bytes_okb_ok; reflexivity|]. split; [vm_compute; reflexivity|]. split; [reflexivity|]. split; [vm_compute; reflexivity|discriminate].
Qed.
Print Assumptions C53_file_limit_refuted.

Example C53_case : snd (set_maximum_target_window_size new_decoder 4) = true /\ snd (set_maximum_target_window_size new_decoder 2147483648) = false /\
  decode_stream (fst (set_maximum_target_window_size new_decoder 4)) [] c52_pieces = Some (true, [65;66;67;68;69;70;71;72]) /\
  decode_stream (fst (set_maximum_target_window_size new_decoder 3)) [] c52_pieces = Some (false, []) /\
  decode_stream (fst (set_maximum_target_file_size new_decoder 8)) [] c52_pieces = Some (true, [65;66;67;68;69;70;71;72]) /\
  decode_stream (fst (set_maximum_target_file_size new_decoder 7)) [] c52_pieces = Some (false, [65;66;67;68]).
Proof. repeat split; vm_compute; reflexivity. Qed.
