(** Properties of the streaming decoder: C06-C12, C14, C32, C35, C36. *)

From Verif Require Import Base Spec Varint AddrCache CodeTable InstructionMap DecodeTable HeaderParser Adler Decoder
  FileHeader Sim Stream Session Calls Reuse.
From Coq Require Import ZifyBool ZifyNat.

(** Examples of data. *)
Definition ex_dict : list Z := [104;101;108;108;111].

(** A delta for the dictionary "hello": COPY of 5 bytes at address 0, ADD "!". *)
Definition hello_delta : list Z := [214;195;196;0;0; 1;5;0; 9;6;0;1;2;1; 33; 21;2; 0].
Example hello_decodes : decode_stream new_decoder ex_dict [hello_delta] = Some (true, [104;101;108;108;111;33]).
Proof. vm_compute. reflexivity. Qed.

Definition hello_checks : idle new_decoder /\ bytes_ok ex_dict /\ bytes_ok hello_delta /\ ~ bad_cache hello_delta /\ ~ s_version hello_delta.
Proof.
  split; [constructor|]. split; [apply bytes_okb_ok; reflexivity|]. split; [apply bytes_okb_ok; reflexivity|].
  split; intros H; inversion H; subst; discriminate.
Qed.

(** ** C06 *)

(** If one DecodeChunk call on the whole delta succeeds, then so do the calls on
    the pieces of any splitting: same output, same FinishDecoding. *)
Theorem C06_split_keeps_success : forall d dict chunks d1 out,
  idle d -> bytes_ok dict -> Forall bytes_ok chunks ->
  decode_chunks (start_decoding d dict) [concat chunks] [] = Some (d1, true, out) ->
  exists d2,
    decode_chunks (start_decoding d dict) chunks [] = Some (d2, true, out) /\
    snd (finish_decoding d2) = snd (finish_decoding d1).
Proof. exact split_success. Qed.
Print Assumptions C06_split_keeps_success.

Example C06_case : 
  let chunks := [ztake 2 hello_delta; []; ztake 9 (zdrop 2 hello_delta); zdrop 11 hello_delta] in
  concat chunks = hello_delta /\
  exists d1 d2, decode_chunks (start_decoding new_decoder ex_dict) [hello_delta] [] = Some (d1, true, [104;101;108;108;111;33]) /\
  decode_chunks (start_decoding new_decoder ex_dict) chunks [] = Some (d2, true, [104;101;108;108;111;33]).
Proof. split; [reflexivity|]. eexists _, _. split; vm_compute; reflexivity. Qed.

(** ** C07 *)

(** Without the SDCH version byte the result does not depend on the splitting. *)
Theorem C07_standard_split_independent_partial : forall d dict chunks1 chunks2,
  idle d -> bytes_ok dict -> Forall bytes_ok chunks1 -> Forall bytes_ok chunks2 ->
  concat chunks1 = concat chunks2 -> ~ s_version (concat chunks1) ->
  match decode_stream d dict chunks1, decode_stream d dict chunks2 with
  | Some (ok1, out1), Some (ok2, out2) => ok1 = ok2 /\ (ok1 = true -> out1 = out2)
  | None, None => True
  | _, _ => False
  end.
Proof. exact split_independent. Qed.
Print Assumptions C07_standard_split_independent_partial.

(** In particular for files with the default code table. *)
Theorem C07_default_table_split_independent : forall d dict chunks1 chunks2,
  idle d -> bytes_ok dict -> Forall bytes_ok chunks1 -> Forall bytes_ok chunks2 -> concat chunks1 = concat chunks2 ->
  (forall v ind tl, concat chunks1 = file_header v ind ++ tl -> v = 0 /\ Z.testbit ind 1 = false) ->
  exists ok out1 out2,
    decode_stream d dict chunks1 = Some (ok, out1) /\ decode_stream d dict chunks2 = Some (ok, out2) /\
    (ok = true -> out1 = out2).
Proof.
  intros d dict chunks1 chunks2 ID BD F1 F2 E H.
  assert (~ s_version (concat chunks1)) as NS.
  { intros Q. inversion Q as [ind x E1|v ind p q ns ss x B VP VQ Q' E1].
    - destruct (H 83 ind x) as [X _]; [symmetry; exact E1|discriminate].
    - destruct (H v ind (p ++ q ++ x)) as [_ X]; [symmetry; exact E1|congruence]. }
  assert (forall chunks, concat chunks = concat chunks1 -> Forall bytes_ok chunks -> exists ok out, decode_stream d dict chunks = Some (ok, out)) as T.
  { intros chunks EC FC. destruct (decode_total d dict chunks ID BD FC) as (d' & ok & out & EO).
    - rewrite EC. intros Q. inversion Q as [v ind p q x B VP VQ E1|v ind p q ns ss x B VP VQ Q' E1].
      + destruct (H v ind (p ++ q ++ x)) as [_ X]; [symmetry; exact E1|congruence].
      + destruct (H v ind (p ++ q ++ x)) as [_ X]; [symmetry; exact E1|congruence].
    - unfold decode_stream. rewrite EO. destruct ok; eauto. }
  destruct (T chunks1 eq_refl F1) as (ok1 & o1 & E1). destruct (T chunks2 (eq_sym E) F2) as (ok2 & o2 & E2).
  pose proof (split_independent d dict chunks1 chunks2 ID BD F1 F2 E NS) as S. rewrite E1, E2 in S. destruct S as [<- S].
  exists ok1, o1, o2. auto.
Qed.
Print Assumptions C07_default_table_split_independent.

(** A rejected delta: the COPY address is out of range. *)
Example C07_case :
  let bad := [214;195;196;0;0; 1;5;0; 9;6;0;1;2;1; 33; 21;2; 9] in
  ~ s_version bad /\ decode_stream new_decoder ex_dict [bad] = Some (false, []) /\
  decode_stream new_decoder ex_dict (map (fun b => [b]) bad) = Some (false, []).
Proof. split; [intros H; inversion H; subst; discriminate|]. split; vm_compute; reflexivity. Qed.

(** The hypothesis about the version byte concerns nested code table files too:
    here the outer file is version 0 and its code table is given by a version
    'S' file. *)
Definition nested_s : list Z :=
  [214;195;196;0;2;4;3] ++ [214;195;196;83;0] ++ [1;140;0;0;19;140;0;0;0;13;0;19;140;0;0] ++ [0;7;1;0;1;1;0;65;2].
Theorem C07_nested_refuted : exists delta pieces,
  nth 3 delta 0 = 0 /\ concat pieces = delta /\
  decode_stream new_decoder [] [delta] = Some (false, []) /\
  decode_stream new_decoder [] pieces = Some (true, [65]).
Proof.
  exists nested_s, [ztake 27 nested_s; zdrop 27 nested_s]. split; [reflexivity|]. split; [reflexivity|].
  split; vm_compute; reflexivity.
Qed.
Print Assumptions C07_nested_refuted.

(** ** C08 *)

(** Two windows, the first of which declares a length that includes the second. *)
Definition s_delta : list Z := [214;195;196;83;0] ++ [0;16;1;0;0;11;0;2;65] ++ [0;7;1;0;0;2;0;2;66].
Theorem C08_interleaved_split_refuted : exists delta pieces,
  concat pieces = delta /\
  decode_stream new_decoder [] [delta] = Some (false, []) /\
  decode_stream new_decoder [] pieces = Some (true, [65; 66]).
Proof.
  exists s_delta, [ztake 14 s_delta; zdrop 14 s_delta]. split; [reflexivity|]. split; vm_compute; reflexivity.
Qed.
Print Assumptions C08_interleaved_split_refuted.

(** What remains true in the SDCH format: splitting never turns acceptance into
    rejection, and never changes the output of an accepted delta. *)
Theorem C08_interleaved_split_partial : forall d dict chunks out,
  idle d -> bytes_ok dict -> Forall bytes_ok chunks ->
  decode_stream d dict [concat chunks] = Some (true, out) -> decode_stream d dict chunks = Some (true, out).
Proof.
  intros d dict chunks out ID BD F H. unfold decode_stream in H.
  destruct (decode_chunks (start_decoding d dict) [concat chunks] []) as [[[d1 [|]] o]|] eqn:E; try discriminate.
  injection H as H <-. destruct (split_success d dict chunks d1 o ID BD F E) as (d2 & E2 & FD).
  unfold decode_stream. rewrite E2, FD, H. reflexivity.
Qed.
Print Assumptions C08_interleaved_split_partial.

(** ** C09 *)

(** In the model every access outside the dictionary, the data, the target or the
    cache arrays, every use of a target pointer after reallocation, and running out of the
    model's fuel makes [decode_chunks] return [None].  No input leads there,
    unless it declares the cache sizes 254 and 0.  (The one signed overflow in
    address arithmetic wraps in the model; it is C20_near_sum_overflow_refuted.) *)
Theorem C09_decoding_is_safe_partial : forall d dict chunks,
  idle d -> bytes_ok dict -> Forall bytes_ok chunks -> ~ bad_cache (concat chunks) ->
  exists d' ok out, decode_chunks (start_decoding d dict) chunks [] = Some (d', ok, out).
Proof.
  intros d dict chunks ID BD F NB. exact (decode_total d dict chunks ID BD F NB).
Qed.
Print Assumptions C09_decoding_is_safe_partial.

Example C09_case : decode_stream new_decoder [1;2;3] [[214;195;196;0;0;1;255;255;255;255;127]; [7;7;7]] = Some (false, []).
Proof. vm_compute. reflexivity. Qed.

(** A delta with a custom code table and cache sizes 254 and 0. *)
Definition cache_254 : list Z :=
  [214;195;196;0;2;129;126;0] ++ [214;195;196;0;0] ++ [1;140;0;0;10;140;0;0;0;3;1;19;140;0;0]
  ++ [1;4;0;7;4;0;0;1;1;20;0].
Theorem C09_cache_254_refuted : exists dict delta,
  bytes_ok dict /\ bytes_ok delta /\ decode_chunk (start_decoding new_decoder dict) delta = CUB.
Proof.
  exists [1;2;3;4], cache_254. split; [apply bytes_okb_ok; reflexivity|]. split; [apply bytes_okb_ok; reflexivity|].
  vm_compute. reflexivity.
Qed.
Print Assumptions C09_cache_254_refuted.
Example cache_254_bad : bad_cache cache_254.
Proof.
  apply (bad_here 0 2 [129;126] [0]); [reflexivity| |].
  - split; [|reflexivity]. exists [129], 126. split; [reflexivity|]. split; [repeat constructor; lia|lia].
  - split; [|reflexivity]. exists [], 0. split; [reflexivity|]. split; [constructor|lia].
Qed.

(** ** C10, first half (the limit for windows is part of C04) *)

(** The total output never exceeds the maximum target file size, whether the
    calls succeed or not. *)
Theorem C10_total_limit : forall c n dict chunks d' ok out,
  idle (Dec c n) -> bytes_ok dict -> Forall bytes_ok chunks ->
  decode_chunks (start_decoding (Dec c n) dict) chunks [] = Some (d', ok, out) ->
  zlen out <= d_max_file c.
Proof.
  intros c n dict chunks d' ok out ID BD F H. exact (decode_limit _ dict chunks d' ok out ID BD F H).
Qed.
Print Assumptions C10_total_limit.

Example C10_case : 
  decode_stream (fst (set_maximum_target_file_size new_decoder 6)) ex_dict [hello_delta] = Some (true, [104;101;108;108;111;33]) /\
  decode_stream (fst (set_maximum_target_file_size new_decoder 5)) ex_dict [hello_delta] = Some (false, []).
Proof. split; vm_compute; reflexivity. Qed.

(** ** C11 *)

(** When a delta X ++ Y is accepted by a call on the whole of it, then after
    delivering X in any way the output is a prefix of the target that does
    not depend on how X was split. *)
Theorem C11_prefix_output : forall d dict X Y T d1,
  idle d -> bytes_ok dict -> bytes_ok (X ++ Y) ->
  decode_chunks (start_decoding d dict) [X ++ Y] [] = Some (d1, true, T) ->
  exists out tail, T = out ++ tail /\
    forall chunks, Forall bytes_ok chunks -> concat chunks = X ->
    exists d', decode_chunks (start_decoding d dict) chunks [] = Some (d', true, out).
Proof. exact prefix_output. Qed.
Print Assumptions C11_prefix_output.

(** Output is only appended, whatever the data and the splitting. *)
Theorem C11_append_only : forall d chunks more out d' ok out',
  decode_chunks d (chunks ++ more) out = Some (d', ok, out') ->
  exists d1 ok1 out1, decode_chunks d chunks out = Some (d1, ok1, out1) /\ exists tail, out' = out1 ++ tail.
Proof.
  intros d chunks more out d' ok out' H. rewrite decode_chunks_app in H.
  destruct (decode_chunks d chunks out) as [[[d1 [|]] out1]|] eqn:E; try discriminate.
  - exists d1, true, out1. split; [reflexivity|]. eapply decode_chunks_out; eauto.
  - injection H as <- <- <-. exists d1, false, out1. split; [reflexivity|]. exists []. rewrite app_nil_r. reflexivity.
Qed.
Print Assumptions C11_append_only.

(** Two windows "AB" and "CD" delivered up to the middle of the second one. *)
Example C11_case :
  let X := [214;195;196;0;0; 0;8;2;0;2;1;0;65;66;3; 0;8;2] in
  let Y := [0;2;1;0;67;68;3] in
  exists d1 d2, decode_chunks (start_decoding new_decoder []) [X ++ Y] [] = Some (d1, true, [65;66;67;68]) /\
  decode_chunks (start_decoding new_decoder []) [X] [] = Some (d2, true, [65;66]).
Proof. eexists _, _. split; vm_compute; reflexivity. Qed.

(** ** C12 *)

(** After DecodeChunk has returned false, all further DecodeChunk and
    FinishDecoding calls return false and output nothing. *)
Theorem C12_errors_are_sticky : forall d data d' o calls,
  decode_chunk d data = CRet d' false o ->
  do_calls d' calls = Some (map (fun _ => (false, [])) calls).
Proof.
  intros d data d' o calls H. apply unstarted_calls. eapply decode_chunk_fuel_false. exact H.
Qed.
Print Assumptions C12_errors_are_sticky.

(** The same before StartDecoding and after FinishDecoding. *)
Theorem C12_not_started : forall d calls,
  d = new_decoder \/ (exists d0, d = fst (finish_decoding d0)) ->
  do_calls d calls = Some (map (fun _ => (false, [])) calls).
Proof.
  intros d calls [->|[[c n] ->]]; apply unstarted_calls; reflexivity.
Qed.
Print Assumptions C12_not_started.

Example C12_case : exists d', decode_chunk (start_decoding new_decoder []) [214;195;0] = CRet d' false [] /\
  do_calls d' [CallChunk [214;195;196;0;0]; CallFinish; CallChunk []] = Some [(false, []); (false, []); (false, [])] /\
  do_calls (start_decoding d' []) [CallChunk [214;195;196;0;0]; CallFinish] = Some [(true, []); (true, [])].
Proof. eexists. split; [vm_compute; reflexivity|]. split; vm_compute; reflexivity. Qed.

(** ** C14 *)

(** As long as no custom code table has been announced to it, a used decoder
    behaves as a new one with the same settings. *)
Theorem C14_reuse_partial : forall d dict chunks,
  idle_plain d -> decode_stream d dict chunks = decode_stream (fresh_like d) dict chunks.
Proof. intros d dict chunks H. apply idle_plain_idle in H as [I T]. apply reuse_default_table; auto. Qed.
Print Assumptions C14_reuse_partial.

(** The decoder [d] after a decoding. *)
Definition used (d : dec) (dict : list Z) (chunks : list (list Z)) : dec :=
  match decode_chunks (start_decoding d dict) chunks [] with
  | Some (d', _, _) => fst (finish_decoding d')
  | None => d
  end.

(** First a decoding that ends in an incomplete window header, then one that
    fails. *)
Example C14_case :
  let d := used (used new_decoder [] [[214;195;196;0;0;0;9;9]]) ex_dict [[214;195;196;0]; [0;1;5;9;9]] in
  idle_plain d /\ decode_stream d ex_dict [hello_delta] = Some (true, [104;101;108;108;111;33]).
Proof.
  assert (forall d dict x tl, idle_plain d -> bytes_ok dict -> Forall bytes_ok (x :: tl) -> no_code_table (concat (x :: tl)) ->
    idle_plain (used d dict (x :: tl))) as U.
  { intros d dict x tl H BD F P. unfold used.
    destruct (decode_chunks (start_decoding d dict) (x :: tl) []) as [[[d' ok] o]|] eqn:E; [|exact H].
    eapply ip_decoded; eauto. }
  cbv zeta. split.
  - apply U; [apply U; [constructor|constructor| |]|apply bytes_okb_ok; reflexivity| |].
    + repeat constructor; unfold byte_ok; lia.
    + intros v ind tl X. injection X as <- <- <-. reflexivity.
    + repeat constructor; unfold byte_ok; lia.
    + intros v ind tl X. injection X as <- <- <-. reflexivity.
  - vm_compute. reflexivity.
Qed.

(** Missing above: decodings after a custom code table, for which the property is
    false.  The following delta has a code table that swaps the opcodes 2 and 3
    (ADD of size 1, ADD of size 2), and no window. *)
Definition swap_delta : list Z :=
  [214;195;196;0;2;4;3] ++ [214;195;196;0;0] ++
  [1;140;0;0; 18; 140;0; 0; 2;7;3; 2;1; 19;132;2;3;19;135;124; 0;132;4].
Definition ab_delta : list Z := [214;195;196;0;0; 0;8;2;0;2;1;0;65;66;3].
Theorem C14_stale_code_table_refuted : exists dict first second out,
  decode_stream new_decoder dict [first] = Some (true, []) /\
  decode_stream new_decoder dict [second] = Some (true, out) /\
  decode_stream (used new_decoder dict [first]) dict [second] = Some (false, []).
Proof.
  exists [], swap_delta, ab_delta, [65;66]. split; [vm_compute; reflexivity|]. split; vm_compute; reflexivity.
Qed.
Print Assumptions C14_stale_code_table_refuted.

(** ** C32 *)

(** If one of the first four bytes received is not that of a VCDIFF file, the
    calls up to the one that delivers it do not all return true, and nothing is
    output. *)
Theorem C32_wrong_magic_rejected : forall d dict chunks i b,
  idle d -> get (concat chunks) i = Some b ->
  (i = 0 /\ b <> 214) \/ (i = 1 /\ b <> 195) \/ (i = 2 /\ b <> 196) \/ (i = 3 /\ b <> 0 /\ b <> 83) ->
  exists d', decode_chunks (start_decoding d dict) chunks [] = Some (d', false, []).
Proof.
  intros d dict chunks i b ID G W. pose proof (idle_start d dict ID) as ST. destruct d as [c n]. rewrite ST.
  destruct (wrong_magic_stream chunks (start_core c dict) None [] i b) as (d' & E & _); auto; try discriminate. eauto.
Qed.
Print Assumptions C32_wrong_magic_rejected.

(** Conversely the first four bytes of a file are accepted, however split. *)
Theorem C32_right_magic_accepted : forall d dict chunks v,
  idle d -> v = 0 \/ v = 83 -> (exists tl, [214;195;196;v] = concat chunks ++ tl) ->
  exists d', decode_chunks (start_decoding d dict) chunks [] = Some (d', true, []).
Proof.
  intros d dict chunks v ID V P. pose proof (idle_start d dict ID) as ST. destruct d as [c n]. rewrite ST.
  apply (right_magic_stream v V); auto.
Qed.
Print Assumptions C32_right_magic_accepted.

Example C32_case : exists d', decode_chunks (start_decoding new_decoder []) [[214;195]; [196]; [1]] [] = Some (d', false, []).
Proof. eexists. vm_compute. reflexivity. Qed.

(** ** C35 *)

(** There is no bound on the nesting: 7 n bytes are enough for n + 1 decoders. *)
Theorem C35_nesting_refuted : forall n, exists data d,
  length data = (7 * n)%nat /\ decode_chunk (start_decoding new_decoder []) data = CRet d true [] /\ depth d = S n.
Proof.
  intros n. destruct (nesting_unbounded n) as (d & E & D). exists (table_headers n), d.
  split; [apply table_headers_length|]. auto.
Qed.
Print Assumptions C35_nesting_refuted.

(** ** C36 *)

(** A change of the limit is effective if the new limit is at least
    [promised d1], the total size of the target windows begun so far. *)
Theorem C36_limit_change_partial : forall d dict chunks1 chunks2 d1 out1 n,
  idle d -> bytes_ok dict -> Forall bytes_ok chunks1 -> Forall bytes_ok chunks2 ->
  decode_chunks (start_decoding d dict) chunks1 [] = Some (d1, true, out1) ->
  0 <= n <= size_max -> promised d1 <= n ->
  match decode_chunks (fst (set_maximum_target_file_size d1 n)) chunks2 out1 with
  | Some (d2, ok, out2) => zlen out2 <= n
  | None => bad_cache (concat chunks1 ++ concat chunks2)
  end.
Proof. exact limit_change. Qed.
Print Assumptions C36_limit_change_partial.

(** Missing: smaller limits, for which it is false.  After 2 bytes of output the
    limit is set to 1; the next window, of 2 bytes, is still accepted. *)
Definition ab_window : list Z := [0;8;2;0;2;1;0;65;66;3].
Definition decode_with_limit (dict : list Z) (first : list (list Z)) (n : Z) (second : list (list Z)) : option (bool * list Z * list Z) :=
  match decode_chunks (start_decoding new_decoder dict) first [] with
  | Some (d1, true, out1) =>
      match decode_chunks (fst (set_maximum_target_file_size d1 n)) second out1 with
      | Some (_, ok, out2) => Some (ok, out1, out2)
      | None => None
      end
  | _ => None
  end.
Theorem C36_lower_limit_refuted : exists first second out1 out2 n,
  decode_with_limit [] first n second = Some (true, out1, out2) /\ n < zlen out1 < zlen out2.
Proof.
  exists [[214;195;196;0;0] ++ ab_window], [ab_window], [65;66], [65;66;65;66], 1. split; vm_compute; [reflexivity|split; reflexivity].
Qed.
Print Assumptions C36_lower_limit_refuted.

Example C36_case :
  match decode_chunks (start_decoding new_decoder []) [[214;195;196;0;0] ++ ab_window] [] with
  | Some (d1, true, _) => promised d1 = 2 | _ => False end /\
  decode_with_limit [] [[214;195;196;0;0] ++ ab_window] 3 [ab_window] = Some (false, [65;66], [65;66]) /\
  decode_with_limit [] [[214;195;196;0;0] ++ ab_window] 4 [ab_window] = Some (true, [65;66], [65;66;65;66]).
Proof. split; [vm_compute; reflexivity|]. split; vm_compute; reflexivity. Qed.
