(** C10 at any moment, also after a call has failed. *)

From Verif Require Import Base ListFacts Spec SpecParts SpecBegun CodeTable Decoder WindowStep Usable
  Stream Session Reuse Unique Files Chunked OutputCalls Count Kept Held FailedFacts Properties_Stream Properties_Decode.
From Coq Require Import ZifyBool ZifyNat.

(** Whatever the input is and however far it has been decoded: the output is cut into
    parts, one for each complete window and one for the window at hand, which
    declares a longer target within the limits.  No part is longer than the limit for
    windows, and all together not longer than the limit for the file. *)
Theorem C10_at_any_moment : forall d dict chunks d' ok out, idle_plain d -> bytes_ok dict -> Forall bytes_ok chunks ->
  decode_chunks (start_decoding d dict) chunks [] = Some (d', ok, out) ->
  zlen out <= max_file d /\
  exists parts, out = concat parts /\ Forall (fun T => zlen T <= max_window d) parts /\
    (parts = [] \/
     exists h v tbl ns ss ws z Ts m, concat chunks = h ++ ws ++ z /\ head lax lax h v tbl ns ss /\
       windows_parts lax lax (file_format v tbl ns ss (target_allowed d)) dict (admits d) [] ws Ts /\ parts = Ts ++ [m] /\
       (m = [] \/ exists w rest L, z = w ++ rest /\ begun_window (file_format v tbl ns ss (target_allowed d)) dict (concat Ts) w L m /\
          zlen m < L <= max_window d /\ zlen (concat Ts) + L <= max_file d)).
Proof.
  intros d dict chunks d' ok out IP BD F DC. split.
  { destruct d as [c n]. apply (C10_total_limit c n dict chunks d' ok out); auto. apply idle_plain_idle, IP. }
  assert (0 <= max_window d) as W0.
  { apply idle_max_window_nonneg, idle_plain_idle, IP. }
  destruct (chunks_accounted d dict chunks d' ok out IP BD F DC) as [->|(h & v & tbl & ns & ss & ws & z & Ts & m & E & HD & WS & EO & ALT)].
  { exists []. split; [reflexivity|]. split; [constructor|left; reflexivity]. }
  assert (m = [] \/ exists w rest L, z = w ++ rest /\ begun_window (file_format v tbl ns ss (target_allowed d)) dict (concat Ts) w L m /\
          zlen m < L <= max_window d /\ zlen (concat Ts) + L <= max_file d) as ALT'.
  { destruct ALT as [->|(w & rest & L & EZ & BW & H4)]; [left; reflexivity|right].
    exists w, rest, L. split; [exact EZ|]. split; [exact BW|]. pose proof (zlen_nonneg _ m) as M0.
    assert (zlen m < L) as H3 by (inversion BW; assumption).
    destruct (H4 (zrepeat 0 L)) as [A B]; [rewrite zlen_zrepeat; lia|]. rewrite zlen_zrepeat in A, B by lia. lia. }
  exists (Ts ++ [m]). split; [rewrite concat_app; cbn [concat]; rewrite app_nil_r; exact EO|]. split.
  - apply Forall_app. split.
    + eapply windows_parts_ok; [exact WS|]. intros p T [A _]. exact A.
    + constructor; [|constructor]. destruct ALT' as [->|(w & rest & L & _ & _ & A & _)]; [rewrite zlen_nil; exact W0|lia].
  - right. exists h, v, tbl, ns, ss, ws, z, Ts, m. auto 10.
Qed.
Print Assumptions C10_at_any_moment.

(** Limits of four bytes for a window and six for the file: a window of three bytes,
    and the first byte of the next one, which declares three bytes more.  With one byte
    less for the file its header is refused. *)
Example C10_moment_case : let delta := file_header 83 0 ++ [0;9;3;0;0;4;0;4;97;98;99] ++ [0;10;3;0;0;5;0;2;100] in
  let d n := fst (set_maximum_target_file_size (fst (set_maximum_target_window_size new_decoder 4)) n) in
  idle_plain (d 6) /\ max_window (d 6) = 4 /\ max_file (d 6) = 6 /\ bytes_ok delta /\
  (exists d', decode_chunks (start_decoding (d 6) []) [delta] [] = Some (d', true, [97;98;99;100])) /\
  (exists d', decode_chunks (start_decoding (d 5) []) [delta] [] = Some (d', false, [])).
Proof.
  cbv zeta. split; [apply ip_max_file; [apply ip_max_window; [apply ip_new|]|]; unfold size_max; lia|]. split; [reflexivity|]. split; [reflexivity|].
  split; [apply bytes_okb_ok; reflexivity|]. split; eexists; vm_compute; reflexivity.
Qed.
