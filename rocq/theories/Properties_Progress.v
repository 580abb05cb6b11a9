(** C71: the interleaved format is decoded as it comes in. *)

From Verif Require Import Base ListFacts Spec SpecParts SpecCut CodeTable Decoder WindowStep Usable
  Stream Session Reuse Unique Files Chunked Count Kept CutFacts Properties_Stream Properties_Decode.
From Coq Require Import ZifyBool ZifyNat.

(** ** C71

    A valid delta of the interleaved format: a head [h], complete windows [ws]
    that yield [out], and a window that is divided between two of its opcodes into
    [p] and [q] (SpecCut.v).  The decoder has been given everything up to the end
    of [p], in any pieces.  It has output all that the instructions in [p] yield,
    although it has not seen the rest of the window, and it retains no input. *)
Theorem C71_no_delay : forall t d dict h v tbl ns ss ws out p q T1 T chunks,
  idle_plain d -> bytes_ok dict -> t_slack t = false ->
  head t t h v tbl ns ss -> ns + ss + 1 <= 255 ->
  let f := file_format v tbl ns ss (target_allowed d) in
  windows t t f dict (admits d) [] ws out -> cut_window f dict out p q T1 T -> admits d out T ->
  bytes_ok (h ++ ws ++ p ++ q) -> ~ bad_cache (h ++ ws ++ p ++ q) -> sizes_fit dict (h ++ ws ++ p ++ q) (out ++ T) ->
  Forall bytes_ok chunks -> concat chunks = h ++ ws ++ p ->
  exists d', decode_chunks (start_decoding d dict) chunks [] = Some (d', true, out ++ T1) /\ retained d' = [].
Proof. exact live. Qed.
Print Assumptions C71_no_delay.

(** Between two places where the window can be divided: at least what the
    instructions before the first one yield, at most what those before the second
    one yield. *)
Theorem C71_between : forall t d dict h v tbl ns ss ws out p x y q T1 T2 T chunks,
  idle_plain d -> bytes_ok dict -> t_slack t = false ->
  head t t h v tbl ns ss -> ns + ss + 1 <= 255 ->
  let f := file_format v tbl ns ss (target_allowed d) in
  windows t t f dict (admits d) [] ws out ->
  cut_window f dict out p (x ++ y ++ q) T1 T -> cut_window f dict out (p ++ x ++ y) q T2 T -> admits d out T ->
  bytes_ok (h ++ ws ++ p ++ x ++ y ++ q) -> ~ bad_cache (h ++ ws ++ p ++ x ++ y ++ q) ->
  sizes_fit dict (h ++ ws ++ p ++ x ++ y ++ q) (out ++ T) ->
  Forall bytes_ok chunks -> concat chunks = h ++ ws ++ p ++ x ->
  exists d' m m', decode_chunks (start_decoding d dict) chunks [] = Some (d', true, out ++ T1 ++ m) /\ T2 = T1 ++ m ++ m'.
Proof.
  intros t d dict h v tbl ns ss ws out p x y q T1 T2 T chunks IP BD SL HD MF f WS CU1 CU2 AD BX NB SZ FC EQ.
  pose proof (idle_plain_idle d IP) as [ID _].
  assert (bytes_ok (h ++ ws ++ p ++ x ++ y)) as BXY.
  { rewrite !app_assoc in BX. apply bytes_ok_app in BX as [BX _]. rewrite !app_assoc. exact BX. }
  assert (bytes_ok (h ++ ws ++ p ++ x) /\ bytes_ok y) as [BXX BY].
  { rewrite !app_assoc in BXY. apply bytes_ok_app in BXY. rewrite !app_assoc. exact BXY. }
  assert (bytes_ok (h ++ ws ++ p)) as BP.
  { rewrite !app_assoc in BXX. apply bytes_ok_app in BXX. rewrite app_assoc. tauto. }
  assert (exists d1, decode_chunks (start_decoding d dict) [h ++ ws ++ p ++ x ++ y] [] = Some (d1, true, out ++ T2)) as (d1 & D1).
  { destruct (live t d dict h v tbl ns ss ws out (p ++ x ++ y) q T2 T [h ++ ws ++ p ++ x ++ y]) as (d1 & D1 & _); auto; rewrite <- ?app_assoc; auto.
    - cbn [concat]. rewrite app_nil_r. reflexivity.
    - exists d1. exact D1. }
  destruct (prefix_output d dict (h ++ ws ++ p ++ x) y (out ++ T2) d1 ID BD) as (o & tl & E1 & P1); rewrite <- ?app_assoc; auto.
  destruct (P1 [h ++ ws ++ p ++ x]) as (d2 & D2); [constructor; auto|cbn [concat]; rewrite app_nil_r; reflexivity|].
  destruct (prefix_output d dict (h ++ ws ++ p) x o d2 ID BD) as (o1 & tl1 & E2 & P2); rewrite <- ?app_assoc; auto.
  destruct (P2 [h ++ ws ++ p]) as (d3 & D3); [constructor; auto|cbn [concat]; rewrite app_nil_r; reflexivity|].
  destruct (live t d dict h v tbl ns ss ws out p (x ++ y ++ q) T1 T [h ++ ws ++ p]) as (d4 & D4 & _); auto.
  { cbn [concat]. rewrite app_nil_r. reflexivity. }
  assert (o1 = out ++ T1) as -> by congruence.
  destruct (P1 chunks FC EQ) as (d5 & D5). exists d5, tl1, tl. subst o. rewrite <- app_assoc in D5. split; [exact D5|].
  rewrite <- !app_assoc in E1. apply app_inv_head in E1. exact E1.
Qed.
Print Assumptions C71_between.

(** A divided window is a window of the format. *)
Theorem C71_cut_is_window : forall f dict prev p q T1 T, cut_window f dict prev p q T1 T ->
  Spec.window strict f dict prev (p ++ q) T /\ exists T2, T = T1 ++ T2.
Proof.
  intros f dict prev p q T1 T H. split; [eapply cut_is_window; eauto|].
  destruct H as [ind sb seg bd dl bt di bnd bni ni bna bcks done todo h1 T1 hist T FE BI SG VD VT BDI DI VND VNI VNA CF NI DL M1 M2].
  apply items_mean_prefix in M2. exact M2.
Qed.
Print Assumptions C71_cut_is_window.

(** "abc" of "abcdef": two ADD instructions. *)
Lemma C71_case_cut : forall dict, cut_window (file_format 83 rfc_table 4 3 true) dict []
  [0;13;6;0;0;8;0;4;97;98;99] [4;100;101;102] [97;98;99] [97;98;99;100;101;102].
Proof.
  intros dict.
  pose (i1 := {| i_op := 4; i_first := {| p_size := []; p_data := [97;98;99]; p_addr := [] |}; i_second := no_piece |}).
  pose (i2 := {| i_op := 4; i_first := {| p_size := []; p_data := [100;101;102]; p_addr := [] |}; i_second := no_piece |}).
  assert (forall L d hist T, zlen T < L -> zlen d = 3 ->
    half_means 4 3 L [] (fst (rfc_table 4)) {| p_size := []; p_data := d; p_addr := [] |} (hist, T) (hist, T ++ d)) as HM.
  { intros L d hist T LT E. replace (fst (rfc_table 4)) with (HAdd 3) by (vm_compute; reflexivity).
    apply (hm_add 4 3 L [] 3 [] 3 d hist T LT); [|exact E]. left. split; [lia|]. auto. }
  assert (forall L s, half_means 4 3 L [] (snd (rfc_table 4)) no_piece s s) as HN.
  { intros L s. replace (snd (rfc_table 4)) with HNoop by (vm_compute; reflexivity). constructor. }
  apply (cut_window_intro (file_format 83 rfc_table 4 3 true) dict [] 0 [] [] [13] 13 [6] 0 [0] [8] 8 [0] [] [i1] [i2] [] [97;98;99] [] [97;98;99;100;101;102]);
    try reflexivity; try (unfold byte_ok; lia); try (apply v1; lia).
  - constructor; reflexivity.
  - apply (v1 6). lia.
  - apply (im_cons false rfc_table 4 3 6 [] i1 [] ([], []) ([], [97;98;99]) ([], [97;98;99])); [unfold byte_ok; cbn; lia|vm_compute; reflexivity| |apply HN|constructor].
    apply (HM 6 [97;98;99] [] []); vm_compute; reflexivity.
  - apply (im_cons false rfc_table 4 3 6 [] i2 [] ([], [97;98;99]) ([], [97;98;99;100;101;102]) ([], [97;98;99;100;101;102])); [unfold byte_ok; cbn; lia|vm_compute; reflexivity| |apply HN|constructor].
    apply (HM 6 [100;101;102] [] [97;98;99]); vm_compute; reflexivity.
Qed.

Example C71_case : let p := [0;13;6;0;0;8;0;4;97;98;99] in let q := [4;100;101;102] in let T := [97;98;99;100;101;102] in
  idle_plain new_decoder /\ head strict strict (file_header 83 0) 83 rfc_table 4 3 /\
  windows strict strict (file_format 83 rfc_table 4 3 (target_allowed new_decoder)) [] (admits new_decoder) [] [] [] /\
  cut_window (file_format 83 rfc_table 4 3 (target_allowed new_decoder)) [] [] p q [97;98;99] T /\ admits new_decoder [] T /\
  ~ bad_cache (file_header 83 0 ++ [] ++ p ++ q) /\ sizes_fit [] (file_header 83 0 ++ [] ++ p ++ q) ([] ++ T) /\
  exists d', decode_chunks (start_decoding new_decoder []) [file_header 83 0; [0;13;6;0;0]; [8;0;4;97]; [98;99]] [] = Some (d', true, [97;98;99]) /\
    retained d' = [].
Proof.
  cbv zeta. split; [apply ip_new|]. split; [constructor; auto; unfold byte_ok; lia|]. split; [constructor|].
  split; [apply C71_case_cut|]. split; [split; vm_compute; discriminate|].
  split; [apply no_code_table_bad; intros v ind tl E; unfold file_header in E; cbn [app] in E; injection E as <- <- _; reflexivity|]. split; [repeat split; vm_compute; discriminate|].
  eexists. vm_compute. auto.
Qed.
