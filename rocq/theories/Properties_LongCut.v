(** C13 for files longer than 2^31 bytes. *)

From Verif Require Import Base ListFacts Spec SpecLong SpecEncode CopyFacts Decoder Usable Stream Session Reuse Files LongStream LongCut
  EncoderFacts Properties_Stream Properties_Decode Properties_Encode Properties_Long.
From Coq Require Import ZifyBool ZifyNat.

(** A file is given up to any place, in any pieces ([q] is missing).  No call reports an
    error, and FinishDecoding reports one unless nothing was given or the cut is at the
    end of a window.  Only the sizes of the single windows are limited. *)
Theorem C13_long : forall t d dict h v tbl ns ss ws out chunks q,
  idle_plain d -> bytes_ok dict -> t_slack t = false ->
  head t t h v tbl ns ss -> modes_fit ns ss ws ->
  let f := file_format v tbl ns ss (target_allowed d) in
  let ok prev w T := window_sized dict (within (max_window d) (max_file d)) prev w T /\ target_segment_low w T in
  windows_each t t f dict ok [] ws out ->
  bytes_ok (h ++ ws) -> ~ bad_cache (h ++ ws) -> zlen h <= 2147483647 -> zlen dict <= 2147483647 ->
  Forall bytes_ok chunks -> h ++ ws = concat chunks ++ q ->
  exists d' o, decode_chunks (start_decoding d dict) chunks [] = Some (d', true, o) /\
    (snd (finish_decoding d') = true <->
     concat chunks = [] \/
     exists ws1, concat chunks = h ++ ws1 /\ windows_each t t f dict ok [] ws1 o /\
                 windows_each t t f dict ok o q out).
Proof. exact file_cut_long. Qed.
Print Assumptions C13_long.

(** The file of [C82_target_case]; the last three bytes are missing. *)
Lemma c82_all : forall k, Z.of_nat k <= 600000000 ->
  windows_each strict strict c82_f []
    (fun prev w T => window_sized [] (within (max_window c82_decoder) (max_file c82_decoder)) prev w T /\ target_segment_low w T)
    [] (c82_first ++ concat (repeat c82_again k)) (c82_four ++ concat (repeat c82_four k)).
Proof.
  intros k KN. assert (zlen c82_four = 4) as Z4 by reflexivity.
  assert (max_window c82_decoder = 67108864 /\ max_file c82_decoder = 4000000000) as [MW MF] by (vm_compute; split; reflexivity).
  assert (forall prev w T, within 67108864 4000000000 prev T -> zlen w <= 100 -> zlen T <= 100 ->
    window_sized [] (within (max_window c82_decoder) (max_file c82_decoder)) prev w T) as WZ.
  { intros prev w T A B C. unfold window_sized. rewrite MW, MF. split; [exact A|]. rewrite zlen_nil. unfold int32_max. lia. }
  apply we_cons with (T := c82_four).
  - destruct (concat (repeat c82_again k)); apply c82_first_window.
  - split.
    + apply WZ; [|change (zlen c82_first) with 12; lia|lia]. unfold within. rewrite zlen_nil. lia.
    + intros ind b1 len b2 pos r EQ B. injection EQ as EI _. subst ind. discriminate.
  - pose proof (c82_windows (fun prev w T => window_sized [] (within (max_window c82_decoder) (max_file c82_decoder)) prev w T /\ target_segment_low w T) k []) as X.
    cbn [app] in X. rewrite app_nil_r in X. cbn [app]. apply X. intros p ZP. split; [|apply c82_again_low].
    apply WZ; [|change (zlen c82_again) with 11; lia|lia]. unfold within. lia.
Qed.

Example C13_long_case : exists p q out, zlen p > 2147483647 /\ q = [1; 20; 0] /\ zlen out = 2400000004 /\
  decode_stream c82_decoder [] [p ++ q] = Some (true, out) /\
  exists d' o, decode_chunks (start_decoding c82_decoder []) [p] [] = Some (d', true, o).
Proof.
  assert (Z.of_nat (Z.to_nat 599999999) = 599999999) as KN by (apply Z2Nat.id; lia).
  revert KN. generalize (Z.to_nat 599999999) as k. intros k KN.
  assert (zlen c82_four = 4) as Z4 by reflexivity. assert (zlen c82_again = 11) as Z11 by reflexivity.
  assert (forall (c : list Z) j, zlen (concat (repeat c j)) = Z.of_nat j * zlen c) as ZR.
  { intros c j. induction j as [|j IH]; [rewrite zlen_nil; lia|]. cbn [repeat concat]. rewrite zlen_app, IH. lia. }
  assert (forall (c : list Z) j, concat (repeat c (S j)) = concat (repeat c j) ++ c) as SN.
  { intros c j. induction j as [|j IH]; [cbn [repeat concat]; rewrite !app_nil_r; reflexivity|].
    change (concat (repeat c (S (S j)))) with (c ++ concat (repeat c (S j))). rewrite IH at 1. rewrite app_assoc. reflexivity. }
  set (body := c82_first ++ concat (repeat c82_again k)).
  assert (c82_first ++ concat (repeat c82_again (S k)) = (body ++ [2; 4; 0; 7; 4; 0; 0; 1]) ++ [1; 20; 0]) as EB.
  { rewrite SN. unfold body. rewrite <- !app_assoc. reflexivity. }
  assert (forall j, bytes_ok (file_header 0 0 ++ c82_first ++ concat (repeat c82_again j))) as BF.
  { intros j. apply bytes_ok_app. split; [apply bytes_okb_ok; reflexivity|]. apply bytes_ok_app. split; [apply bytes_okb_ok; reflexivity|].
    induction j as [|j IH]; [constructor|]. cbn [repeat concat]. apply bytes_ok_app. split; [apply bytes_okb_ok; reflexivity|exact IH]. }
  pose proof (c82_all (S k) ltac:(lia)) as WS. pose proof (BF (S k)) as BX. rewrite EB in WS, BX.
  assert (idle_plain c82_decoder) as IP by (apply ip_max_file; [constructor|]; unfold size_max; lia).
  assert (head strict strict (file_header 0 0) 0 rfc_table 4 3) as HD by (constructor; auto; unfold byte_ok; lia).
  assert (modes_fit 4 3 ((body ++ [2; 4; 0; 7; 4; 0; 0; 1]) ++ [1; 20; 0])) as MF by (right; lia).
  assert (~ bad_cache (file_header 0 0 ++ (body ++ [2; 4; 0; 7; 4; 0; 0; 1]) ++ [1; 20; 0])) as NB.
  { apply no_code_table_bad. intros v ind tl EQ. injection EQ as _ <- _. reflexivity. }
  assert (zlen (file_header 0 0) <= 2147483647) as ZH by (change (zlen (file_header 0 0)) with 5; lia).
  assert (zlen (@nil Z) <= 2147483647) as ZD by (rewrite zlen_nil; lia).
  exists (file_header 0 0 ++ body ++ [2; 4; 0; 7; 4; 0; 0; 1]), [1; 20; 0], (c82_four ++ concat (repeat c82_four (S k))).
  split; [|split; [reflexivity|split; [|split]]].
  - rewrite !zlen_app. unfold body. rewrite zlen_app, ZR, Z11. pose proof (zlen_nonneg _ (file_header 0 0)). pose proof (zlen_nonneg _ c82_first).
    pose proof (zlen_nonneg _ [2; 4; 0; 7; 4; 0; 0; 1]). lia.
  - rewrite zlen_app, ZR. lia.
  - assert (concat [(file_header 0 0 ++ body ++ [2; 4; 0; 7; 4; 0; 0; 1]) ++ [1; 20; 0]] = file_header 0 0 ++ (body ++ [2; 4; 0; 7; 4; 0; 0; 1]) ++ [1; 20; 0]) as EC
      by (cbn [concat]; rewrite app_nil_r, <- app_assoc; reflexivity).
    refine (C82_decoder_target strict c82_decoder [] (file_header 0 0) 0 rfc_table 4 3 ((body ++ [2; 4; 0; 7; 4; 0; 0; 1]) ++ [1; 20; 0]) _ _
      IP (Forall_nil _) ZD eq_refl HD MF ZH WS _ EC _).
    + apply bytes_ok_concat. rewrite EC. exact BX.
    + rewrite EC. exact NB.
  - assert (file_header 0 0 ++ (body ++ [2; 4; 0; 7; 4; 0; 0; 1]) ++ [1; 20; 0] = concat [file_header 0 0 ++ body ++ [2; 4; 0; 7; 4; 0; 0; 1]] ++ [1; 20; 0]) as EC
      by (cbn [concat]; rewrite app_nil_r, <- !app_assoc; reflexivity).
    assert (Forall bytes_ok [file_header 0 0 ++ body ++ [2; 4; 0; 7; 4; 0; 0; 1]]) as FB
      by (apply bytes_ok_concat; rewrite EC in BX; apply bytes_ok_app in BX; tauto).
    destruct (C13_long strict c82_decoder [] (file_header 0 0) 0 rfc_table 4 3 ((body ++ [2; 4; 0; 7; 4; 0; 0; 1]) ++ [1; 20; 0])
      _ _ [1; 20; 0] IP (Forall_nil _) eq_refl HD MF WS BX NB ZH ZD FB EC) as (d' & o & E & _).
    exists d', o. exact E.
Qed.
