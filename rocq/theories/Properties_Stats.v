(** C75: the sizes that --stats reports. *)

From Verif Require Import Base ListFacts Spec SpecEncode Decoder EncodeTable Engine Encoder Properties_Stream Properties_Decode
  Properties_Encode Cli CliFacts Properties_Cli CliMain Properties_Main Stats.
From Coq Require Import ZifyBool ZifyNat.

(** ** With --stats the program does the same as without. *)

Lemma encode_loop_same : forall fuel w inp buf out e output i o,
  fst (stats_encode_loop fuel w inp buf out e output i o) = encode_loop fuel w inp buf out e output.
Proof.
  induction fuel as [|fuel IH]; intros; cbn [stats_encode_loop encode_loop]; [reflexivity|].
  destruct (fread _ inp buf) as [bytes inp1]. destruct (nonempty bytes).
  - destruct (encode_chunk e bytes) as [[[e1 [|]] o1]|]; [|reflexivity|reflexivity].
    destruct (fi_eof inp1); [destruct (finish_encoding e1) as [[? ?] o2]; reflexivity|apply IH].
  - destruct (fi_eof inp1); [destruct (finish_encoding e) as [[? ?] o2]; reflexivity|apply IH].
Qed.
Lemma decode_loop_same : forall fuel w inp buf out d i o,
  fst (stats_decode_loop fuel w inp buf out d i o) = decode_loop fuel w inp buf out d.
Proof.
  induction fuel as [|fuel IH]; intros; cbn [stats_decode_loop decode_loop]; [reflexivity|].
  destruct (fread _ inp buf) as [bytes inp1]. destruct (nonempty bytes).
  - destruct (decode_chunk d bytes) as [d1 [|] o1| |]; try reflexivity. destruct (fi_eof inp1); [reflexivity|apply IH].
  - destruct (fi_eof inp1); [reflexivity|apply IH].
Qed.
Lemma compare_loop_same : forall fuel w inp buf orig d i o,
  fst (stats_compare_loop fuel w inp buf orig d i o) = compare_loop fuel w inp buf orig d.
Proof.
  assert (forall b w (r : list report), fst (if b : bool then (Exit false w, []) else (Exit true w, r)) = Exit (negb b) w) as X
    by (intros [|]; reflexivity).
  induction fuel as [|fuel IH]; intros; cbn [stats_compare_loop compare_loop]; [reflexivity|].
  destruct (fread w inp buf) as [bytes inp1]. destruct (nonempty bytes).
  - destruct (decode_chunk d bytes) as [d1 [|] o1| |]; try reflexivity. destruct (compare_output w orig o1) as [[|] orig1]; [|reflexivity].
    cbn [negb]. destruct (fi_eof inp1); [|apply IH]. destruct (snd (finish_decoding d1)); [|reflexivity]. apply X.
  - destruct (compare_output w orig []) as [[|] orig1]; [|reflexivity].
    cbn [negb]. destruct (fi_eof inp1); [|apply IH]. destruct (snd (finish_decoding d)); [|reflexivity]. apply X.
Qed.
Lemma encode_same : forall fuel w s, fst (stats_encode fuel w s) = cli_encode fuel w s.
Proof.
  intros. unfold stats_encode, cli_encode. destruct (open_dictionary w s) as [dict|]; [|reflexivity].
  destruct (open_for_reading _ _ _) as [[inp buf]|]; [|reflexivity]. destruct (open_output _ _) as [w1|]; [|reflexivity].
  destruct (engine_init _) as [[en [|]]|]; [|reflexivity|reflexivity].
  destruct (start_encoding _) as [[[e [|]] o1]|]; [|reflexivity|reflexivity]. apply encode_loop_same.
Qed.
Lemma compare_same : forall fuel w s, fst (stats_compare fuel w s) = cli_compare fuel w s.
Proof.
  intros. unfold stats_compare, cli_compare. destruct (open_dictionary w s) as [dict|]; [|reflexivity].
  destruct (open_for_reading w (s_delta s) _) as [[inp buf]|]; [|reflexivity].
  destruct (open_for_reading w (s_target s) _) as [[orig b2]|]; [|reflexivity]. apply compare_loop_same.
Qed.

Theorem C75_same_outcome : forall fuel c s w, fst (vcdiff_stats fuel c s w) = vcdiff fuel c s w.
Proof.
  intros. unfold vcdiff_stats, vcdiff. destruct (nonempty _); [|reflexivity]. cbn [negb]. destruct (_ =? 0); [reflexivity|].
  destruct c; [apply encode_same| | |reflexivity].
  - unfold stats_decode, cli_decode. destruct (open_dictionary w s) as [dict|]; [|reflexivity].
    destruct (open_for_reading _ _ _) as [[inp buf]|]; [|reflexivity]. destruct (open_output _ _) as [w1|]; [|reflexivity].
    apply decode_loop_same.
  - destruct (_ || _); [reflexivity|]. rewrite <- encode_same. destruct (stats_encode fuel w s) as [[[|] w1| |] r1]; try reflexivity.
    cbn [fst]. rewrite <- compare_same. destruct (stats_compare fuel w1 s) as [x r2]. reflexivity.
Qed.
Print Assumptions C75_same_outcome.

(** ** The sizes are those of the files. *)

(** How much longer the output called [n] is in [w'] than when it was opened in [w]:
    a named file is emptied when it is opened, standard output is appended to. *)
Definition written (n : name) (w w' : world) : Z :=
  match n with [] => zlen (wo_stdout w') - zlen (wo_stdout w) | _ => zlen (output_of w' n) end.
(** The file that is read, and the one that is written, by a command: standard input and
    output if no name is given. *)
Definition reads_file (c : command) (s : settings) : name := match c with CDecode => s_delta s | _ => s_target s end.
Definition writes_file (c : command) (s : settings) : name := match c with CDecode => s_target s | _ => s_delta s end.
(** "vcdiff test" encodes and decodes, and reports twice. *)
Definition times (c : command) : nat := match c with CTest => 2 | _ => 1 end.


Lemma to_size_add : forall a b, to_size (to_size a + b) = to_size (a + b).
Proof. intros. unfold to_size. rewrite Zplus_mod_idemp_l. reflexivity. Qed.

Lemma fread_pos : forall w f n bytes f', fread w f n = (bytes, f') -> 0 <= n -> fi_eof f = false ->
  0 <= fi_pos f <= zlen (content w (fi_name f)) ->
  fi_name f' = fi_name f /\ fi_pos f' = fi_pos f + zlen bytes /\ 0 <= fi_pos f' <= zlen (content w (fi_name f)) /\
  (fi_eof f' = true -> fi_pos f' = zlen (content w (fi_name f))).
Proof.
  intros w f n bytes f' H N E P. unfold fread in H. destruct (Z.eqb_spec n 0).
  - injection H as <- <-. rewrite zlen_nil. split; [reflexivity|]. split; [lia|]. split; [lia|]. congruence.
  - injection H as <- <-. cbn [fi_name fi_pos fi_eof]. rewrite E. cbn [orb]. set (C := content w (fi_name f)) in *.
    rewrite zlen_ztake by lia. rewrite zlen_zdrop by lia. split; [reflexivity|]. split; [reflexivity|]. split; lia.
Qed.

Lemma encode_loop_sizes : forall fuel w inp buf out e output i o w' r base L,
  stats_encode_loop fuel w inp buf out e output i o = (Exit true w', r) ->
  0 <= buf -> fi_eof inp = false -> is_open out w -> out = [] \/ fi_name inp <> out ->
  zlen (content w (fi_name inp)) = L -> L <= size_max -> 0 <= fi_pos inp <= L -> i = fi_pos inp ->
  o = to_size (zlen (output_of w out) - base) ->
  r = (if 0 <? L then [{| rp_target := L; rp_delta := to_size (zlen (output_of w' out) - base) |}] else []).
Proof.
  induction fuel as [|fuel IH]; intros w inp buf out e output i o w' r base L H B EF IO NE CL LM P EI EO;
    cbn [stats_encode_loop] in H; [congruence|].
  pose proof (write_output_wrote out output w IO) as W. set (w1 := write_output w out output) in *. clearbody w1.
  destruct W as (OW & OE & IO1). assert (content w1 (fi_name inp) = content w (fi_name inp)) as CC
    by (eapply only_wrote_content; eauto).
  destruct (fread w1 inp buf) as [bytes inp1] eqn:FR. rewrite <- CC in CL.
  destruct (fread_pos _ _ _ _ _ FR B EF ltac:(lia)) as (FN & FP & FB & FE). pose proof (zlen_nonneg _ bytes).
  assert (to_size (o + zlen output) = to_size (zlen (output_of w1 out) - base)) as EO1.
  { rewrite EO, to_size_add, OE, zlen_app. f_equal. lia. }
  rewrite EO1 in H.
  assert (forall e1 out1 i1, i1 = fi_pos inp1 ->
    (if fi_eof inp1
     then let '(_, _, out2) := finish_encoding e1 in
          (Exit true (write_output w1 out (out1 ++ out2)),
           if 0 <? i1 then [{| rp_target := i1; rp_delta := to_size (to_size (zlen (output_of w1 out) - base) + zlen (out1 ++ out2)) |}] else [])
     else stats_encode_loop fuel w1 inp1 buf out e1 out1 i1 (to_size (zlen (output_of w1 out) - base))) = (Exit true w', r) ->
    r = (if 0 <? L then [{| rp_target := L; rp_delta := to_size (zlen (output_of w' out) - base) |}] else [])) as NEXT.
  { intros e1 out1 i1 -> H1. destruct (fi_eof inp1) eqn:E1.
    - destruct (finish_encoding e1) as [[? ?] out2]. rewrite (FE eq_refl), CL in H1.
      pose proof (write_output_wrote out (out1 ++ out2) w1 IO1) as (_ & OE2 & _).
      assert (w' = write_output w1 out (out1 ++ out2)) as -> by congruence.
      assert (r = if 0 <? L then [{| rp_target := L; rp_delta := to_size (to_size (zlen (output_of w1 out) - base) + zlen (out1 ++ out2)) |}] else [])
        as -> by congruence.
      rewrite OE2, to_size_add, (zlen_app _ (output_of w1 out)).
      replace (zlen (output_of w1 out) - base + zlen (out1 ++ out2)) with (zlen (output_of w1 out) + zlen (out1 ++ out2) - base) by lia. reflexivity.
    - apply (IH _ _ _ _ _ _ _ _ _ _ base L H1); auto; try congruence; try lia; try (rewrite FN; auto). }
  destruct (nonempty bytes) eqn:NB.
  - destruct (encode_chunk e bytes) as [[[e1 [|]] o1]|]; [|congruence|congruence].
    refine (NEXT e1 o1 _ _ H). rewrite EI, <- FP. apply to_size_id. lia.
  - refine (NEXT e [] _ _ H). destruct bytes; [|discriminate NB]. rewrite zlen_nil in FP. lia.
Qed.

Lemma decode_loop_sizes : forall fuel w inp buf out d i o w' r base L,
  stats_decode_loop fuel w inp buf out d i o = (Exit true w', r) ->
  0 <= buf -> fi_eof inp = false -> is_open out w -> out = [] \/ fi_name inp <> out ->
  zlen (content w (fi_name inp)) = L -> L <= size_max -> 0 <= fi_pos inp <= L -> i = fi_pos inp ->
  o = to_size (zlen (output_of w out) - base) ->
  r = (let T := to_size (zlen (output_of w' out) - base) in if 0 <? T then [{| rp_target := T; rp_delta := L |}] else []).
Proof.
  induction fuel as [|fuel IH]; intros w inp buf out d i o w' r base L H B EF IO NE CL LM P EI EO;
    cbn [stats_decode_loop] in H; [congruence|].
  destruct (fread w inp buf) as [bytes inp1] eqn:FR.
  destruct (fread_pos _ _ _ _ _ FR B EF ltac:(lia)) as (FN & FP & FB & FE). pose proof (zlen_nonneg _ bytes).
  assert (forall d1 out1 i1, i1 = fi_pos inp1 ->
    (if fi_eof inp1
     then (Exit (snd (finish_decoding d1)) (write_output w out out1),
           if snd (finish_decoding d1) && (0 <? to_size (o + zlen out1)) then [{| rp_target := to_size (o + zlen out1); rp_delta := i1 |}] else [])
     else stats_decode_loop fuel (write_output w out out1) inp1 buf out d1 i1 (to_size (o + zlen out1))) = (Exit true w', r) ->
    r = (let T := to_size (zlen (output_of w' out) - base) in if 0 <? T then [{| rp_target := T; rp_delta := L |}] else [])) as NEXT.
  { intros d1 out1 i1 -> H1. pose proof (write_output_wrote out out1 w IO) as (OW & OE & IO1).
    assert (to_size (o + zlen out1) = to_size (zlen (output_of (write_output w out out1) out) - base)) as EO1.
    { rewrite EO, to_size_add, OE, zlen_app. f_equal. lia. }
    rewrite EO1 in H1. destruct (fi_eof inp1) eqn:E1.
    - rewrite (FE eq_refl), CL in H1. destruct (snd (finish_decoding d1)); [|congruence]. cbn [andb] in H1. cbv zeta.
      assert (w' = write_output w out out1) as -> by congruence. congruence.
    - apply (IH _ _ _ _ _ _ _ _ _ base L H1); auto; try congruence; try lia; try (rewrite FN; auto).
      rewrite (only_wrote_content _ _ _ _ OW NE). exact CL. }
  destruct (nonempty bytes) eqn:NB.
  - destruct (decode_chunk d bytes) as [d1 [|] o1| |]; [|congruence|congruence|congruence].
    refine (NEXT d1 o1 _ _ H). rewrite EI, <- FP. apply to_size_id. lia.
  - refine (NEXT d [] _ _ H). destruct bytes; [|discriminate NB]. rewrite zlen_nil in FP. lia.
Qed.

Lemma fread_full : forall w f n bytes f', fread w f n = (bytes, f') -> fi_eof f = false -> n <= zlen bytes -> fi_eof f' = false.
Proof.
  intros w f n bytes f' H E N. unfold fread in H. destruct (Z.eqb_spec n 0); [congruence|].
  injection H as <- <-. cbn [fi_eof]. rewrite E. cbn [orb]. lia.
Qed.
Lemma compare_pos : forall w orig out orig1, compare_output w orig out = (true, orig1) -> fi_eof orig = false ->
  0 <= fi_pos orig <= zlen (content w (fi_name orig)) ->
  fi_name orig1 = fi_name orig /\ fi_eof orig1 = false /\ fi_pos orig1 = fi_pos orig + zlen out /\
  0 <= fi_pos orig1 <= zlen (content w (fi_name orig)).
Proof.
  intros w orig out orig1 H E P. unfold compare_output in H. destruct (nonempty out) eqn:NE.
  - destruct (fread w orig (zlen out)) as [bytes f1] eqn:FR. destruct (zlen bytes <? zlen out) eqn:LT; [congruence|].
    destruct (list_eq_dec _ _ _) as [->|]; [|congruence]. assert (f1 = orig1) as -> by congruence.
    destruct (fread_pos _ _ _ _ _ FR (zlen_nonneg _ _) E P) as (A & B & C & D). split; [exact A|]. split; [|split; [exact B|exact C]].
    exact (fread_full _ _ _ _ _ FR E ltac:(lia)).
  - assert (orig1 = orig) as -> by congruence. destruct out; [|discriminate NE]. rewrite zlen_nil. split; [reflexivity|]. split; [exact E|]. lia.
Qed.

Lemma compare_loop_sizes : forall fuel w inp buf orig d i o w' r L T,
  stats_compare_loop fuel w inp buf orig d i o = (Exit true w', r) ->
  0 <= buf -> fi_eof inp = false -> fi_eof orig = false ->
  zlen (content w (fi_name inp)) = L -> L <= size_max -> 0 <= fi_pos inp <= L -> i = fi_pos inp ->
  zlen (content w (fi_name orig)) = T -> T <= size_max -> 0 <= fi_pos orig <= T -> o = fi_pos orig ->
  w' = w /\ r = if 0 <? T then [{| rp_target := T; rp_delta := L |}] else [].
Proof.
  induction fuel as [|fuel IH]; intros w inp buf orig d i o w' r L T H B EF EG CL LM P EI CT TM Q EO;
    cbn [stats_compare_loop] in H; [congruence|].
  destruct (fread w inp buf) as [bytes inp1] eqn:FR.
  destruct (fread_pos _ _ _ _ _ FR B EF ltac:(lia)) as (FN & FP & FB & FE). pose proof (zlen_nonneg _ bytes).
  assert (forall d1 out1 i1, i1 = fi_pos inp1 ->
    (let '(same, orig1) := compare_output w orig out1 in
     if negb same then (Exit false w, [])
     else if fi_eof inp1
       then if negb (snd (finish_decoding d1)) then (Exit false w, [])
            else if nonempty (fst (fread w orig1 1)) then (Exit false w, [])
            else (Exit true w, if 0 <? to_size (o + zlen out1) then [{| rp_target := to_size (o + zlen out1); rp_delta := i1 |}] else [])
       else stats_compare_loop fuel w inp1 buf orig1 d1 i1 (to_size (o + zlen out1))) = (Exit true w', r) ->
    w' = w /\ r = if 0 <? T then [{| rp_target := T; rp_delta := L |}] else []) as NEXT.
  { intros d1 out1 i1 -> H1. destruct (compare_output w orig out1) as [[|] orig1] eqn:CO; cbn [negb] in H1; [|congruence].
    destruct (compare_pos _ _ _ _ CO EG ltac:(lia)) as (ON & OE & OP & OB).
    rewrite EO, <- OP in H1. rewrite to_size_id in H1 by lia.
    destruct (fi_eof inp1) eqn:E1.
    - destruct (snd (finish_decoding d1)); cbn [negb] in H1; [|congruence]. rewrite fread_one in H1 by lia. rewrite ON in H1.
      destruct (nonempty (zdrop _ _)) eqn:NE; [congruence|]. assert (fi_pos orig1 = T) as ET.
      { destruct (zdrop (fi_pos orig1) (content w (fi_name orig))) eqn:ZD; [|discriminate NE].
        apply (f_equal (@zlen Z)) in ZD. rewrite zlen_zdrop, zlen_nil in ZD by lia. lia. }
      rewrite ET, (FE eq_refl), CL in H1. split; congruence.
    - apply (IH _ _ _ _ _ _ _ _ _ L T H1); auto; try congruence; try lia. }
  destruct (nonempty bytes) eqn:NB.
  - destruct (decode_chunk d bytes) as [d1 [|] o1| |]; [|congruence|congruence|congruence].
    refine (NEXT d1 o1 _ _ H). rewrite EI, <- FP. apply to_size_id. lia.
  - refine (NEXT d [] _ _ H). destruct bytes; [|discriminate NB]. rewrite zlen_nil in FP. lia.
Qed.

Lemma opened : forall w n B inp buf, open_for_reading w n B = Some (inp, buf) -> 0 < B ->
  0 <= buf /\ inp = {| fi_name := n; fi_pos := 0; fi_eof := false |}.
Proof.
  intros w [|c n] B inp buf H P; cbn [open_for_reading] in H; [split; [|]; [injection H as <- <-; lia|congruence]|].
  destruct (wo_files w (c :: n)) as [l|]; [|congruence]. pose proof (zlen_nonneg _ l).
  split; [|congruence]. assert (buf = if zlen l <? B then zlen l else B) as -> by congruence. destruct (_ <? _); lia.
Qed.
Lemma opened_output : forall w n w1, open_output w n = Some w1 ->
  only_wrote n w w1 /\ is_open n w1 /\ zlen (output_of w1 n) = match n with [] => zlen (wo_stdout w) | _ => 0 end.
Proof.
  intros w [|c n] w1 H; cbn [open_output] in H.
  - injection H as <-. split; [apply only_wrote_refl|]. split; [left; reflexivity|reflexivity].
  - destruct (wo_writable w (c :: n)); [|congruence]. injection H as <-. split; [|split].
    + split; [reflexivity|]. split; [reflexivity|]. split; [|reflexivity]. intros m [N|N]; [|discriminate].
      cbn [set_content wo_files]. rewrite name_eq_neq by exact N. reflexivity.
    + right. cbn [set_content wo_files]. rewrite name_eq_refl. discriminate.
    + cbn [output_of set_content wo_files]. rewrite name_eq_refl. apply zlen_nil.
Qed.
Lemma written_alt : forall n w w', written n w w' = zlen (output_of w' n) - match n with [] => zlen (wo_stdout w) | _ => 0 end.
Proof. intros [|c n] w w'; cbn [written]; [reflexivity|lia]. Qed.

Lemma encode_sizes : forall fuel w s w' r, stats_encode fuel w s = (Exit true w', r) -> 0 < s_buffersize s ->
  s_delta s = [] \/ s_target s <> s_delta s -> zlen (content w (s_target s)) <= size_max ->
  only_wrote (s_delta s) w w' /\
  r = if 0 <? zlen (content w (s_target s)) then
        [{| rp_target := zlen (content w (s_target s)); rp_delta := to_size (written (s_delta s) w w') |}] else [].
Proof.
  intros fuel w s w' r H B NE LM. assert (only_wrote (s_delta s) w w') as OW'.
  { pose proof (encode_same fuel w s) as X. rewrite H in X. cbn [fst] in X. symmetry in X.
    apply cli_encode_kept in X. exact (proj1 X). }
  split; [exact OW'|].
  unfold stats_encode in H. destruct (open_dictionary w s) as [dict|]; [|congruence].
  destruct (open_for_reading _ _ _) as [[inp buf]|] eqn:OR; [|congruence]. destruct (open_output _ _) as [w1|] eqn:OO; [|congruence].
  destruct (opened _ _ _ _ _ OR B) as [BB ->]. destruct (opened_output _ _ _ OO) as (OW & IO & OZ).
  destruct (engine_init _) as [[en [|]]|]; [|congruence|congruence].
  destruct (start_encoding _) as [[[e [|]] o1]|]; [|congruence|congruence].
  rewrite written_alt. rewrite <- (only_wrote_content _ _ _ _ OW NE) in *.
  refine (encode_loop_sizes _ _ _ _ _ _ _ _ _ _ _ _ _ H BB eq_refl IO _ eq_refl LM _ eq_refl _); cbn [fi_name fi_pos]; [exact NE| |].
  - pose proof (zlen_nonneg _ (content w1 (s_target s))). lia.
  - rewrite OZ, Z.sub_diag. reflexivity.
Qed.

Theorem C75_sizes : forall fuel c s w w' r,
  vcdiff_stats fuel c s w = (Exit true w', r) -> 0 < s_buffersize s ->
  writes_file c s = [] \/ reads_file c s <> writes_file c s ->
  zlen (content w (reads_file c s)) <= size_max -> written (writes_file c s) w w' <= size_max ->
  let read := zlen (content w (reads_file c s)) in
  let wrote := written (writes_file c s) w w' in
  let rep := match c with CDecode => {| rp_target := wrote; rp_delta := read |} | _ => {| rp_target := read; rp_delta := wrote |} end in
  r = if rp_target rep =? 0 then [] else repeat rep (times c).
Proof.
  intros fuel c s w w' r H B NE LM LW read wrote rep.
  assert (0 <= wrote) as W0.
  { unfold wrote. destruct (writes_file c s) as [|x n] eqn:EW; cbn [written]; [|apply zlen_nonneg].
    pose proof (C75_same_outcome fuel c s w) as X. rewrite H in X. cbn [fst] in X. symmetry in X.
    assert (exists more, wo_stdout w' = wo_stdout w ++ more) as [more ->].
    { unfold vcdiff in X. destruct (negb _); [congruence|]. destruct (_ =? 0); [congruence|]. destruct c.
      - apply cli_encode_kept in X. exact (proj2 X).
      - apply cli_decode_kept in X. exact (proj2 X).
      - destruct (_ || _); [congruence|]. destruct (cli_encode fuel w s) as [[|] w1| |] eqn:E1; try congruence.
        apply cli_compare_kept in X. subst w'. apply cli_encode_kept in E1. exact (proj2 E1).
      - congruence. }
    rewrite zlen_app. pose proof (zlen_nonneg _ more). lia. }
  assert (0 <= read) as R0 by apply zlen_nonneg.
  assert (forall x, 0 <= x -> (0 <? x) = negb (x =? 0)) as SG by (intros; lia).
  unfold vcdiff_stats in H. destruct (negb _); [congruence|]. destruct (_ =? 0) eqn:B0; [congruence|]. clear B0.
  destruct c; cbn [reads_file writes_file times] in *.
  - destruct (encode_sizes _ _ _ _ _ H B NE LM) as [_ ->]. fold wrote read. rewrite to_size_id by lia.
    unfold rep. cbn [rp_target]. rewrite SG by exact R0. destruct (read =? 0); reflexivity.
  - unfold stats_decode in H. destruct (open_dictionary w s) as [dict|]; [|congruence].
    destruct (open_for_reading _ _ _) as [[inp buf]|] eqn:OR; [|congruence]. destruct (open_output _ _) as [w1|] eqn:OO; [|congruence].
    destruct (opened _ _ _ _ _ OR B) as [BB ->]. destruct (opened_output _ _ _ OO) as (OW & IO & OZ).
    assert (content w1 (s_delta s) = content w (s_delta s)) as CC by (exact (only_wrote_content _ _ _ _ OW NE)).
    assert (r = let T := to_size (zlen (output_of w' (s_target s)) - match s_target s with [] => zlen (wo_stdout w) | _ => 0 end) in
                if 0 <? T then [{| rp_target := T; rp_delta := read |}] else []) as ->.
    { refine (decode_loop_sizes _ _ _ _ _ _ _ _ _ _ _ _ H BB eq_refl IO _ _ LM _ eq_refl _); cbn [fi_name fi_pos]; [exact NE| | |].
      - rewrite CC. reflexivity.
      - fold read. lia.
      - rewrite OZ, Z.sub_diag. reflexivity. }
    cbv zeta. rewrite <- written_alt. fold wrote. rewrite to_size_id by lia. unfold rep. cbn [rp_target].
    rewrite SG by exact W0. destruct (wrote =? 0); reflexivity.
  - destruct (_ || _) eqn:NN; [congruence|]. destruct (stats_encode fuel w s) as [[[|] w1| |] r1] eqn:SE; try congruence.
    destruct (encode_sizes _ _ _ _ _ SE B NE LM) as [OW ->].
    destruct (stats_compare fuel w1 s) as [x r2] eqn:SC. assert (x = Exit true w') as -> by congruence.
    pose proof (compare_same fuel w1 s) as X. rewrite SC in X. cbn [fst] in X. symmetry in X.
    apply cli_compare_kept in X. subst w'.
    unfold stats_compare in SC. destruct (open_dictionary w1 s) as [dict|]; [|congruence].
    destruct (open_for_reading w1 (s_delta s) _) as [[inp buf]|] eqn:OR; [|congruence].
    destruct (open_for_reading w1 (s_target s) _) as [[orig b2]|] eqn:OT; [|congruence].
    destruct (opened _ _ _ _ _ OR B) as [BB ->]. destruct (opened _ _ _ _ _ OT B) as [_ ->].
    assert (s_delta s <> []) as ND by (intros E; rewrite E in NN; cbn [nonempty negb] in NN; rewrite orb_true_r in NN; discriminate NN).
    assert (content w1 (s_target s) = content w (s_target s)) as CT by (exact (only_wrote_content _ _ _ _ OW NE)).
    assert (zlen (content w1 (s_delta s)) = wrote) as CD.
    { unfold wrote. destruct (s_delta s) as [|x n]; [congruence|]. reflexivity. }
    destruct (compare_loop_sizes _ _ _ _ _ _ _ _ _ _ wrote read SC BB eq_refl eq_refl CD LW ltac:(cbn [fi_pos]; lia) eq_refl
      ltac:(cbn [fi_name]; rewrite CT; reflexivity) LM ltac:(cbn [fi_pos]; lia) eq_refl) as [_ ->].
    fold read wrote in H. rewrite to_size_id in H by lia. unfold rep. cbn [rp_target]. rewrite SG in H by exact R0.
    destruct (read =? 0); cbn [negb app] in H; cbn [repeat]; congruence.
  - congruence.
Qed.
Print Assumptions C75_sizes.

(** A command that fails in the encoder or decoder reports nothing. *)
Lemma encode_loop_fails : forall fuel w inp buf out e output i o w' r,
  stats_encode_loop fuel w inp buf out e output i o = (Exit false w', r) -> r = [].
Proof.
  induction fuel as [|fuel IH]; intros w inp buf out e output i o w' r H; cbn [stats_encode_loop] in H; [congruence|].
  destruct (fread _ inp buf) as [bytes inp1]. destruct (nonempty bytes).
  - destruct (encode_chunk e bytes) as [[[e1 [|]] o1]|]; [|congruence|congruence].
    destruct (fi_eof inp1); [destruct (finish_encoding e1) as [[? ?] o2]; congruence|eapply IH; exact H].
  - destruct (fi_eof inp1); [destruct (finish_encoding e) as [[? ?] o2]; congruence|eapply IH; exact H].
Qed.
Lemma decode_loop_fails : forall fuel w inp buf out d i o w' r,
  stats_decode_loop fuel w inp buf out d i o = (Exit false w', r) -> r = [].
Proof.
  induction fuel as [|fuel IH]; intros w inp buf out d i o w' r H; cbn [stats_decode_loop] in H; [congruence|].
  destruct (fread _ inp buf) as [bytes inp1]. destruct (nonempty bytes).
  - destruct (decode_chunk d bytes) as [d1 [|] o1| |]; try congruence. destruct (fi_eof inp1); [|eapply IH; exact H].
    destruct (snd (finish_decoding d1)); cbn [andb] in H; congruence.
  - destruct (fi_eof inp1); [|eapply IH; exact H]. destruct (snd (finish_decoding d)); cbn [andb] in H; congruence.
Qed.
Theorem C75_no_report : forall fuel c s w w' r, c = CEncode \/ c = CDecode ->
  vcdiff_stats fuel c s w = (Exit false w', r) -> r = [].
Proof.
  intros fuel c s w w' r C H. unfold vcdiff_stats in H. destruct (negb _); [congruence|]. destruct (_ =? 0); [congruence|].
  destruct C as [-> | ->].
  - unfold stats_encode in H. destruct (open_dictionary w s) as [dict|]; [|congruence].
    destruct (open_for_reading _ _ _) as [[inp buf]|]; [|congruence]. destruct (open_output _ _) as [w1|]; [|congruence].
    destruct (engine_init _) as [[en [|]]|]; [|congruence|congruence].
    destruct (start_encoding _) as [[[e [|]] o1]|]; [|congruence|congruence]. eapply encode_loop_fails; exact H.
  - unfold stats_decode in H. destruct (open_dictionary w s) as [dict|]; [|congruence].
    destruct (open_for_reading _ _ _) as [[inp buf]|]; [|congruence]. destruct (open_output _ _) as [w1|]; [|congruence].
    eapply decode_loop_fails; exact H.
Qed.
Print Assumptions C75_no_report.

(** Encoding with a buffer of 50 bytes, over an older file; "vcdiff test"; decoding; a delta
    that is cut short. *)
Example C75_case :
  let s := some_settings n_target n_delta 50 in
  let w := some_world c01_dict c01_target [1;2;3] in
  match vcdiff_stats 200 CEncode s w with
  | (Exit true w1, r) =>
      match wo_files w1 n_delta with
      | Some d =>
          r = [{| rp_target := zlen c01_target; rp_delta := zlen d |}] /\ 5 < zlen d /\
          snd (vcdiff_stats 400 CTest s w) = r ++ r /\
          snd (vcdiff_stats 400 CDecode (some_settings n_copy n_delta 7) w1) = r /\
          snd (vcdiff_stats 400 CDecode (some_settings n_copy n_delta 7) (set_content w1 n_delta (ztake 20 d))) = []
      | None => False
      end
  | _ => False
  end.
Proof. vm_compute. repeat split. Qed.
