(** C73: the command line tool and the files that are not its output. *)

From Verif Require Import Base ListFacts Spec SpecEncode EncodeTable Engine Encoder Decoder Session Reuse Properties_Stream Cli CliMain CliFacts
  Properties_Decode Properties_Encode Properties_Cli.
From Coq Require Import ZifyBool ZifyNat.

Lemma write_only : forall n l w, only_wrote n w (write_output w n l) /\ exists more, wo_stdout (write_output w n l) = wo_stdout w ++ more.
Proof.
  intros n l w. unfold write_output. destruct (nonempty l); [|split; [apply only_wrote_refl|exists []; rewrite app_nil_r; reflexivity]].
  destruct n as [|c n]; cbn [fwrite].
  - split; [|exists l; reflexivity]. split; [reflexivity|]. split; [reflexivity|]. split; [reflexivity|]. congruence.
  - split; [|exists []; rewrite app_nil_r; reflexivity]. split; [reflexivity|]. split; [reflexivity|]. split; [|reflexivity]. intros m [N|N]; [|discriminate N].
    cbn [set_content wo_files]. rewrite name_eq_neq by exact N. reflexivity.
Qed.

(** Everything but the output named [n] is as before; stdout has only grown. *)
Definition kept_but (n : name) (w w' : world) : Prop := only_wrote n w w' /\ exists more, wo_stdout w' = wo_stdout w ++ more.

Lemma kept_refl : forall n w, kept_but n w w.
Proof. intros. split; [apply only_wrote_refl|exists []; rewrite app_nil_r; reflexivity]. Qed.

Lemma kept_trans : forall n w1 w2 w3, kept_but n w1 w2 -> kept_but n w2 w3 -> kept_but n w1 w3.
Proof.
  intros n w1 w2 w3 [A (a & EA)] [B (b & EB)]. split; [eapply only_wrote_trans; eauto|]. exists (a ++ b). rewrite EB, EA, app_assoc. reflexivity.
Qed.

Lemma encode_loop_kept : forall fuel w inp buf out e output b w', encode_loop fuel w inp buf out e output = Exit b w' -> kept_but out w w'.
Proof.
  induction fuel as [|fuel IH]; intros w inp buf out e output b w' H; cbn [encode_loop] in H; [discriminate H|].
  pose proof (write_only out output w) as W1. set (w1 := write_output w out output) in *.
  destruct (fread w1 inp buf) as [bytes inp1].
  assert (forall e1 o1, (if fi_eof inp1 then let '(_, _, o2) := finish_encoding e1 in Exit true (write_output w1 out (o1 ++ o2))
     else encode_loop fuel w1 inp1 buf out e1 o1) = Exit b w' -> kept_but out w w') as NEXT.
  { intros e1 o1 E. destruct (fi_eof inp1).
    - destruct (finish_encoding e1) as [[e2 ok] o2]. injection E as _ <-. eapply kept_trans; [exact W1|apply write_only].
    - eapply kept_trans; [exact W1|]. eapply IH. exact E. }
  destruct (nonempty bytes); [|eapply NEXT; exact H].
  destruct (encode_chunk e bytes) as [[[e1 [|]] o1]|]; [eapply NEXT; exact H| |discriminate H].
  injection H as _ <-. exact W1.
Qed.

Lemma decode_loop_kept : forall fuel w inp buf out d b w', decode_loop fuel w inp buf out d = Exit b w' -> kept_but out w w'.
Proof.
  induction fuel as [|fuel IH]; intros w inp buf out d b w' H; cbn [decode_loop] in H; [discriminate H|].
  destruct (fread w inp buf) as [bytes inp1].
  assert (forall d1 o1, (if fi_eof inp1 then Exit (snd (finish_decoding d1)) (write_output w out o1)
     else decode_loop fuel (write_output w out o1) inp1 buf out d1) = Exit b w' -> kept_but out w w') as NEXT.
  { intros d1 o1 E. destruct (fi_eof inp1).
    - assert (w' = write_output w out o1) as -> by congruence. apply write_only.
    - eapply kept_trans; [apply write_only|]. eapply IH. exact E. }
  destruct (nonempty bytes); [|eapply NEXT; exact H].
  destruct (decode_chunk d bytes) as [d1 [|] o1| |]; [eapply NEXT; exact H| |discriminate H|discriminate H].
  injection H as _ <-. apply kept_refl.
Qed.

Lemma compare_loop_kept : forall fuel w inp buf orig d b w', compare_loop fuel w inp buf orig d = Exit b w' -> w' = w.
Proof.
  induction fuel as [|fuel IH]; intros w inp buf orig d b w' H; cbn [compare_loop] in H; [discriminate H|].
  destruct (fread w inp buf) as [bytes inp1].
  assert (forall d1 o1, (let '(same, orig1) := compare_output w orig o1 in
        if negb same then Exit false w
        else if fi_eof inp1 then
          if negb (snd (finish_decoding d1)) then Exit false w
          else Exit (negb (nonempty (fst (fread w orig1 1)))) w
        else compare_loop fuel w inp1 buf orig1 d1) = Exit b w' -> w' = w) as NEXT.
  { intros d1 o1 E. destruct (compare_output w orig o1) as [same orig1]. destruct (negb same); [congruence|].
    destruct (fi_eof inp1); [|eapply IH; exact E]. destruct (negb (snd (finish_decoding d1))); congruence. }
  destruct (nonempty bytes); [|exact (NEXT d [] H)].
  destruct (decode_chunk d bytes) as [d1 [|] o1| |]; [exact (NEXT d1 o1 H)|congruence|discriminate H|discriminate H].
Qed.

Lemma open_output_kept : forall w n w1, open_output w n = Some w1 -> kept_but n w w1.
Proof.
  intros w n w1 H. unfold open_output in H. destruct n as [|c n]; [injection H as <-; apply kept_refl|].
  destruct (wo_writable w (c :: n)); [|discriminate H]. injection H as <-.
  split; [|exists []; rewrite app_nil_r; reflexivity]. split; [reflexivity|]. split; [reflexivity|]. split; [|reflexivity]. intros m [N|N]; [|discriminate N].
  cbn [set_content wo_files]. rewrite name_eq_neq by exact N. reflexivity.
Qed.

Lemma cli_encode_kept : forall fuel w s b w', cli_encode fuel w s = Exit b w' -> kept_but (s_delta s) w w'.
Proof.
  intros fuel w s b w' H. unfold cli_encode in H.
  destruct (open_dictionary w s) as [dict|]; [|injection H as _ <-; apply kept_refl].
  destruct (open_for_reading w (s_target s) (s_buffersize s)) as [[inp buf]|]; [|injection H as _ <-; apply kept_refl].
  destruct (open_output w (s_delta s)) as [w1|] eqn:OO; [|injection H as _ <-; apply kept_refl].
  apply open_output_kept in OO.
  destruct (engine_init (new_engine dict)) as [[en [|]]|]; [|injection H as _ <-; exact OO|discriminate H]. cbv zeta in H.
  destruct (start_encoding _) as [[[e [|]] output]|]; [|injection H as _ <-; exact OO|discriminate H].
  eapply kept_trans; [exact OO|]. eapply encode_loop_kept. exact H.
Qed.

Lemma cli_decode_kept : forall fuel w s b w', cli_decode fuel w s = Exit b w' -> kept_but (s_target s) w w'.
Proof.
  intros fuel w s b w' H. unfold cli_decode in H.
  destruct (open_dictionary w s) as [dict|]; [|injection H as _ <-; apply kept_refl].
  destruct (open_for_reading w (s_delta s) (s_buffersize s)) as [[inp buf]|]; [|injection H as _ <-; apply kept_refl].
  destruct (open_output w (s_target s)) as [w1|] eqn:OO; [|injection H as _ <-; apply kept_refl].
  apply open_output_kept in OO. eapply kept_trans; [exact OO|]. eapply decode_loop_kept. exact H.
Qed.

Lemma cli_compare_kept : forall fuel w s b w', cli_compare fuel w s = Exit b w' -> w' = w.
Proof.
  intros fuel w s b w' H. unfold cli_compare in H.
  destruct (open_dictionary w s) as [dict|]; [|congruence].
  destruct (open_for_reading w (s_delta s) (s_buffersize s)) as [[inp buf]|]; [|congruence].
  destruct (open_for_reading w (s_target s) (s_buffersize s)) as [[orig buf2]|]; [|congruence].
  eapply compare_loop_kept. exact H.
Qed.

(** ** C73

    The file that a command writes: the delta for encode, delta and test, the
    target for decode and patch; the empty name stands for stdout. *)
Definition writes (a : name) (s : settings) (n : name) : Prop :=
  (In a [str_encode; str_delta; str_test] /\ n = s_delta s) \/ (In a [str_decode; str_patch] /\ n = s_target s).

(** Whatever the arguments and the status: every file other than that one is as
    it was before. *)
Theorem C73_other_files : forall fuel args s w b w', vcdiff_main fuel args s w = Exit b w' ->
  (forall n, (exists a, args = [a] /\ writes a s n) \/ wo_files w' n = wo_files w n) /\
  wo_stdin w' = wo_stdin w /\ (exists more, wo_stdout w' = wo_stdout w ++ more) /\
  (wo_stdout w' = wo_stdout w \/ exists a, args = [a] /\ writes a s []).
Proof.
  intros fuel args s w b w' H.
  cut (w' = w \/ exists a o, args = [a] /\ writes a s o /\ kept_but o w w').
  { intros [->|(a & o & -> & WR & ((K1 & K2 & K3 & K4) & K5))].
    - split; [auto|]. split; [reflexivity|]. split; [exists []; rewrite app_nil_r; reflexivity|auto].
    - split.
      + intros n. destruct (list_eq_dec Z.eq_dec n o) as [->|N]; [left; eauto|right; apply K3; auto].
      + split; [exact K1|]. split; [exact K5|]. destruct o as [|c o]; [right; eauto|left; apply K4; discriminate]. }
  unfold vcdiff_main in H. destruct args as [|a [|a2 args]]; try (left; congruence).
  unfold vcdiff, command_of in H.
  destruct (negb (nonempty (s_dictionary s))); [left; congruence|]. destruct (s_buffersize s =? 0); [left; congruence|].
  assert (forall x, name_eq a x = true -> a = x) as NE.
  { intros x. unfold name_eq. destruct (list_eq_dec Z.eq_dec a x); [auto|discriminate]. }
  destruct (name_eq a str_encode || name_eq a str_delta) eqn:E1.
  { right. exists a, (s_delta s). split; [reflexivity|]. split; [|eapply cli_encode_kept; exact H].
    left. split; [|reflexivity]. apply Bool.orb_true_iff in E1 as [E|E]; apply NE in E; subst a; cbn; auto. }
  destruct (name_eq a str_decode || name_eq a str_patch) eqn:E2.
  { right. exists a, (s_target s). split; [reflexivity|]. split; [|eapply cli_decode_kept; exact H].
    right. split; [|reflexivity]. apply Bool.orb_true_iff in E2 as [E|E]; apply NE in E; subst a; cbn; auto. }
  destruct (name_eq a str_test) eqn:E3; [|left; congruence].
  destruct (negb (nonempty (s_target s)) || negb (nonempty (s_delta s))); [left; congruence|].
  right. exists a, (s_delta s). split; [reflexivity|]. apply NE in E3. subst a. split; [left; cbn; auto|].
  destruct (cli_encode fuel w s) as [[|] w1| |] eqn:CE; [| |discriminate H|discriminate H].
  - apply cli_compare_kept in H. subst w'. eapply cli_encode_kept; exact CE.
  - injection H as <- <-. eapply cli_encode_kept; exact CE.
Qed.
Print Assumptions C73_other_files.

(** A wrong command line, or an input that is not there: status 1, and nothing at
    all has changed; the output file is not touched either. *)
Theorem C73_wrong_use : forall fuel args s w,
  (forall a, args = [a] -> ~ In a [str_encode; str_delta; str_decode; str_patch; str_test]) \/
  s_dictionary s = [] \/ wo_files w (s_dictionary s) = None \/ s_buffersize s = 0 \/
  (exists a, args = [a] /\ In a [str_encode; str_delta; str_test] /\ s_target s <> [] /\ wo_files w (s_target s) = None) \/
  (exists a, args = [a] /\ In a [str_decode; str_patch] /\ s_delta s <> [] /\ wo_files w (s_delta s) = None) \/
  (args = [str_test] /\ (s_target s = [] \/ s_delta s = [])) ->
  vcdiff_main fuel args s w = Exit false w.
Proof.
  intros fuel args s w H. unfold vcdiff_main. destruct args as [|a [|a2 args]]; try reflexivity.
  unfold vcdiff. destruct (s_dictionary s) as [|c0 n0] eqn:SD; [reflexivity|]. cbn [nonempty negb].
  destruct (Z.eqb_spec (s_buffersize s) 0) as [|B]; [reflexivity|].
  assert (forall n bs, n <> [] -> wo_files w n = None -> open_for_reading w n bs = None) as OR.
  { intros n bs N E. unfold open_for_reading. destruct n; [congruence|]. rewrite E. reflexivity. }
  destruct H as [H|[H|[H|[H|[(x & E & I & N & F)|[(x & E & I & N & F)|[E [H|H]]]]]]]]; try congruence.
  - specialize (H a eq_refl). unfold command_of.
    assert (forall x, In x [str_encode; str_delta; str_decode; str_patch; str_test] -> name_eq a x = false) as NE.
    { intros x I. apply name_eq_neq. intros ->. contradiction. }
    rewrite !NE by (cbn; auto 8). reflexivity.
  - unfold cli_encode, cli_decode, open_dictionary. rewrite SD, H.
    destruct (command_of a); try reflexivity. destruct (_ || _); reflexivity.
  - injection E as <-. unfold cli_encode. destruct (open_dictionary w s); rewrite ?(OR _ _ N F);
      destruct I as [<-|[<-|[<-|[]]]]; try reflexivity; cbn [command_of]; change (command_of str_test) with CTest; cbv iota; destruct (_ || _); reflexivity.
  - injection E as <-. unfold cli_decode. destruct (open_dictionary w s); rewrite ?(OR _ _ N F);
      destruct I as [<-|[<-|[]]]; reflexivity.
  - injection E as ->. change (command_of str_test) with CTest. cbv iota. rewrite H. reflexivity.
  - injection E as ->. change (command_of str_test) with CTest. cbv iota. rewrite H, Bool.orb_true_r. reflexivity.
Qed.
Print Assumptions C73_wrong_use.

(** The inputs are as before, provided that none of them has the name of the
    output. *)
Theorem C73_inputs_partial : forall fuel a s w b w', vcdiff_main fuel [a] s w = Exit b w' ->
  (forall n, writes a s n -> s_dictionary s <> n /\ (In a [str_encode; str_delta; str_test] -> s_target s <> n) /\ (In a [str_decode; str_patch] -> s_delta s <> n)) ->
  wo_files w' (s_dictionary s) = wo_files w (s_dictionary s) /\
  (In a [str_encode; str_delta; str_test] -> wo_files w' (s_target s) = wo_files w (s_target s)) /\
  (In a [str_decode; str_patch] -> wo_files w' (s_delta s) = wo_files w (s_delta s)).
Proof.
  intros fuel a s w b w' H N. destruct (C73_other_files _ _ _ _ _ _ H) as (K & _).
  assert (forall n, ~ writes a s n -> wo_files w' n = wo_files w n) as K'.
  { intros n NW. destruct (K n) as [(x & E & WR)|E]; [injection E as <-; contradiction|exact E]. }
  split; [apply K'; intros WR; destruct (N _ WR); congruence|]. split; intros I; apply K'; intros WR; destruct (N _ WR) as (_ & A & B); [apply (A I)|apply (B I)]; reflexivity.
Qed.
Print Assumptions C73_inputs_partial.

(** The output must not be an input: decoding a file onto itself empties it and
    reports success, whatever the file contains. *)
Theorem C73_same_file_refuted : forall fuel s w dict x,
  s_delta s = s_target s -> s_target s <> [] -> wo_writable w (s_target s) = true ->
  wo_files w (s_target s) = Some x -> x <> [] -> s_dictionary s <> [] -> wo_files w (s_dictionary s) = Some dict ->
  bytes_ok dict -> 0 < s_buffersize s -> 0 <= s_max_file s <= size_max -> 0 <= s_max_window s <= size_max -> (0 < fuel)%nat ->
  exists w', vcdiff_main fuel [str_decode] s w = Exit true w' /\ wo_files w' (s_delta s) = Some [].
Proof.
  intros fuel s w dict x ES N WW FX XN DN FD BD B MF MW FU. unfold vcdiff_main. change (command_of str_decode) with CDecode. unfold vcdiff.
  destruct (s_dictionary s) as [|c0 n0] eqn:ED; [congruence|]. cbn [nonempty negb]. destruct (Z.eqb_spec (s_buffersize s) 0); [lia|].
  unfold cli_decode, open_dictionary. rewrite ED, FD, ES. unfold open_for_reading, open_output.
  destruct (s_target s) as [|c n1] eqn:ET; [congruence|]. rewrite FX, WW.
  destruct fuel as [|fuel]; [lia|]. cbn [decode_loop].
  set (buf := if zlen x <? s_buffersize s then zlen x else s_buffersize s).
  assert (0 < buf) as BP.
  { unfold buf. destruct x as [|b0 x0]; [congruence|]. rewrite zlen_cons. pose proof (zlen_nonneg _ x0). destruct (Z.ltb_spec (1 + zlen x0) (s_buffersize s)); lia. }
  unfold fread. destruct (Z.eqb_spec buf 0); [lia|]. cbn [fi_name fi_pos fi_eof content set_content wo_files]. rewrite name_eq_refl, zdrop_0.
  rewrite (ztake_all _ buf (@nil Z)) by (rewrite zlen_nil; lia). rewrite zlen_nil. cbn [nonempty orb].
  destruct (Z.ltb_spec 0 buf); [|lia]. cbn [fi_eof].
  pose proof (cli_decoder_plain s MF MW) as IP. pose proof (idle_plain_idle _ IP) as [ID _].
  destruct (no_chunk (cli_decoder s) dict ID) as (e1 & e2 & D1 & D2 & F1 & F2). cbn [decode_chunks] in D1.
  assert (snd (finish_decoding (start_decoding (cli_decoder s) dict)) = true) as -> by congruence.
  exists (set_content w (c :: n1) []). split; [reflexivity|]. cbn [set_content wo_files]. rewrite name_eq_refl. reflexivity.
Qed.
Print Assumptions C73_same_file_refuted.

(** And encoding with the dictionary as output: status 0, the dictionary is gone, and
    what was written in its place cannot be decoded. *)
Theorem C73_dictionary_refuted : exists s w dict target w' w2,
  wo_files w (s_dictionary s) = Some dict /\ wo_files w (s_target s) = Some target /\ target <> [] /\
  s_target s <> s_dictionary s /\ s_delta s = s_dictionary s /\
  vcdiff_main 200 [str_encode] s w = Exit true w' /\
  (exists delta, wo_files w' (s_dictionary s) = Some delta /\ delta <> dict) /\
  vcdiff_main 200 [str_decode] (some_settings n_copy (s_delta s) 50) w' = Exit false w2.
Proof.
  exists (some_settings n_target n_dict 50), (some_world c01_dict c01_target []), c01_dict, c01_target.
  destruct (vcdiff_main 200 [str_encode] (some_settings n_target n_dict 50) (some_world c01_dict c01_target [])) as [b w1| |] eqn:E1;
    [|vm_compute in E1; discriminate E1|vm_compute in E1; discriminate E1].
  assert (b = true) as -> by (vm_compute in E1; congruence).
  destruct (vcdiff_main 200 [str_decode] (some_settings n_copy n_dict 50) w1) as [b w2| |] eqn:E2.
  - exists w1, w2. split; [reflexivity|]. split; [reflexivity|]. split; [discriminate|]. split; [discriminate|]. split; [reflexivity|]. split; [reflexivity|].
    assert (w1 = match vcdiff_main 200 [str_encode] (some_settings n_target n_dict 50) (some_world c01_dict c01_target []) with Exit _ x => x | _ => some_world [] [] [] end) as W
      by (rewrite E1; reflexivity).
    split.
    + subst w1. eexists. split; [vm_compute; reflexivity|]. vm_compute. discriminate.
    + cbn [s_delta some_settings]. rewrite E2. f_equal. subst w1. clear - E2. vm_compute in E2. congruence.
  - exfalso. assert (w1 = match vcdiff_main 200 [str_encode] (some_settings n_target n_dict 50) (some_world c01_dict c01_target []) with Exit _ x => x | _ => some_world [] [] [] end) as W
      by (rewrite E1; reflexivity). subst w1. vm_compute in E2. discriminate E2.
  - exfalso. assert (w1 = match vcdiff_main 200 [str_encode] (some_settings n_target n_dict 50) (some_world c01_dict c01_target []) with Exit _ x => x | _ => some_world [] [] [] end) as W
      by (rewrite E1; reflexivity). subst w1. vm_compute in E2. discriminate E2.
Qed.
Print Assumptions C73_dictionary_refuted.

(** "vcdiff test" writes the delta; the target and a file that it has nothing to do
    with are as before.  The hypotheses of the refutation hold of a file with a
    correct delta. *)
Example C73_case :
  match vcdiff_main 200 [str_test] (some_settings n_target n_delta 50) (some_world c01_dict c01_target [1;2;3]) with
  | Exit true w' => wo_files w' n_target = Some c01_target /\ wo_files w' n_dict = Some c01_dict /\ wo_files w' n_copy = None /\
      wo_files w' n_delta <> Some [1;2;3] /\ wo_stdout w' = []
  | _ => False
  end /\
  (exists w', vcdiff_main 1 [str_decode] (some_settings n_delta n_delta 50) (some_world ex_dict [] hello_delta) = Exit true w' /\ wo_files w' n_delta = Some []) /\
  vcdiff_main 200 [str_encode; str_delta] (some_settings n_target n_delta 50) (some_world c01_dict c01_target [1;2;3]) = Exit false (some_world c01_dict c01_target [1;2;3]).
Proof.
  split; [|split].
  - vm_compute. repeat split; discriminate.
  - apply (C73_same_file_refuted 1 (some_settings n_delta n_delta 50) (some_world ex_dict [] hello_delta) ex_dict hello_delta); try reflexivity; try discriminate.
    + apply bytes_okb_ok. reflexivity.
    + cbn [s_max_file some_settings]. unfold size_max. lia.
    + cbn [s_max_window some_settings]. unfold size_max. lia.
    + lia.
  - apply C73_wrong_use. left. discriminate.
Qed.
