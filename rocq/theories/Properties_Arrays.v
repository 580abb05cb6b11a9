(** The code table writer and its arrays: C78. *)

From Coq Require Import ZifyBool ZifyNat.
From Verif Require Import Base ListFacts SpecEncode Varint AddrCache AddrCacheFacts CodeTable InstructionMap InstructionMapFacts CodeTableFacts EncodeTable
  JsonWriter Adler Engine Encoder Writers SpecWriters WriterArrays.

(** Calls of the virtual functions one after the other, whatever their replies are; None: one
    of them accesses memory outside an array. *)
Fixpoint all_calls (c : coder) (l : list wcall) : option coder :=
  match l with
  | [] => Some c
  | x :: tl => match one_call library_writer c x with Some (c', _, _) => all_calls c' tl | None => None end
  end.

(** For every code table of which a map can be made (C62), also one that Validate refuses: when Init has returned true, no sequence of
    calls leaves the arrays, if the highest mode of the address cache, near + same + 1, is not above max_mode.
    Copy may be called with any address and size.  Missing for the full claim: the other arguments of the constructor,
    for which it is false. *)
Theorem C78_partial : forall il ns ss t m n w, 0 <= ns -> 0 <= ss -> ns + ss + 1 <= m ->
  writer_init (new_custom_writer il ns ss t m) n = Some (w, true) -> forall l, all_calls (Binary w) l <> None.
Proof.
  intros il ns ss t m n w N S M H.
  unfold writer_init in H. cbn [new_custom_writer wr_map wr_table wr_max_mode wr_near wr_same] in H.
  destruct (make_map t m) as [im|] eqn:EM; [|discriminate]. destruct (cache_init ns ss) as [c|] eqn:EC; [|discriminate].
  destruct (init_fits ns ss c N S EC) as [CF NS].
  assert (safe m ns ss w) as SF.
  { injection H as <-. constructor; [exists im; split; [reflexivity|apply (make_rows _ _ _ EM)]|auto|exact CF|left; reflexivity]. }
  clear H. intros l. revert w SF. induction l as [|x l IH]; intros w SF; cbn [all_calls]; [discriminate|].
  destruct x as [k|d|f|d|x|i| |]; cbn [one_call library_writer k_init k_verify_dictionary k_header k_verify_chunk k_checksum k_call k_output k_finish coder_init coder_calls coder_output coder_checksum writer_calls].
  - destruct (init_safe m ns ss w k N S NS SF) as (w' & -> & SF'). apply IH, SF'.
  - apply IH, SF.
  - apply IH, SF.
  - apply IH, SF.
  - apply IH. destruct SF as [A B C D]. constructor; auto.
  - destruct (call_safe m ns ss w i N S ltac:(lia) NS M SF) as (w' & -> & SF'). apply IH, SF'.
  - destruct (output_safe m ns ss w N S NS SF) as (w' & o & -> & SF'). apply IH, SF'.
  - apply IH, SF.
Qed.
Print Assumptions C78_partial.

(** The condition is exact: with a smaller max_mode, calls of Copy with addresses in the dictionary go outside. *)
Theorem C78_outside : forall il ns ss t m, 0 <= ns -> 0 <= ss -> ns + ss <= 254 -> make_map t m <> None -> m < ns + ss + 1 ->
  exists n w l, writer_init (new_custom_writer il ns ss t m) n = Some (w, true) /\
    Forall (fun i => exists a, i = Copy a 1 /\ 0 <= a < n) l /\ all_calls (Binary w) (map WInstruction l) = None.
Proof.
  intros il ns ss t m N S NS MM M. destruct (make_map t m) as [im|] eqn:EM; [|congruence]. clear MM.
  destruct (cache_init ns ss) as [c|] eqn:EC; [|unfold cache_init in EC; destruct (Z.ltb_spec 254 (ns + ss)); [lia|discriminate EC]].
  set (w n := set_state (new_custom_writer il ns ss t m) c n 0 (Some im) (-1)).
  assert (forall n, writer_init (new_custom_writer il ns ss t m) n = Some (w n, true)) as WI.
  { intros n. unfold writer_init. cbn [new_custom_writer wr_map wr_table wr_max_mode wr_near wr_same]. rewrite EM, EC. reflexivity. }
  assert (forall n, at_state m (w n) c n 0) as AS.
  { intros n. constructor; [exists im; split; [reflexivity|exact (make_rows _ _ _ EM)]|reflexivity|reflexivity|reflexivity|left; reflexivity]. }
  assert (forall l w, writer_calls w l = None -> all_calls (Binary w) (map WInstruction l) = None) as AC.
  { clear. induction l as [|i l IH]; intros w H; cbn [writer_calls] in H; [discriminate|]. cbn [map all_calls one_call library_writer k_call coder_calls writer_calls].
    destruct (writer_call w i) as [w'|]; [apply IH, H|reflexivity]. }
  destruct (Z.eq_dec ss 0) as [->|SP]; [destruct (Z.eq_dec ns 0) as [->|NP]|].
  - exists 3, (w 3), [Copy 2 1]. split; [apply WI|]. split; [constructor; [exists 2; split; [reflexivity|lia]|constructor]|].
    apply AC. apply (outside_none m (w 3) c EC (AS 3)). lia.
  - exists 2, (w 2), (repeat (Copy 0 1) (Z.to_nat (ns - 1)) ++ [Copy 1 1; Copy 1 1]). split; [apply WI|]. split.
    + apply Forall_app. split; [apply Forall_forall; intros x X; apply repeat_spec in X; exists 0; split; [exact X|lia]|].
      repeat (constructor; [exists 1; split; [reflexivity|lia]|]). constructor.
    + apply AC. apply (outside_near m ns (w 2)); [|lia|lia]. replace (zeros ns 0) with c; [apply AS|].
      unfold cache_init in EC. destruct (254 <? ns + 0); [discriminate|]. injection EC as <-. reflexivity.
  - exists (ss * 256), (w (ss * 256)), [Copy (ss * 256 - 1) 1; Copy (ss * 256 - 1) 1]. split; [apply WI|]. split.
    + repeat (constructor; [exists (ss * 256 - 1); split; [reflexivity|lia]|]). constructor.
    + apply AC. apply (outside_same m ns ss _ c EC (AS _)); lia.
Qed.
Print Assumptions C78_outside.

(** encodetable.cc 68-84, 102-112: the constructor for a custom code table, called with kDefaultCodeTableData itself.  Init compares
    addresses and then takes the map for the default modes (instruction_map.cc 27-34); max_mode_ is not used elsewhere. *)
Definition writer_for_default_data (il : bool) (ns ss max_mode : Z) : writer := new_custom_writer il ns ss default_table default_last_mode.

(** With the default table and other cache sizes max_mode may be right and is ignored: the encoder
    for near cache 10, same cache 3 reads outside the map at the second COPY of the same address. *)
Theorem C78_refuted : exists il ns ss max_mode n w l, max_mode = last_mode ns ss /\
  writer_init (writer_for_default_data il ns ss max_mode) n = Some (w, true) /\
  Forall (fun i => exists a, i = Copy a 1 /\ 0 <= a < n) l /\ all_calls (Binary w) (map WInstruction l) = None.
Proof.
  assert (make_map default_table default_last_mode <> None) as NN.
  { assert (match make_map default_table default_last_mode with Some _ => true | None => false end = true) as E by (vm_compute; reflexivity).
    intros X. rewrite X in E. discriminate E. }
  destruct (C78_outside false 10 3 default_table default_last_mode ltac:(lia) ltac:(lia) ltac:(lia) NN ltac:(reflexivity)) as (n & w & l & A & B & C).
  exists false, 10, 3, 14, n, w, l. split; [reflexivity|]. auto.
Qed.
Print Assumptions C78_refuted.

(** Smaller caches are safe with the default table. *)
Example C78_case : forall il n, exists w, writer_init (writer_for_default_data il 2 5 8) n = Some (w, true) /\
  (forall l, all_calls (Binary w) l <> None) /\
  all_calls (Binary w) [WInstruction (Copy 5 300); WInstruction (Add [1]); WOutput; WInstruction (Copy (-1) 0)] <> None.
Proof.
  intros il n.
  destruct (make_map default_table default_last_mode) as [im|] eqn:EM.
  2: { exfalso. assert (match make_map default_table default_last_mode with Some _ => true | None => false end = true) as E by (vm_compute; reflexivity).
       rewrite EM in E. discriminate E. }
  eexists. assert (writer_init (writer_for_default_data il 2 5 8) n = Some (set_state (writer_for_default_data il 2 5 8) {| near_size := 2; same_size := 5; next_slot := 0;
               near_a := zrepeat 0 2; same_a := zrepeat 0 (5 * 256) |} n 0 (Some im) (-1), true)) as W.
  { unfold writer_init, writer_for_default_data. cbn [new_custom_writer wr_map wr_table wr_max_mode wr_near wr_same]. rewrite EM. reflexivity. }
  split; [exact W|]. assert (forall l, all_calls _ l <> None) as X by (eapply C78_partial; [| | |exact W]; unfold default_last_mode, kDefaultNearCacheSize, kDefaultSameCacheSize; lia).
  split; [exact X|apply X].
Qed.
