(** C83: what is taken from the dictionary costs a constant. *)

From Verif Require Import Base ListFacts Spec SpecEncode SpecFind SpecMaximal SpecEdits WriterFacts Engine EngineFacts EncodeTable Encoder EncoderFacts Properties_Encode Finds Maximal Edits.
From Coq Require Import ZifyBool ZifyNat.

Lemma encode_cost_look : forall dict fl look target c, bytes_ok dict -> bytes_ok target -> zlen dict + zlen target <= int32_max -> zlen target <= 2147483594 ->
  fl_json fl = false -> 0 <= c ->
  (forall en l, target <> [] -> engine_init (new_engine dict) = Some (en, true) -> engine_encode en look target = Some (Some l) -> costs l <= c) ->
  exists v delta, encode (set_target_matching (set_format_flags (new_vcdiff_encoder dict) fl) look) target = Some (v, true, delta) /\
    zlen delta <= c + 52.
Proof.
  intros dict fl look target c BD BT L L2 J C0 CO. pose proof (zlen_nonneg _ target). pose proof (zlen_nonneg _ dict).
  destruct (engine_init_ok dict BD) as (en & EI & EN); [lia|].
  unfold encode. cbn [set_target_matching set_format_flags new_vcdiff_encoder ve_engine ve_encoder ve_flags ve_look]. rewrite EI.
  destruct (new_encoder_inv en dict fl look true EN) as (im & E0); [lia|exact J|].
  destruct (start_encoding_ok _ _ _ _ _ E0) as (c0 & _ & ES & E1).
  destruct (encode_chunk_ok _ dict im _ _ target [] E1 eq_refl BT L L2) as (w' & out & EC & _ & _ & _ & O).
  unfold encode_stream. rewrite ES. cbn [encode_chunks]. rewrite EC.
  unfold finish_encoding. cbn [set_coder ec_allowed negb ec_coder coder_finish]. do 2 eexists. split; [reflexivity|].
  rewrite app_nil_r, zlen_app. destruct (write_header_bytes (ec_flags (new_encoder en fl look))) as [_ ->].
  destruct O as [[_ ->]|(NE & _ & _ & _ & O)]; [rewrite zlen_nil; lia|].
  destruct (engine_encode_ok en dict look target EN BT NE L) as (l & EE & _). specialize (O l EE). specialize (CO en l NE EI EE). lia.
Qed.

(** The target is put together from parts of the dictionary, of any length and in any
    order, and new data.  In the dictionary no 16 bytes occur twice, and no slot of its index is
    crowded.  Then the delta is at most as long as the new data, and 109 bytes for
    every part, and 58 bytes.  With target matching, no 16 bytes may occur twice in
    the target either. *)
Theorem C83_edits : forall dict ps fl look,
  bytes_ok dict -> bytes_ok (assembled ps) -> unique16 dict -> uncrowded dict -> kept_parts dict ps -> (look = true -> unique16 (assembled ps)) ->
  zlen dict + zlen (assembled ps) <= 2147483647 -> zlen (assembled ps) + 53 <= 2147483647 -> fl_json fl = false ->
  exists v delta, encode (set_target_matching (set_format_flags (new_vcdiff_encoder dict) fl) look) (assembled ps) = Some (v, true, delta) /\
    zlen delta <= new_bytes ps + 109 * zlen ps + 58.
Proof.
  intros dict ps fl look BD BT U C K UT L L2 J.
  assert (0 <= new_bytes ps) as N0 by (clear; induction ps as [|[k c] ps IH]; cbn [new_bytes]; [lia|]; pose proof (zlen_nonneg _ c); destruct k; lia).
  pose proof (zlen_nonneg _ ps).
  destruct (encode_cost_look dict fl look (assembled ps) (new_bytes ps + 109 * zlen ps + 6) BD BT) as (v & delta & E & D); auto; try lia.
  - intros en l NE EI EE. destruct (engine_init_ok dict BD) as (en' & EI' & EN); [unfold int32_max; pose proof (zlen_nonneg _ (assembled ps)); lia|].
    rewrite EI in EI'. assert (en' = en) as -> by congruence.
    destruct (engine_encode_ok en dict look (assembled ps) EN BT NE L) as (l' & EE' & GP). assert (l' = l) as -> by congruence.
    pose proof (edit_costs dict ps en l look BD BT L U C K EI EE UT (length l) l [] [] false (le_n _) eq_refl eq_refl GP) as CO.
    rewrite zlen_nil, (newb_0 ps 0), newb_all in CO by (unfold plen; lia). pose proof (endsb_le ps (zlen (assembled ps))). pose proof (endsb_nonneg ps 0). lia.
  - exists v, delta. split; [exact E|]. lia.
Qed.
Print Assumptions C83_edits.

(** In particular, a change of any size in the middle of a file: the delta has the
    length of the new text and at most 385 bytes, whatever is before it and behind it. *)
Theorem C83_one_edit : forall before old new after fl look,
  let dict := before ++ old ++ after in let target := before ++ new ++ after in
  bytes_ok dict -> bytes_ok new -> unique16 dict -> uncrowded dict -> (look = true -> unique16 target) ->
  zlen dict + zlen target <= 2147483647 -> zlen target + 53 <= 2147483647 -> fl_json fl = false ->
  exists v delta, encode (set_target_matching (set_format_flags (new_vcdiff_encoder dict) fl) look) target = Some (v, true, delta) /\
    zlen delta <= zlen new + 385.
Proof.
  intros before old new after fl look dict target BD BN U C UT L L2 J.
  assert (assembled [(true, before); (false, new); (true, after)] = target) as EA.
  { unfold assembled, target. cbn [map snd concat]. rewrite app_nil_r. reflexivity. }
  assert (bytes_ok target) as BT.
  { unfold dict, target in *. rewrite !bytes_ok_app in *. tauto. }
  destruct (C83_edits dict [(true, before); (false, new); (true, after)] fl look) as (v & delta & E & D); rewrite ?EA; auto.
  - repeat constructor; cbn [fst snd]; try discriminate; intros _.
    + exists 0. unfold dict. pose proof (zlen_nonneg _ (old ++ after)). rewrite slice_some; [|lia|apply zlen_nonneg|rewrite zlen_app; lia].
      rewrite zdrop_0, ztake_app_le by lia. rewrite ztake_all by lia. reflexivity.
    + exists (zlen (before ++ old)). unfold dict. rewrite app_assoc. pose proof (zlen_nonneg _ (before ++ old)). pose proof (zlen_nonneg _ after).
      rewrite slice_some; [|lia|lia|rewrite (zlen_app _ (before ++ old)); lia].
      rewrite zdrop_app_eq by reflexivity. rewrite ztake_all by lia. reflexivity.
  - rewrite EA in E. exists v, delta. split; [exact E|]. cbn [new_bytes] in D. rewrite !zlen_cons, zlen_nil in D. lia.
Qed.
Print Assumptions C83_one_edit.

(** A dictionary of 200 different bytes; in the target 20 of them are replaced by 3
    others.  The delta is 26 bytes long, for a target of 183. *)
Definition c83_dict : list Z := map Z.of_nat (seq 0 200).
Definition c83_before : list Z := ztake 80 c83_dict.
Definition c83_old : list Z := ztake 20 (zdrop 80 c83_dict).
Definition c83_after : list Z := zdrop 100 c83_dict.
Definition c83_target : list Z := c83_before ++ [250; 251; 252] ++ c83_after.

(** The position of 16 bytes can be told from them. *)
Lemma unique_by : forall (l : list Z) (pos : list Z -> Z),
  forallb (fun k => match slice l (Z.of_nat k) 16 with Some s => pos s =? Z.of_nat k | None => true end) (seq 0 (length l)) = true -> unique16 l.
Proof.
  intros l pos F. rewrite forallb_forall in F.
  assert (forall i s, slice l i 16 = Some s -> pos s = i) as H.
  { intros i s E. pose proof E as E'. apply slice_inv in E' as (A & _ & B & _ & _).
    specialize (F (Z.to_nat i)). rewrite in_seq in F. rewrite zlen_length in B. specialize (F ltac:(lia)). rewrite Z2Nat.id in F by lia.
    rewrite E in F. lia. }
  intros i j s A B. apply H in A. apply H in B. congruence.
Qed.

Example C83_case : c83_before ++ c83_old ++ c83_after = c83_dict /\ bytes_ok c83_dict /\ unique16 c83_dict /\ uncrowded c83_dict /\
  unique16 c83_target /\
  match encode (set_target_matching (new_vcdiff_encoder c83_dict) true) c83_target with
  | Some (_, true, delta) => zlen delta = 26 /\ zlen c83_target = 183
  | _ => False
  end.
Proof.
  assert (zlen c83_dict = 200) as ZD by (vm_compute; reflexivity).
  split; [vm_compute; reflexivity|]. split; [apply bytes_okb_ok; vm_compute; reflexivity|]. split; [|split; [|split]].
  - apply (unique_by _ (fun s => nth 0 s 0)). vm_compute. reflexivity.
  - intros b B B2. rewrite ZD in *. pose proof (crowd_le 200 c83_dict b B). lia.
  - apply (unique_by _ (fun s => let x := nth 0 s 0 in if x <? 80 then x else if x <? 250 then x - 17 else x - 170)). vm_compute. reflexivity.
  - vm_compute. split; reflexivity.
Qed.

(** Without the condition on the index the claim is false: all blocks of this
    dictionary are in one slot, of which the encoder looks at the first ones only.  A target of
    192 bytes that is taken from its end is sent as new data. *)
Definition c83_crowded : list Z := concat (map (fun k => [Z.of_nat k; 40 - Z.of_nat k] ++ zrepeat 100 14) (seq 1 29)).
(** The first byte of the 16 that is not 100, which is the first one of a block, unless it is
    the second one of the block at the very beginning. *)
Fixpoint c83_first (s : list Z) (o : Z) : Z * Z :=
  match s with [] => (0, o) | x :: tl => if x =? 100 then c83_first tl (o + 1) else (x, o) end.
Definition c83_position (s : list Z) : Z :=
  let '(x, o) := c83_first s 0 in
  if (o =? 0) && negb (nth 0 s 0 + nth 1 s 0 =? 40) then 16 * (40 - x - 1) + 1 else 16 * (x - 1) - o.
Theorem C83_crowded_refuted : exists dict i target fl look, bytes_ok dict /\ unique16 dict /\ slice dict i (zlen target) = Some target /\
  (look = true -> unique16 target) /\ fl_json fl = false /\
  match encode (set_target_matching (set_format_flags (new_vcdiff_encoder dict) fl) look) target with
  | Some (_, true, delta) => zlen delta > 109 + 58 /\ zlen delta > zlen target
  | _ => False
  end.
Proof.
  exists c83_crowded, 272, (zdrop 272 c83_crowded), VCD_STANDARD_FORMAT, false.
  split; [apply bytes_okb_ok; vm_compute; reflexivity|]. split; [|split; [vm_compute; reflexivity|split; [discriminate|split; [reflexivity|vm_compute; split; reflexivity]]]].
  apply (unique_by _ c83_position). vm_compute. reflexivity.
Qed.
Print Assumptions C83_crowded_refuted.
