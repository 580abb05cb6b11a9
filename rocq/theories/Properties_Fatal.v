(** C59: which input can end the program in a build without NDEBUG.

    [exits d l] is the first VCD_DFATAL reached when the calls [l] are made on the decoder
    [d] ([Fatal.f_do] for each call).  [in_order]: the calls are made in the documented
    order.  [plain_session]: the Hdr_Indicator of no file has the bit VCD_CODETABLE.
    [sizes_fit M]: the limit for the size of the target is never above [M], and [M] plus the
    size of any dictionary is at most 2^31-1. *)

From Verif Require Import Base ListFacts Spec Varint AddrCache CodeTable InstructionMap DecodeTable HeaderParser
  Adler Decoder CopyFacts BodyFacts Platform PlatformFacts Fatal FatalFacts.
From Coq Require Import ZifyBool ZifyNat.

(** No call may end the program: false. *)
Definition never_exits (l : list pcall) : Prop := exits new_decoder l = None.

(** Files whose header asks for its own code table; the code table is the default one.
    [cc] are the encoded cache sizes, [win] the windows. *)
Definition same_table : list Z :=
  [214; 195; 196; 0; 0; 1; 140; 0; 0; 10; 140; 0; 0; 0; 3; 1; 19; 140; 0; 0].
Definition with_table (cc win : list Z) : list Z := [214; 195; 196; 0; 2] ++ cc ++ same_table ++ win.
(** A window of one byte. *)
Definition one_byte : list Z := [0; 7; 1; 0; 1; 1; 0; 65; 2].
(** A window with a COPY in mode 5. *)
Definition copy_mode5 : list Z := [1; 4; 0; 7; 4; 0; 0; 1; 1; 100; 0].
(** A window with the whole dictionary of 2^31-1 bytes as source segment: ADD 1, COPY 4. *)
Definition whole_dict : list Z := [214; 195; 196; 0; 0; 1; 135; 255; 255; 255; 127; 0; 9; 5; 0; 1; 2; 1; 65; 2; 20; 0].

Lemma here_wraps : forall dict, zlen dict = 2147483647 -> exits new_decoder [PStart dict; PChunk whole_dict] = Some HereNegative.
Proof.
  intros dict E. change (exits new_decoder [PStart dict; PChunk whole_dict]) with
    (first (f_decode_chunk (Dec (start_core new_core dict) None) whole_dict)
       (match do64 (Dec (start_core new_core dict) None) (PChunk whole_dict) with Some (d', _, _) => exits d' [] | None => None end)).
  enough (f_decode_chunk (Dec (start_core new_core dict) None) whole_dict = Some HereNegative) as ->; [reflexivity|].
  unfold f_decode_chunk. change (chunk_fuel (Dec (start_core new_core dict) None) whole_dict) with (23%nat). cbn [f_decode_chunk_fuel].
  set (c1 := set_file (start_core new_core dict) 0 (Some (4, 3)) [] default_table).
  assert (f_decode_window c1 (zdrop 5 whole_dict) = Some HereNegative) as W.
  { unfold f_decode_window, f_sections, read_header. change (d_win c1) with (@None window). change (d_dict c1) with dict. rewrite E. vm_compute. reflexivity. }
  change (d_started (start_core new_core dict)) with true. cbn [negb].
  change (d_unparsed (start_core new_core dict) ++ whole_dict) with whole_dict. cbv zeta.
  replace (f_file_header (start_core new_core dict) whole_dict) with (@None site) by (vm_compute; reflexivity). cbn [first].
  replace (read_file_header (Dec (start_core new_core dict) None) whole_dict) with (Ok (Dec c1 None, zdrop 5 whole_dict)) by (vm_compute; reflexivity).
  cbv iota beta. change (zdrop 5 whole_dict) with (1 :: zdrop 6 whole_dict) in *. cbn [f_window_loop]. rewrite W. reflexivity.
Qed.

Theorem C59_refuted : 
  (exists l, Forall arg_ok l /\ in_order new_decoder false l /\ exits new_decoder l = Some NearSizeInvalid) /\
  (exists l, Forall arg_ok l /\ in_order new_decoder false l /\ exits new_decoder l = Some SameSizeInvalid) /\
  (exists l, Forall arg_ok l /\ in_order new_decoder false l /\ exits new_decoder l = Some CacheInitFailed) /\
  (exists l, Forall arg_ok l /\ in_order new_decoder false l /\ exits new_decoder l = Some ModeInvalid) /\
  (exists l, Forall arg_ok l /\ in_order new_decoder false l /\ exits new_decoder l = Some HereNegative).
Proof.
  assert (forall dict x, Forall arg_ok [PStart dict; PChunk x] <-> bytes_ok dict /\ bytes_ok x) as A.
  { intros dict x. split; [intros H; inversion H as [|? ? H1 H2]; subst; inversion H2; subst; auto|]. intros [H1 H2]. repeat constructor; auto. }
  assert (forall dict x, in_order new_decoder false [PStart dict; PChunk x]) as O.
  { intros dict x. cbn [in_order do64]. split; [reflexivity|]. split; [reflexivity|]. destruct (decode_chunk _ _); exact Logic.I. }
  split; [|split; [|split; [|split]]].
  - exists [PStart []; PChunk (with_table [130; 0; 3] [])]. split; [apply A; split; [constructor|apply bytes_okb_ok; reflexivity]|]. split; [apply O|vm_compute; reflexivity].
  - exists [PStart []; PChunk (with_table [4; 130; 0] [])]. split; [apply A; split; [constructor|apply bytes_okb_ok; reflexivity]|]. split; [apply O|vm_compute; reflexivity].
  - exists [PStart []; PChunk (with_table [129; 72; 129; 72] one_byte)]. split; [apply A; split; [constructor|apply bytes_okb_ok; reflexivity]|]. split; [apply O|vm_compute; reflexivity].
  - exists [PStart [1; 2; 3; 4]; PChunk (with_table [0; 0] copy_mode5)]. split; [apply A; split; apply bytes_okb_ok; reflexivity|]. split; [apply O|vm_compute; reflexivity].
  - exists [PStart (zrepeat 0 2147483647); PChunk whole_dict].
    split; [apply A; split; [apply bytes_ok_zrepeat; unfold byte_ok; lia|apply bytes_okb_ok; reflexivity]|]. split; [apply O|].
    apply here_wraps. apply zlen_zrepeat. lia.
Qed.
Print Assumptions C59_refuted.

(** These five are all. *)
Theorem C59_partial : forall l s, Forall arg_ok l -> in_order new_decoder false l -> exits new_decoder l = Some s ->
  In s [NearSizeInvalid; SameSizeInvalid; CacheInitFailed; ModeInvalid; HereNegative].
Proof.
  intros l s A O E. apply (exits_fine None false) with (l := l) (d := new_decoder) (started := false) (acc := []) in E; auto.
  - destruct s; cbn in *; try contradiction; auto 10.
  - exact Logic.I.
  - apply new_fstate. exact Logic.I.
  - apply Forall_forall. intros x _. exact Logic.I.
  - intros X. congruence.
  - discriminate.
Qed.
Print Assumptions C59_partial.

(** Without code tables in the files and with sizes below 2^31 there is none. *)
Theorem C59_plain : forall M l, Forall arg_ok l -> in_order new_decoder false l -> plain_session [] l ->
  sizes_fit M l -> not_lowered false kDefaultMaximumTargetFileSize l -> never_exits l.
Proof.
  intros M l A O P (S1 & S2 & S3) N. unfold never_exits. destruct (exits new_decoder l) as [s|] eqn:E; [exfalso|reflexivity].
  apply (exits_fine (Some M) true) with (l := l) (d := new_decoder) (started := false) (acc := []) in E; auto.
  - destruct s; cbn in *; try contradiction; discriminate.
  - split; auto.
  - apply new_fstate. split; auto.
Qed.
Print Assumptions C59_plain.

(** With code tables in the files, but sizes below 2^31. *)
Theorem C59_sizes : forall M l s, Forall arg_ok l -> in_order new_decoder false l ->
  sizes_fit M l -> not_lowered false kDefaultMaximumTargetFileSize l -> exits new_decoder l = Some s ->
  In s [NearSizeInvalid; SameSizeInvalid; CacheInitFailed; ModeInvalid].
Proof.
  intros M l s A O (S1 & S2 & S3) N E.
  apply (exits_fine (Some M) false) with (l := l) (d := new_decoder) (started := false) (acc := []) in E; auto.
  - destruct s; cbn in *; try contradiction; try discriminate; auto 10.
  - split; auto.
  - apply new_fstate. split; auto.
  - discriminate.
Qed.
Print Assumptions C59_sizes.

(** Without code tables in the files, whatever the sizes. *)
Theorem C59_no_tables : forall l s, Forall arg_ok l -> in_order new_decoder false l -> plain_session [] l ->
  exits new_decoder l = Some s -> s = HereNegative.
Proof.
  intros l s A O P E.
  apply (exits_fine None true) with (l := l) (d := new_decoder) (started := false) (acc := []) in E; auto.
  - destruct s; cbn in *; try contradiction; try discriminate; auto 10.
  - exact Logic.I.
  - apply new_fstate. exact Logic.I.
  - apply Forall_forall. intros x _. exact Logic.I.
  - intros X. congruence.
Qed.
Print Assumptions C59_no_tables.

(** Where a build without NDEBUG exits because of its input, a build with NDEBUG rejects the
    input: DecodeChunk returns false. *)
Theorem C59_rejected : forall d data s, f_decode_chunk d data = Some s ->
  In s [NearSizeInvalid; SameSizeInvalid; CacheInitFailed; ModeInvalid; HereNegative] ->
  exists d' o, decode_chunk d data = CRet d' false o.
Proof.
  intros d data s H I. apply (f_chunk_err (chunk_fuel d data) d data s H).
  destruct I as [<- | [<- | [<- | [<- | [<- | []]]]]]; reflexivity.
Qed.
Print Assumptions C59_rejected.

(** The hypotheses of [C59_plain], with two files, limits and all kinds of calls; the second
    file is not complete, the third is garbage. *)
Example C59_plain_case :
  let l := [PMaxFile 1000; PAllow true; PStart [1; 2; 3; 4]; PChunk ([214; 195; 196; 0; 0] ++ [1; 4; 0; 7]); PChunk [4; 0; 0; 1; 1; 20; 0];
            PMaxFile 2000; PFinish; PAllow false; PStart []; PChunk ([214; 195; 196; 83; 0] ++ [0; 7; 1]); PFinish; PStart []; PChunk [0; 1; 2]] in
  Forall arg_ok l /\ in_order new_decoder false l /\ plain_session [] l /\ sizes_fit kDefaultMaximumTargetFileSize l /\
  not_lowered false kDefaultMaximumTargetFileSize l /\ never_exits l /\
  session64 new_decoder l =
    [Some (true, []); Some (true, []); Some (true, []); Some (true, []); Some (true, [1; 2; 3; 4]); Some (true, []); Some (true, []);
     Some (true, []); Some (true, []); Some (true, []); Some (false, []); Some (true, []); Some (false, [])].
Proof.
  cbv zeta. split; [repeat constructor; cbn; try (apply bytes_okb_ok; reflexivity); lia|].
  split; [vm_compute; repeat split|].
  split. { cbn [plain_session app]. repeat split; intros b H; vm_compute in H; try discriminate; injection H as <-; reflexivity. }
  split. { split; [unfold kDefaultMaximumTargetFileSize; lia|]. split; [unfold kDefaultMaximumTargetFileSize, int32_max; lia|].
    repeat constructor; vm_compute; discriminate. }
  split; [vm_compute; repeat split; discriminate|]. split; vm_compute; reflexivity.
Qed.

(** Calls out of order do reach the other places. *)
Example C59_out_of_order :
  exits new_decoder [PChunk [1]] = Some ChunkBeforeStart /\
  exits new_decoder [PStart []; PStart []] = Some StartTwice /\
  exits new_decoder [PStart []; PAllow true] = Some AllowAfterStart.
Proof. vm_compute. auto. Qed.
