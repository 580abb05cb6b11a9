(** * The code table writer against the instruction reader (C22) *)

From Verif Require Import Base Spec SpecEncode SpecInstr Varint VarintFacts AddrCache AddrCacheFacts CodeTable CodeTableFacts
  InstructionMap InstructionMapFacts DecodeTable HeaderParser Decoder BodyFacts WindowHeader WindowStep WindowFacts Reader
  EncodeTable WriterFacts EncoderFacts.
From Coq Require Import ZifyBool ZifyNat.

(** For any code table that the writer accepts, the window written for the calls
    [l] is read by a decoder with the same table as exactly the instructions [l],
    whatever follows it ([rest]).  [window_trace] (Reader.v) is the model of
    DecodeWindow with a record of the instructions executed.

    Missing for the full claim: calls with size 0, for which it is false (below).
    [make_map]: see DESIGN.md, the maps of the writer are built for tables
    for which that does not write out of bounds. *)
Theorem C22_read_back_partial : forall il t ns ss dict l T c rest,
  table_ok t -> 0 <= ns <= 253 -> 0 <= ss -> ns + ss <= 254 ->
  validate t (1 + ns + ss) = Some true -> make_map t (1 + ns + ss) <> None ->
  Forall good_instruction l -> execute_all dict [] l = Some T -> T <> [] ->
  zlen dict + zlen T <= int32_max -> costs l <= 2147483600 ->
  d_sizes c = Some (ns, ss) -> d_table c = t -> d_dict c = dict -> bytes_ok dict -> bytes_ok (d_target c) ->
  d_win c = None -> d_start c = zlen (d_target c) -> (il = true -> d_version c = 83) ->
  would_exceed c (zlen T) = false -> zlen (d_target c) + zlen T <= int32_max -> bytes_ok rest ->
  exists w w1 w2 bytes,
    writer_init (new_custom_writer il ns ss t (1 + ns + ss)) (zlen dict) = Some (w, true) /\
    writer_calls w l = Some w1 /\ writer_output w1 = Some (w2, bytes) /\
    window_trace c (bytes ++ rest) = Some l.
Proof.
  intros il t ns ss dict l T c rest TO NS SS S2 V MK G X NT L CL SZ DT DD BD BT DW DS IV WE LT BR.
  assert (core_ok ns ss c) as CO by (constructor; rewrite ?DW; try congruence; auto; lia).
  destruct (make_map t (1 + ns + ss)) as [im|] eqn:EM; [|congruence].
  assert (wbase (new_custom_writer il ns ss t (1 + ns + ss)) im) as BA.
  { constructor; cbn [new_custom_writer wr_table wr_max_mode wr_near wr_same wr_map wr_inst wr_data wr_addr]; auto; lia. }
  pose proof (zlen_nonneg _ T). pose proof (zlen_nonneg _ dict). pose proof (zlen_nonneg _ (d_target c)).
  destruct (wbase_init _ im dict BA) as (ca & _ & EI & W & TT); [lia|].
  set (w := inited (new_custom_writer il ns ss t (1 + ns + ss)) im (zlen dict) ca) in *.
  destruct (writer_calls_ok l w im dict [] [] [] [] T W G X L) as (w1 & items & hist & EC & W1 & TO1 & K1). cbn [app] in W1.
  destruct (shape_cks _ _ K1) as (SH & HC & CC & MP). unfold shape in SH. injection SH as S1' S2' S3' S4' S5'.
  destruct (writer_output_ok w1 im dict l items hist T (fmt c ns ss) (d_target c) W1) as (w2 & bytes & EO & WN & BO & LO & _); auto.
  - unfold fits, fmt; cbn [f_table f_near f_same f_ext]. rewrite S2', S4', S5', S1', HC, DT. cbn.
    split; [reflexivity|]. split; [reflexivity|]. split; [reflexivity|]. split; [|discriminate].
    intros ->. unfold allow_extensions. rewrite IV by reflexivity. reflexivity.
  - rewrite HC. discriminate.
  - lia.
  - exists w, w1, w2, bytes. split; [exact EI|]. split; [exact EC|]. split; [exact EO|].
    rewrite <- DD in *. eapply window_trace_complete; eauto; unfold int32_max in *; lia.
Qed.
Print Assumptions C22_read_back_partial.

(** A decoder that has read a header without a code table, before its first window. *)
Definition reading (dict : list Z) (version : Z) : core :=
  match decode_chunk (start_decoding new_decoder dict) (file_header version 0) with
  | CRet (Dec c _) true _ => c
  | _ => new_core
  end.
(** What is read from the window written for the calls [l]. *)
Definition written_and_read (il : bool) (dict : list Z) (l : list instruction) : option (list instruction) :=
  match writer_init (new_writer il) (zlen dict) with
  | Some (w, true) =>
      match writer_calls w l with
      | Some w1 => match writer_output w1 with Some (_, bytes) => window_trace (reading dict 83) bytes | None => None end
      | None => None
      end
  | _ => None
  end.
Definition c22_calls : list instruction :=
  [Add [1;2]; Copy 0 5; Copy 3 4; Add [7]; Copy 9 300; Run 40 9; Add (map Z.of_nat (seq 0 20)); Copy 3 4; Add [5;6;7;8]; Copy 2 4].
Example C22_case :
  let c := reading [10;20;30;40;50;60] 83 in
  (d_sizes c, d_win c, d_start c, d_target c, d_version c) = (Some (4, 3), None, 0, [], 83) /\
  d_table c = default_table /\ validate default_table 8 = Some true /\ make_map default_table 8 <> None /\
  match execute_all [10;20;30;40;50;60] [] c22_calls with Some T => zlen T = 384 /\ would_exceed c 384 = false | None => False end /\
  written_and_read false [10;20;30;40;50;60] c22_calls = Some c22_calls /\
  written_and_read true [10;20;30;40;50;60] c22_calls = Some c22_calls.
Proof.
  cbv zeta. split; [vm_compute; reflexivity|]. split; [vm_compute; reflexivity|]. split; [vm_compute; reflexivity|].
  split; [vm_compute; discriminate|]. split; [vm_compute; auto|]. split; vm_compute; reflexivity.
Qed.

(** An ADD, COPY or RUN of size 0 is written as an opcode that is to be followed by
    a size, but no size is written. *)
Theorem C22_zero_size_refuted :
  execute_all [10;20;30;40;50;60] [] [Run 0 9; Add [65;66]; Copy 0 4] = Some [65;66;10;20;30;40] /\
  written_and_read false [10;20;30;40;50;60] [Run 0 9; Add [65;66]; Copy 0 4] <> Some [Run 0 9; Add [65;66]; Copy 0 4] /\
  written_and_read false [10;20;30;40;50;60] [Run 0 9; Add [65;66]; Copy 0 4] <> Some [Add [65;66]; Copy 0 4].
Proof. split; [vm_compute; reflexivity|]. split; vm_compute; discriminate. Qed.
Print Assumptions C22_zero_size_refuted.
