(** C83 for streams: every chunk is put together from parts of the dictionary and new
    data. *)

From Verif Require Import Base ListFacts Spec SpecEncode SpecFind SpecMaximal SpecEdits WriterFacts Engine EngineFacts EncodeTable Encoder EncoderFacts
  Properties_Encode Finds Maximal Edits Properties_Edits.
From Coq Require Import ZifyBool ZifyNat.

(** One chunk. *)
Definition chunk_edited (dict : list Z) (look : bool) (ps : parts) : Prop :=
  bytes_ok (assembled ps) /\ kept_parts dict ps /\ (look = true -> unique16 (assembled ps)) /\
  zlen dict + zlen (assembled ps) <= 2147483647 /\ zlen (assembled ps) + 53 <= 2147483647.

(** The new bytes and the parts of all chunks. *)
Definition all_parts (pss : list parts) : parts := concat pss.

Lemma new_bytes_app : forall a b, new_bytes (a ++ b) = new_bytes a + new_bytes b.
Proof. induction a as [|[k c] a IH]; intros b; cbn [app new_bytes]; [lia|rewrite IH; lia]. Qed.

Lemma new_bytes_nonneg : forall ps, 0 <= new_bytes ps.
Proof. induction ps as [|[k c] ps IH]; cbn [new_bytes]; [lia|]. pose proof (zlen_nonneg _ c). destruct k; lia. Qed.

Lemma assembled_costs : forall dict ps en look l, bytes_ok dict -> bytes_ok (assembled ps) -> unique16 dict -> uncrowded dict ->
  kept_parts dict ps -> (look = true -> unique16 (assembled ps)) -> zlen dict + zlen (assembled ps) <= int32_max -> assembled ps <> [] ->
  engine_init (new_engine dict) = Some (en, true) -> engine_encode en look (assembled ps) = Some (Some l) ->
  costs l <= new_bytes ps + 109 * zlen ps + 6.
Proof.
  intros dict ps en look l BD BT U C K UT L NE EI EE. pose proof (zlen_nonneg _ (assembled ps)).
  destruct (engine_init_ok dict BD) as (en' & EI' & EN); [lia|].
  rewrite EI in EI'. assert (en' = en) as -> by congruence.
  destruct (engine_encode_ok en dict look (assembled ps) EN BT NE L) as (l' & EE' & GP). assert (l' = l) as -> by congruence.
  pose proof (edit_costs dict ps en l look BD BT L U C K EI EE UT (length l) l [] [] false (le_n _) eq_refl eq_refl GP) as CO.
  rewrite zlen_nil, (newb_0 ps 0), newb_all in CO by (unfold plen; lia). pose proof (endsb_le ps (zlen (assembled ps))). pose proof (endsb_nonneg ps 0). lia.
Qed.

Lemma chunks_costs : forall dict en look pss e im w f out, bytes_ok dict -> unique16 dict -> uncrowded dict ->
  engine_init (new_engine dict) = Some (en, true) -> ec_engine e = en -> ec_look e = look ->
  einv e dict im w f -> ec_allowed e = true -> Forall (chunk_edited dict look) pss ->
  exists w' ws, encode_chunks e (map assembled pss) out = Some (set_coder e (Binary w') true, true, out ++ ws) /\
    zlen ws <= new_bytes (all_parts pss) + 109 * zlen (all_parts pss) + 53 * zlen pss.
Proof.
  intros dict en look pss. induction pss as [|ps pss IH]; intros e im w f out BD U C EI EE EL E AL F; cbn [map encode_chunks].
  - exists w, []. assert (set_coder e (Binary w) true = e) as ->
      by (pose proof (ei_coder _ _ _ _ _ E) as CO; destruct e; cbn in *; subst; reflexivity).
    rewrite app_nil_r. split; [reflexivity|]. unfold all_parts. cbn [concat new_bytes]. rewrite !zlen_nil. lia.
  - inversion F as [|? ? (B & K & UT & L & L2) F']; subst x l.
    pose proof (zlen_nonneg _ dict).
    assert (zlen dict + zlen (assembled ps) <= int32_max) as LI by (unfold int32_max; lia).
    assert (zlen (assembled ps) <= 2147483594) as L3 by lia.
    destruct (encode_chunk_ok e dict im w f (assembled ps) [] E AL B LI L3) as (w1 & o1 & -> & E1 & _ & BO & O).
    destruct (IH (set_coder e (Binary w1) true) im w1 f (out ++ o1) BD U C EI EE EL E1 eq_refl F') as (w2 & ws & -> & ZW).
    exists w2, (o1 ++ ws). split; [rewrite <- app_assoc; reflexivity|].
    unfold all_parts in *. cbn [concat]. rewrite new_bytes_app, !zlen_app, zlen_cons.
    pose proof (new_bytes_nonneg ps). pose proof (zlen_nonneg _ ps).
    assert (zlen o1 <= new_bytes ps + 109 * zlen ps + 53); [|lia].
    destruct O as [[_ ->]|(NE & _ & _ & _ & O)]; [rewrite zlen_nil; lia|].
    destruct (engine_init_ok dict BD) as (en' & EI' & EN); [unfold int32_max; pose proof (zlen_nonneg _ (assembled ps)); lia|].
    rewrite EI in EI'. assert (en' = en) as -> by congruence.
    destruct (engine_encode_ok en dict look (assembled ps) EN B NE) as (l & EC & _); [unfold int32_max; lia|].
    assert (costs l <= new_bytes ps + 109 * zlen ps + 6) as CL by (apply (assembled_costs dict ps en look l); auto).
    rewrite EE, EL in O. specialize (O l EC). lia.
Qed.

(** The delta of a stream is at most as long as the new data of all chunks, and 109
    bytes for every part, 53 for every chunk and 5 for the header.  Target matching
    looks at the chunk alone, so only within a chunk may nothing occur twice. *)
Theorem C83_stream : forall dict pss fl look,
  bytes_ok dict -> zlen dict <= 2147483647 -> unique16 dict -> uncrowded dict -> Forall (chunk_edited dict look) pss -> fl_json fl = false ->
  exists e e' delta, streaming_encoder dict fl look = Some e /\ encode_stream e (map assembled pss) = Some (e', true, delta) /\
    zlen delta <= new_bytes (all_parts pss) + 109 * zlen (all_parts pss) + 53 * zlen pss + 5.
Proof.
  intros dict pss fl look BD ZD U C F J.
  destruct (engine_init_ok dict BD) as (en & EI & EN); [exact ZD|].
  assert (streaming_encoder dict fl look = Some (new_encoder en fl look)) as SE by (unfold streaming_encoder; rewrite EI; reflexivity).
  destruct (new_encoder_inv en dict fl look false EN) as (im & E0); [exact ZD|exact J|].
  destruct (start_encoding_ok _ _ _ _ _ E0) as (c & _ & ES & E1).
  destruct (chunks_costs dict en look pss (set_coder (new_encoder en fl look) (Binary (inited (new_writer (fl_interleaved fl)) im (zlen dict) c)) true) im _ _ (write_header (ec_flags (new_encoder en fl look))) BD U C EI eq_refl eq_refl E1 eq_refl F) as (w2 & ws & EC & ZW).
  do 3 eexists. split; [exact SE|]. unfold encode_stream. rewrite ES, EC.
  unfold finish_encoding. cbn [set_coder ec_allowed negb ec_coder coder_finish]. split; [reflexivity|].
  rewrite app_nil_r, zlen_app. destruct (write_header_bytes (ec_flags (new_encoder en fl look))) as [_ ->]. lia.
Qed.
Print Assumptions C83_stream.

(** Two chunks: the edited text of [C83_case], and its second half before its first. *)
Definition c83_chunks : list parts :=
  [[(true, c83_before); (false, [250; 251; 252]); (true, c83_after)]; [(true, c83_after); (true, c83_before)]].
Example C83_stream_case : unique16 c83_dict /\ uncrowded c83_dict /\ Forall (chunk_edited c83_dict true) c83_chunks /\
  match streaming_encoder c83_dict VCD_STANDARD_FORMAT true with
  | Some e => match encode_stream e (map assembled c83_chunks) with
              | Some (_, true, delta) => zlen delta = 43 /\ zlen (concat (map assembled c83_chunks)) = 363
              | _ => False
              end
  | None => False
  end.
Proof.
  destruct C83_case as (_ & BD & U & C & UT & _). split; [exact U|]. split; [exact C|].
  assert (zlen c83_dict = 200) as ZD by (vm_compute; reflexivity).
  assert (slice c83_dict 0 80 = Some c83_before /\ slice c83_dict 100 100 = Some c83_after /\ zlen c83_before = 80 /\ zlen c83_after = 100) as (SB & SA & ZB & ZA)
    by (vm_compute; repeat split).
  split; [|vm_compute; split; reflexivity].
  constructor; [|constructor; [|constructor]].
  - split; [apply bytes_okb_ok; vm_compute; reflexivity|]. split.
    { apply Forall_cons; [intros _; cbn [snd]; exists 0; rewrite ZB; exact SB|]. apply Forall_cons; [cbn [fst]; discriminate|]. apply Forall_cons; [intros _; cbn [snd]; exists 100; rewrite ZA; exact SA|]. apply Forall_nil. }
    assert (assembled [(true, c83_before); (false, [250; 251; 252]); (true, c83_after)] = c83_target) as -> by (vm_compute; reflexivity).
    split; [intros _; exact UT|]. rewrite ZD. assert (zlen c83_target = 183) as -> by (vm_compute; reflexivity). lia.
  - split; [apply bytes_okb_ok; vm_compute; reflexivity|]. split.
    { apply Forall_cons; [intros _; cbn [snd]; exists 100; rewrite ZA; exact SA|]. apply Forall_cons; [intros _; cbn [snd]; exists 0; rewrite ZB; exact SB|]. apply Forall_nil. }
    split; [intros _; apply (unique_by _ (fun s => let x := nth 0 s 0 in if x <? 80 then x + 100 else x - 100)); vm_compute; reflexivity|].
    rewrite ZD. assert (zlen (assembled [(true, c83_after); (true, c83_before)]) = 180) as -> by (vm_compute; reflexivity). lia.
Qed.
