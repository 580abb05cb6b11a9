(** C61: how often the encoder makes the output string grow.

    [ecall_calls e c]: the calls on the output string during the call [c] of a method of
    the streaming encoder [e]; [ecalls_calls e calls]: the same for a sequence of calls.
    [appended] and [resized] are those of C52 (SpecParts.v). *)

From Verif Require Import Base ListFacts SpecEncode Varint VarintFacts Adler AdlerFacts AddrCache CodeTable InstructionMap EncodeTable JsonWriter
  Engine Encoder WriterFacts SpecParts OutputEnc OutputEncFacts.
From Coq Require Import ZifyBool ZifyNat.

(** One call of StartEncoding, EncodeChunk or FinishEncoding, on an encoder in any state
    and with any code table writer of the library: the bytes appended are the output of
    the call, the string is resized at most once, not at all if nothing is output, and
    ReserveAdditionalBytes, if called, is called with exactly the number of bytes which the
    call appends.  The only assumptions are types: the checksum in the writer is a
    uint32_t, the data are bytes, and the output has fewer than 2^64 bytes. *)
Theorem C61_call : forall e c e' r o,
  match ec_coder e with Binary w => 0 <= wr_cks w < 4294967296 | Json _ => True end ->
  match c with EChunk data => bytes_ok data | _ => True end ->
  do_ecall e c = Some (e', r, o) -> zlen o <= 18446744073709551615 ->
  appended (ecall_calls e c) = o /\
  (forall size cap n, 0 <= size <= cap -> resized size cap (ecall_calls e c) n -> n <= 1 /\ (o = [] -> n = 0)) /\
  (forall k, In (Reserve k) (ecall_calls e c) -> k = zlen o).
Proof.
  intros e c e' r o T B H L. destruct (do_ecall_once e c e' r o T B H L) as (A & O & _). split; [exact A|]. split.
  - intros size cap n SC R. destruct (once_resized _ _ _ _ O SC R) as [N Z]. rewrite A in Z. split; [lia|exact Z].
  - intros k K. rewrite <- A. exact (once_reserve _ _ O K).
Qed.
Print Assumptions C61_call.

(** The number of calls which output something. *)
Fixpoint productive (rs : list (bool * list Z)) : Z :=
  match rs with
  | [] => 0
  | (_, []) :: tl => productive tl
  | (_, _ :: _) :: tl => 1 + productive tl
  end.

Lemma ecalls_resized : forall calls e e' rs, coder_typed (ec_coder e) -> (forall data, In (EChunk data) calls -> bytes_ok data) ->
  do_ecalls e calls = Some (e', rs) -> zlen (concat (map snd rs)) <= size_max ->
  map appended (ecalls_calls e calls) = map snd rs /\
  forall size cap n, 0 <= size <= cap -> resized size cap (concat (ecalls_calls e calls)) n -> n <= productive rs.
Proof.
  induction calls as [|c calls IH]; intros e e' rs T B H L; cbn [do_ecalls ecalls_calls] in *.
  - injection H as _ <-. split; [reflexivity|]. intros size cap n SC R. cbn [concat productive] in *. inversion R; subst. lia.
  - destruct (do_ecall e c) as [[[e1 r] o]|] eqn:D; [|discriminate]. destruct (do_ecalls e1 calls) as [[e2 rs1]|] eqn:D1; [|discriminate].
    injection H as _ <-. cbn [map snd concat] in *. rewrite zlen_app in L. pose proof (zlen_nonneg _ o). pose proof (zlen_nonneg _ (concat (map snd rs1))).
    destruct (do_ecall_once e c e1 r o T) as (A & O & T1); [destruct c; cbn [call_bytes]; auto; apply B; left; reflexivity|exact D|lia|].
    destruct (IH e1 e2 rs1 T1) as [A1 R1]; [intros data IN; apply B; right; exact IN|exact D1|lia|].
    split; [rewrite A, A1; reflexivity|]. intros size cap n SC R.
    destruct (resized_app _ _ _ _ _ R SC) as (n1 & n2 & cap' & -> & Q1 & Q2 & Q3).
    destruct (once_resized _ _ _ _ O SC Q1) as [N1 Z1]. rewrite A in Z1. pose proof (zlen_nonneg _ (appended (ecall_calls e c))).
    specialize (R1 _ _ _ ltac:(split; [|exact Q2]; lia) Q3). cbn [productive]. destruct o; [specialize (Z1 eq_refl)|]; lia.
Qed.

(** Any calls in any order on an encoder made for a dictionary, all with the same output
    string: it is resized at most once for every call that outputs something. *)
Theorem C61_session : forall dict fl look e calls e' rs,
  streaming_encoder dict fl look = Some e -> (forall data, In (EChunk data) calls -> bytes_ok data) ->
  do_ecalls e calls = Some (e', rs) -> zlen (concat (map snd rs)) <= 18446744073709551615 ->
  map appended (ecalls_calls e calls) = map snd rs /\
  forall size cap n, 0 <= size <= cap -> resized size cap (concat (ecalls_calls e calls)) n -> n <= productive rs.
Proof.
  intros dict fl look e calls e' rs SE. apply ecalls_resized. unfold streaming_encoder in SE.
  destruct (engine_init _) as [[en [|]]|]; try discriminate. injection SE as <-.
  unfold new_encoder, new_custom_encoder, create_writer. cbn [ec_coder]. destruct (fl_json fl); cbn [coder_typed]; [exact Logic.I|].
  cbn [new_writer new_custom_writer wr_cks]. lia.
Qed.
Print Assumptions C61_session.

(** ** A case *)

(** A call without data outputs nothing, two with data output a window each. *)
Definition c61_calls : list ecall := [EStart; EChunk [104;101;108;108;111]; EChunk []; EChunk [7;7]; EFinish].
Definition c61_flags : flags := {| fl_interleaved := true; fl_checksum := true; fl_json := false |}.
Definition c61_output : list (list out_call) :=
  [[Append [214; 195; 196; 83; 0]];
   [Reserve 19; Append [5]; Append [0]; Append [0]; Append [15]; Append [5]; Append [0]; Append [0]; Append [6]; Append [0];
    Append [177; 156; 132; 20]; Append []; Append [6; 104; 101; 108; 108; 111]; Append []];
   [];
   [Reserve 15; Append [5]; Append [0]; Append [0]; Append [11]; Append [2]; Append [0]; Append [0]; Append [3]; Append [0];
    Append [212; 128; 14]; Append []; Append [3; 7; 7]; Append []];
   []].

Lemma c61_run : option_map (fun e => (option_map (fun x => map snd (snd x)) (do_ecalls e c61_calls), ecalls_calls e c61_calls))
    (streaming_encoder [] c61_flags true) = Some (Some (map appended c61_output), c61_output).
Proof. vm_compute. reflexivity. Qed.

Example C61_case : exists e e' rs, streaming_encoder [] c61_flags true = Some e /\
  (forall data, In (EChunk data) c61_calls -> bytes_ok data) /\
  do_ecalls e c61_calls = Some (e', rs) /\ zlen (concat (map snd rs)) <= 18446744073709551615 /\
  ecalls_calls e c61_calls = c61_output /\ productive rs = 3.
Proof.
  pose proof c61_run as H. destruct (streaming_encoder [] c61_flags true) as [e|]; [|discriminate]. cbn [option_map] in H.
  destruct (do_ecalls e c61_calls) as [[e' rs]|] eqn:D; [|discriminate]. cbn [option_map snd] in H.
  assert (map snd rs = map appended c61_output) as H1 by congruence. assert (ecalls_calls e c61_calls = c61_output) as H2 by congruence. clear H.
  exists e, e', rs. split; [reflexivity|]. split; [|split; [exact D|split; [|split; [exact H2|]]]].
  - intros data [H|[H|[H|[H|[H|[]]]]]]; try discriminate; injection H as <-; apply bytes_okb_ok; reflexivity.
  - rewrite H1. vm_compute. discriminate.
  - clear -H1. assert (forall l : list (bool * list Z), productive l = productive (map (fun x => (true, x)) (map snd l))) as E.
    { induction l as [|[b [|x y]] l IH]; cbn [map snd productive]; [reflexivity| |]; rewrite IH; reflexivity. }
    rewrite E, H1. reflexivity.
Qed.

Ltac fits := first [apply rz_nil | apply rz_append_fits; [vm_compute; discriminate|] | apply rz_reserve_fits; [vm_compute; discriminate|]].

(** A string that is empty at first and always takes exactly the space requested is resized
    three times, *)
Example C61_three : resized 0 0 (concat c61_output) 3.
Proof.
  cbn [concat app c61_output]. change 3 with (1 + (1 + (1 + 0))).
  eapply (rz_append_grows _ _ _ _ _ 5); [reflexivity|vm_compute; discriminate|].
  eapply (rz_reserve_grows _ _ _ _ _ 24); [reflexivity|vm_compute; discriminate|]. do 13 fits.
  eapply (rz_reserve_grows _ _ _ _ _ 39); [reflexivity|vm_compute; discriminate|]. repeat fits.
Qed.

(** and would be twelve times for the first window and its header alone without
    ReserveAdditionalBytes. *)
Example C61_without_reserve :
  resized 0 0 (filter (fun c => match c with Append _ => true | Reserve _ => false end) (concat (firstn 2 c61_output))) 12.
Proof.
  cbn [filter concat app firstn c61_output]. change 12 with (1 + (1 + (1 + (1 + (1 + (1 + (1 + (1 + (1 + (1 + (1 + (1 + 0)))))))))))).
  repeat first [apply rz_nil | (apply rz_append_fits; [vm_compute; discriminate|])
               | (eapply rz_append_grows; [reflexivity|apply Z.le_refl|])].
Qed.
