(** Call protocol, rejection of other data, nesting, reuse of a decoder. *)

From Verif Require Import Base Spec Varint VarintFacts AddrCache AddrCacheFacts CodeTable CodeTableFacts
  InstructionMap DecodeTable HeaderParser Adler AdlerFacts Decoder CopyFacts BodyFacts BodyExt WindowExt
  WindowHeader WindowStep Refine Totals Abstract FileHeader Chunk Sim Stream Session.
From Coq Require Import ZifyBool ZifyNat.

(** ** Failure *)

Inductive call := CallChunk (data : list Z) | CallFinish.

(** New state, return value, bytes output; [None]: undefined behaviour. *)
Definition do_call (d : dec) (x : call) : option (dec * bool * list Z) :=
  match x with
  | CallChunk data => match decode_chunk d data with CRet d' ok o => Some (d', ok, o) | _ => None end
  | CallFinish => let '(d', ok) := finish_decoding d in Some (d', ok, [])
  end.
Fixpoint do_calls (d : dec) (l : list call) : option (list (bool * list Z)) :=
  match l with
  | [] => Some []
  | x :: tl =>
      match do_call d x with
      | None => None
      | Some (d', ok, o) => match do_calls d' tl with None => None | Some r => Some ((ok, o) :: r) end
      end
  end.

Definition is_started (d : dec) : bool := let '(Dec c _) := d in d_started c.

Lemma chunk_fuel_pos : forall d data, exists n, chunk_fuel d data = S n.
Proof. intros [c [nd|]] data; cbn; eauto. Qed.

Lemma unstarted_call : forall d x, is_started d = false -> exists d', do_call d x = Some (d', false, []) /\ is_started d' = false.
Proof.
  intros [c n] [data|] H; cbn in H.
  - destruct (chunk_fuel_pos (Dec c n) data) as [f E]. cbn [do_call]. unfold decode_chunk. rewrite E. cbn [decode_chunk_fuel].
    rewrite H. cbn. eauto.
  - cbn. rewrite H. cbn. eauto.
Qed.

Theorem unstarted_calls : forall l d, is_started d = false -> do_calls d l = Some (map (fun _ => (false, [])) l).
Proof.
  induction l as [|x l IH]; intros d H; [reflexivity|]. cbn [do_calls map].
  destruct (unstarted_call d x H) as (d' & -> & H'). rewrite (IH d' H'). reflexivity.
Qed.

Lemma chunk_windows_false : forall c data d' o, chunk_windows c data = CRet d' false o -> is_started d' = false.
Proof.
  intros c data d' o H. unfold chunk_windows in H. destruct (window_loop _ _ _ _) as [[[? ?]|[? ?]| | |] ?]; try discriminate;
  unfold chunk_done, chunk_failed in H; try (destruct (append_new_output _); discriminate). injection H as <- <-. reflexivity.
Qed.

Lemma decode_chunk_fuel_false : forall f d data d' o, decode_chunk_fuel f d data = CRet d' false o -> is_started d' = false.
Proof.
  assert (forall c o d' o', chunk_failed c o = CRet d' false o' -> is_started d' = false) as CF.
  { intros. unfold chunk_failed in *. match goal with X : CRet _ _ _ = _ |- _ => injection X as <- <- end. reflexivity. }
  assert (forall c n r o d' o', chunk_done c n r o = CRet d' false o' -> False) as CD.
  { intros c n r o d' o' H. unfold chunk_done in H. destruct (append_new_output _). discriminate. }
  induction f as [|f IH]; intros [c0 n0] data d' o H; [discriminate|]. cbn [decode_chunk_fuel] in H.
  destruct (negb (d_started c0)); [eauto|].
  destruct (read_file_header (Dec c0 n0) (d_unparsed c0 ++ data)) as [[[c [nd|]] rest]| | |]; try discriminate.
  - destruct (decode_chunk_fuel f nd rest) as [nd' [|] o2| |]; try discriminate; eauto. cbv zeta in H.
    destruct (_ <? _); [destruct (CD _ _ _ _ _ _ H)|].
    destruct (finish_decoding nd') as [[nc nn] fin]. destruct (negb fin); eauto. destruct (negb _); eauto.
    destruct (d_sizes c) as [[ns ss]|]; try discriminate. destruct (use_code_table _ _ _) as [[t b]|]; try discriminate.
    eapply chunk_windows_false; eauto.
  - eapply chunk_windows_false; eauto.
  - eauto.
Qed.

(** ** The first bytes *)

Definition wrong_byte (i b : Z) : Prop :=
  (i = 0 /\ b <> 214) \/ (i = 1 /\ b <> 195) \/ (i = 2 /\ b <> 196) \/ (i = 3 /\ b <> 0 /\ b <> 83).

Local Transparent get.
Lemma check_magic_wrong : forall X i b, get X i = Some b -> wrong_byte i b -> check_magic X = Err.
Proof.
  intros X i b G W. unfold check_magic. 
  assert (0 <= i < zlen X /\ nth (Z.to_nat i) X 0 = b) as [R N].
  { split; [eapply get_range; eauto|]. unfold get in G. destruct (i <? 0); [discriminate|]. apply nth_error_nth. exact G. }
  destruct ((4 <=? zlen X) && negb (nth 3 X 0 =? 0) && negb (nth 3 X 0 =? 83)) eqn:V; [reflexivity|].
  destruct W as [[-> W]|[[-> W]|[[-> W]|(-> & W)]]].
  - change (Z.to_nat 0) with 0%nat in N. rewrite N. replace (1 <=? zlen X) with true by lia.
    replace (b =? 214) with false by lia. cbn [negb andb]. rewrite !orb_true_r. reflexivity.
  - change (Z.to_nat 1) with 1%nat in N. rewrite N. replace (2 <=? zlen X) with true by lia.
    replace (b =? 195) with false by lia. cbn [negb andb]. rewrite !orb_true_r. reflexivity.
  - change (Z.to_nat 2) with 2%nat in N. rewrite N. replace (3 <=? zlen X) with true by lia.
    replace (b =? 196) with false by lia. cbn [negb andb orb]. reflexivity.
  - change (Z.to_nat 3) with 3%nat in N. rewrite N in V. replace (4 <=? zlen X) with true in V by lia.
    replace (b =? 0) with false in V by lia. replace (b =? 83) with false in V by lia. discriminate.
Qed.

Local Opaque get.

Lemma wrong_magic_stream : forall chunks c n out i b, d_started c = true -> d_sizes c = None -> d_target c = [] -> d_out_pos c = 0 ->
  check_magic (d_unparsed c) <> Err -> get (d_unparsed c ++ concat chunks) i = Some b -> wrong_byte i b ->
  exists d', decode_chunks (Dec c n) chunks out = Some (d', false, out) /\ is_started d' = false.
Proof.
  induction chunks as [|x tl IH]; intros c n out i b ST S T OP CM G W.
  { cbn [concat] in G. rewrite app_nil_r in G. destruct CM. eapply check_magic_wrong; eauto. }
  cbn [decode_chunks]. unfold decode_chunk. destruct (chunk_fuel_pos (Dec c n) x) as [f ->]. cbn [decode_chunk_fuel].
  rewrite ST. cbn [negb]. unfold read_file_header. rewrite S.
  destruct (check_magic (d_unparsed c ++ x)) as [[]| | |] eqn:C; cbn [bind].
  - exfalso. pose proof (check_magic_wrong _ _ _ G W) as X. cbn [concat] in X. rewrite app_assoc in X.
    destruct (check_magic_inv _ C) as (v & ind & tl' & E & V). rewrite E in X. 
    change (hd5 v ind tl' ++ concat tl) with (hd5 v ind (tl' ++ concat tl)) in X. rewrite check_magic_hd in X by exact V. discriminate.
  - unfold chunk_done, append_new_output. cbn [set_unparsed d_out_pos d_target]. rewrite OP, T, zdrop_0. cbn [app]. rewrite app_nil_r.
    match goal with |- context [Dec ?cc n] => set (c2 := cc) end.
    destruct (IH c2 n out i b) as (d' & E & F).
    + exact ST.
    + exact S.
    + reflexivity.
    + reflexivity.
    + change (d_unparsed c2) with (d_unparsed c ++ x). congruence.
    + change (d_unparsed c2) with (d_unparsed c ++ x). rewrite <- app_assoc. exact G.
    + exact W.
    + exists d'. rewrite E. auto.
  - unfold chunk_failed. cbn. rewrite app_nil_r. eexists. split; reflexivity.
  - exfalso. destruct (check_magic_not_ub _ C).
Qed.

Lemma right_magic_stream : forall v, v = 0 \/ v = 83 -> forall chunks c out, d_started c = true -> d_sizes c = None -> d_target c = [] -> d_out_pos c = 0 ->
  (exists tl, [214;195;196;v] = (d_unparsed c ++ concat chunks) ++ tl) ->
  exists d', decode_chunks (Dec c None) chunks out = Some (d', true, out).
Proof.
  intros v V. induction chunks as [|x tl IH]; intros c out ST S T OP P; [cbn; eauto|].
  cbn [decode_chunks]. unfold decode_chunk. destruct (chunk_fuel_pos (Dec c None) x) as [f ->]. cbn [decode_chunk_fuel].
  rewrite ST. cbn [negb]. unfold read_file_header. rewrite S.
  assert (check_magic (d_unparsed c ++ x) = Eod) as ->.
  { destruct P as [t P]. cbn [concat] in P. rewrite <- !app_assoc in P. rewrite app_assoc in P.
    revert P. generalize (concat tl ++ t) as z. generalize (d_unparsed c ++ x) as y. intros y z P.
    destruct y as [|y0 y]; [reflexivity|]. injection P as <- P.
    destruct y as [|y0 y]; [reflexivity|]. injection P as <- P.
    destruct y as [|y0 y]; [reflexivity|]. injection P as <- P.
    destruct y as [|y0 y]; [reflexivity|]. injection P as <- P.
    destruct y as [|y0 y]; [|discriminate]. destruct V as [-> | ->]; reflexivity. }
  cbn [bind]. unfold chunk_done, append_new_output. cbn [set_unparsed d_out_pos d_target]. rewrite OP, T, zdrop_0. cbn [app]. rewrite app_nil_r.
  match goal with |- context [Dec ?cc None] => apply (IH cc) end; auto.
  cbn. cbn [concat] in P. rewrite <- app_assoc. exact P.
Qed.

(** ** Nesting *)

Fixpoint depth (d : dec) : nat := let '(Dec _ n) := d in match n with None => 1 | Some d' => S (depth d') end.
Fixpoint table_headers (n : nat) : list Z := match n with O => [] | S n' => [214;195;196;0;2;4;3] ++ table_headers n' end.

Lemma nested_headers : forall n f c, d_started c = true -> d_sizes c = None -> d_target c = [] -> d_out_pos c = 0 -> d_unparsed c = [] ->
  (n < f)%nat ->
  exists d, decode_chunk_fuel f (Dec c None) (table_headers n) = CRet d true [] /\ depth d = S n.
Proof.
  induction n as [|n IH]; intros f c ST S T OP U L; (destruct f as [|f]; [lia|]); cbn [decode_chunk_fuel]; rewrite ST, U; cbn [app negb].
  - unfold read_file_header. rewrite S. change (check_magic (table_headers 0)) with (@Eod unit). cbn [bind].
    unfold chunk_done, append_new_output. cbn [set_unparsed d_out_pos d_target]. rewrite OP, T, zdrop_0. eexists. split; reflexivity.
  - unfold read_file_header. rewrite S. change (table_headers (Datatypes.S n)) with (hd5 0 2 (4 :: 3 :: table_headers n)).
    rewrite check_magic_hd by auto. cbn [bind]. rewrite zdrop_hd5. change (nth 3 (hd5 0 2 (4 :: 3 :: table_headers n)) 0) with 0.
    change (nth 4 (hd5 0 2 (4 :: 3 :: table_headers n)) 0) with 2. change (Z.testbit 2 0) with false. change (Z.testbit 2 1) with true.
    cbv iota.
    assert (parse_cache_sizes (4 :: 3 :: table_headers n) = Ok (4, 3, table_headers n)) as -> by reflexivity. cbn [bind].
    destruct (IH f table_core eq_refl eq_refl eq_refl eq_refl eq_refl ltac:(lia)) as (d & E & D).
    change table_decoder with (Dec table_core None). rewrite E. cbv zeta. cbn [set_file d_string app]. rewrite zlen_nil.
    change (0 <? 1536) with true. cbv iota.
    unfold chunk_done, append_new_output. cbn [set_unparsed set_file d_out_pos d_target]. rewrite OP, T, zdrop_0. eexists. split; [reflexivity|].
    cbn [depth]. rewrite D. reflexivity.
Qed.

Lemma table_headers_length : forall n, length (table_headers n) = (7 * n)%nat.
Proof. induction n as [|n IH]; [reflexivity|]. cbn [table_headers]. rewrite app_length, IH. cbn [length]. lia. Qed.

Theorem nesting_unbounded : forall n, exists d, decode_chunk (start_decoding new_decoder []) (table_headers n) = CRet d true [] /\ depth d = S n.
Proof.
  intros n. unfold decode_chunk. change (start_decoding new_decoder []) with (Dec (start_core new_core []) None).
  apply nested_headers; try reflexivity. cbn [chunk_fuel start_core d_unparsed app]. rewrite table_headers_length. lia.
Qed.
