(** Facts about the calls of [OutputEnc]. *)

From Verif Require Import Base ListFacts SpecEncode Varint VarintFacts Adler AdlerFacts AddrCache CodeTable InstructionMap EncodeTable JsonWriter Engine Encoder WriterFacts SpecParts OutputEnc.
From Coq Require Import ZifyBool ZifyNat.

(** ** Strings *)

Definition is_append (c : out_call) : Prop := match c with Append _ => True | Reserve _ => False end.

Lemma appended_app : forall a b, appended (a ++ b) = appended a ++ appended b.
Proof. induction a as [|[s|k] a IH]; intros b; cbn [appended app]; [reflexivity| |]; rewrite IH; auto using app_assoc. Qed.

Lemma resized_app : forall a size cap b n, resized size cap (a ++ b) n -> 0 <= size <= cap ->
  exists n1 n2 cap', n = n1 + n2 /\ resized size cap a n1 /\ size + zlen (appended a) <= cap' /\ resized (size + zlen (appended a)) cap' b n2.
Proof.
  induction a as [|[s|k] a IH]; intros size cap b n H SC; cbn [app appended] in *.
  - exists 0, n, cap. rewrite zlen_nil. split; [lia|]. split; [constructor|]. split; [lia|]. replace (size + 0) with size by lia. exact H.
  - pose proof (zlen_nonneg _ s) as SN. rewrite zlen_app. inversion H; subst.
    + destruct (IH _ _ _ _ H6) as (n1 & n2 & cap' & E1 & E2 & E3 & E4); [lia|]. exists n1, n2, cap'. split; [exact E1|].
      split; [apply rz_append_fits; auto|]. rewrite Z.add_assoc. auto.
    + destruct (IH _ _ _ _ H7) as (n1 & n2 & cap'' & E1 & E2 & E3 & E4); [lia|]. exists (1 + n1), n2, cap''. split; [lia|].
      split; [eapply rz_append_grows; eauto|]. rewrite Z.add_assoc. auto.
  - inversion H; subst.
    + destruct (IH _ _ _ _ H6) as (n1 & n2 & cap' & E1 & E2 & E3 & E4); [lia|]. exists n1, n2, cap'. split; [exact E1|].
      split; [apply rz_reserve_fits; auto|auto].
    + destruct (IH _ _ _ _ H7) as (n1 & n2 & cap'' & E1 & E2 & E3 & E4); [lia|]. exists (1 + n1), n2, cap''. split; [lia|].
      split; [eapply rz_reserve_grows; eauto|auto].
Qed.

Lemma appends_fit : forall l size cap n, Forall is_append l -> size + zlen (appended l) <= cap -> resized size cap l n -> n = 0.
Proof.
  induction l as [|[s|k] l IH]; intros size cap n F E H; inversion F; subst; cbn [appended is_append] in *; [|rewrite zlen_app in E|tauto].
  - inversion H; reflexivity.
  - pose proof (zlen_nonneg _ (appended l)). inversion H; subst; [|lia]. eapply IH; [assumption| |eassumption]. lia.
Qed.

(** What a call of a method does: nothing, one append, or the space is reserved first. *)
Definition once (l : list out_call) : Prop :=
  l = [] \/ (exists s, l = [Append s]) \/ (exists tl, l = Reserve (zlen (appended tl)) :: tl /\ Forall is_append tl).

Lemma once_resized : forall l size cap n, once l -> 0 <= size <= cap -> resized size cap l n ->
  0 <= n <= 1 /\ (appended l = [] -> n = 0).
Proof.
  intros l size cap n [-> |[(s & ->)|(tl & -> & F)]] SC H.
  - inversion H; subst. lia.
  - cbn [appended]. inversion H; subst.
    + inversion H6; subst. lia.
    + inversion H7; subst. split; [lia|]. rewrite app_nil_r. intros ->. rewrite zlen_nil in *. lia.
  - cbn [appended]. inversion H; subst.
    + apply appends_fit in H6; [|assumption|lia]. lia.
    + apply appends_fit in H7; [|assumption|lia]. split; [lia|]. intros E. rewrite E, zlen_nil in *. lia.
Qed.

Lemma once_reserve : forall l k, once l -> In (Reserve k) l -> k = zlen (appended l).
Proof.
  intros l k [-> |[(s & ->)|(tl & -> & F)]] H.
  - destruct H.
  - destruct H as [H|[]]. discriminate.
  - destruct H as [H|H]; [injection H as <-; reflexivity|]. rewrite Forall_forall in F. destruct (F _ H).
Qed.

(** ** The length of a window *)

Lemma varint_length_i32 : forall v, varint_length (to_int32 v) = zlen (encode_bytes I32 (to_int32 v)).
Proof.
  intros v. destruct (Z.ltb_spec (to_int32 v) 0) as [N|N].
  - unfold varint_length, varint_length_opt, encode_bytes, Varint.encode. destruct (Z.ltb_spec (to_int32 v) 0); [|lia]. symmetry. apply zlen_nil.
  - apply (varint_length_ok I32); [apply I32_ok|]. split; [exact N|]. change (kMaxVal I32) with 2147483647. unfold to_int32 in *.
    pose proof (Z.mod_pos_bound (v + 2147483648) 4294967296). lia.
Qed.
Lemma size_length_bytes : forall v, size_length v = zlen (size_bytes v).
Proof. intros v. apply varint_length_i32. Qed.

Lemma delta_window_size_ok : forall w, (wr_has_cks w = true -> 0 <= wr_cks w < 4294967296) -> zlen (window_bytes w) <= size_max ->
  delta_window_size w = zlen (window_bytes w).
Proof.
  intros w CK L. unfold delta_window_size. 
  assert (delta_length w + 1 + size_length (wr_dict_size w) + size_length 0 + size_length (delta_length w) = zlen (window_bytes w)) as ->.
  { unfold window_bytes. rewrite !zlen_app, !zlen_cons, zlen_nil, <- !size_length_bytes.
    assert (zlen (if wr_has_cks w then encode_bytes I64 (wr_cks w) else []) = (if wr_has_cks w then varint_length (wr_cks w) else 0)) as ->.
    { destruct (wr_has_cks w); [|apply zlen_nil]. destruct (cks_bytes_ok (wr_cks w) (CK eq_refl)) as (_ & _ & _ & ->). reflexivity. }
    generalize (size_length (delta_length w)). intros x. unfold delta_length. lia. }
  apply to_size_id. pose proof (zlen_nonneg _ (window_bytes w)). lia.
Qed.

Lemma window_calls_appended : forall w, appended (window_calls w) = window_bytes w.
Proof.
  intros w. unfold window_calls, window_bytes. rewrite !appended_app. cbn [appended app]. rewrite !app_nil_r, <- !app_assoc.
  destruct (wr_has_cks w); cbn [appended app]; repeat (rewrite ?app_nil_r, <- ?app_assoc; cbn [app]); reflexivity.
Qed.

Lemma window_calls_once : forall w, (wr_has_cks w = true -> 0 <= wr_cks w < 4294967296) -> zlen (window_bytes w) <= size_max -> once (window_calls w).
Proof.
  intros w CK L. right. right. unfold window_calls. cbn [app]. eexists. split.
  - f_equal. f_equal. rewrite delta_window_size_ok by assumption. rewrite <- window_calls_appended. reflexivity.
  - repeat (constructor; [exact Logic.I|]). destruct (wr_has_cks w); cbn [app]; repeat (constructor; [exact Logic.I|]); constructor.
Qed.

(** ** The writer keeps its checksum *)

Definition same_cks (w w' : writer) : Prop := wr_has_cks w' = wr_has_cks w /\ wr_cks w' = wr_cks w.
Lemma same_cks_refl : forall w, same_cks w w.
Proof. split; reflexivity. Qed.

Lemma encode_single_cks : forall w m i s md w', encode_single w m i s md = Some w' -> same_cks w w'.
Proof.
  intros w m i s md w' H. unfold encode_single in H.
  destruct (if s <=? 255 then _ else _) as [op|]; [|discriminate]. destruct (negb _); [injection H as <-; split; reflexivity|].
  destruct (first_lookup _ _ _ _) as [op2|]; [|discriminate]. destruct (_ =? _); injection H as <-; split; reflexivity.
Qed.
Lemma encode_instruction_cks : forall w i s md w', encode_instruction w i s md = Some w' -> same_cks w w'.
Proof.
  intros w i s md w' H. unfold encode_instruction in H. destruct (wr_map w); [|injection H as <-; split; reflexivity].
  destruct (0 <=? wr_last w); [|eapply encode_single_cks; eauto]. destruct (get _ _); [|discriminate].
  destruct (if s <=? 255 then _ else _) as [op|]; [|discriminate]. destruct (negb _).
  - destruct (put _ _ _); [|discriminate]. injection H as <-. split; reflexivity.
  - destruct (second_lookup _ _ _ _ _) as [op2|]; [|discriminate]. destruct (negb _); [|eapply encode_single_cks; eauto].
    destruct (put _ _ _); [|discriminate]. injection H as <-. split; reflexivity.
Qed.
Lemma writer_call_cks : forall w i w', writer_call w i = Some w' -> same_cks w w'.
Proof.
  intros w [d|a n|n b] w' H; cbn [writer_call] in H.
  - unfold writer_add in H. destruct (encode_instruction _ _ _ _) as [w1|] eqn:E; [|discriminate]. apply encode_instruction_cks in E.
    injection H as <-. unfold append_data. destruct (wr_il w1); exact E.
  - unfold writer_copy in H. destruct (wr_map w); [|injection H as <-; split; reflexivity].
    destruct (encode_address _ _ _) as [[[md e] c]|]; [|discriminate]. destruct (encode_instruction _ _ _ _) as [w1|] eqn:E; [|discriminate].
    apply encode_instruction_cks in E. injection H as <-. unfold append_addr. destruct (wr_il w1); exact E.
  - unfold writer_run in H. destruct (encode_instruction _ _ _ _) as [w1|] eqn:E; [|discriminate]. apply encode_instruction_cks in E.
    injection H as <-. unfold append_data. destruct (wr_il w1); exact E.
Qed.
Lemma writer_calls_cks : forall l w w', writer_calls w l = Some w' -> same_cks w w'.
Proof.
  induction l as [|i l IH]; intros w w' H; cbn [writer_calls] in H; [injection H as <-; split; reflexivity|].
  destruct (writer_call w i) as [w1|] eqn:E; [|discriminate]. apply writer_call_cks in E. apply IH in H. unfold same_cks in *. intuition congruence.
Qed.
Lemma writer_init_cks : forall w n w' r, writer_init w n = Some (w', r) -> same_cks w w'.
Proof.
  intros w n w' r H. unfold writer_init in H. destruct (match wr_map w with Some m => _ | None => _ end); [|discriminate].
  destruct (cache_init _ _); injection H as <- _; split; reflexivity.
Qed.
Lemma writer_output_cks : forall w w' o, writer_output w = Some (w', o) -> same_cks w w'.
Proof.
  intros w w' o H. unfold writer_output in H. destruct (wr_inst w);
    (match type of H with context [writer_init ?x ?n] => destruct (writer_init x n) as [[w1 r]|] eqn:E end; [|discriminate]);
    injection H as <- _; apply writer_init_cks in E; exact E.
Qed.

(** The checksum in a writer is a uint32_t. *)
Definition coder_typed (c : coder) : Prop := match c with Binary w => 0 <= wr_cks w < 4294967296 | Json _ => True end.

Lemma coder_calls_typed : forall c l c', coder_calls c l = Some c' -> coder_typed c -> coder_typed c'.
Proof.
  intros [w|j] l c' H T; cbn [coder_calls] in H.
  - destruct (writer_calls w l) as [w'|] eqn:E; [|discriminate]. injection H as <-. apply writer_calls_cks in E. destruct E as [_ E].
    cbn [coder_typed] in *. rewrite E. exact T.
  - injection H as <-. exact Logic.I.
Qed.
Lemma coder_init_typed : forall c n c' r, coder_init c n = Some (c', r) -> coder_typed c -> coder_typed c'.
Proof.
  intros [w|j] n c' r H T; cbn [coder_init] in H.
  - destruct (writer_init w n) as [[w' r']|] eqn:E; [|discriminate]. injection H as <- _. apply writer_init_cks in E. destruct E as [_ E].
    cbn [coder_typed] in *. rewrite E. exact T.
  - injection H as <- _. exact Logic.I.
Qed.
Lemma coder_output_typed : forall c c' o, coder_output c = Some (c', o) -> coder_typed c -> coder_typed c'.
Proof.
  intros [w|j] c' o H T; cbn [coder_output] in H.
  - destruct (writer_output w) as [[w' r']|] eqn:E; [|discriminate]. injection H as <- _. apply writer_output_cks in E. destruct E as [_ E].
    cbn [coder_typed] in *. rewrite E. exact T.
  - destruct (json_output j). injection H as <- _. exact Logic.I.
Qed.

Lemma coder_output_once : forall c c' o, coder_output c = Some (c', o) -> coder_typed c -> zlen o <= size_max ->
  appended (coder_output_calls c) = o /\ once (coder_output_calls c).
Proof.
  intros [w|j] c' o H T L; cbn [coder_output coder_output_calls coder_typed] in *.
  - destruct (writer_output w) as [[w' o']|] eqn:E; [|discriminate]. injection H as _ <-. unfold writer_output in E.
    assert (o' = match wr_inst w with [] => [] | _ => window_bytes w end) as ->.
    { destruct (wr_inst w);
        (match type of E with context [writer_init ?x ?n] => destruct (writer_init x n) as [[w1 r]|] end; [|discriminate]); congruence. }
    clear E. destruct (wr_inst w) eqn:WI; [split; [reflexivity|left; reflexivity]|].
    split; [apply window_calls_appended|]. apply window_calls_once; auto.
  - unfold json_output in H. injection H as _ <-. cbn [appended]. rewrite app_nil_r. split; [reflexivity|]. right. left. eauto.
Qed.

Definition call_bytes (c : ecall) : Prop := match c with EChunk data => bytes_ok data | _ => True end.

Lemma do_ecall_once : forall e c e' r o, coder_typed (ec_coder e) -> call_bytes c -> do_ecall e c = Some (e', r, o) -> zlen o <= size_max ->
  appended (ecall_calls e c) = o /\ once (ecall_calls e c) /\ coder_typed (ec_coder e').
Proof.
  intros e c e' r o T B H L. destruct c as [|data|]; cbn [do_ecall ecall_calls call_bytes] in *.
  - unfold start_encoding, start_encoding_calls in *. destruct (coder_init _ _) as [[c1 [|]]|] eqn:E; [| |discriminate].
    + pose proof (coder_init_typed _ _ _ _ E T) as T1. destruct (coder_verify _ _); cbn [negb] in H; injection H as <- _ <-.
      * cbn [set_coder ec_coder]. destruct c1 as [w|j]; cbn [coder_header coder_header_calls appended]; rewrite ?app_nil_r.
        -- split; [reflexivity|]. split; [|exact T1]. right. left. eauto.
        -- split; [reflexivity|]. split; [left; reflexivity|exact T1].
      * split; [reflexivity|]. split; [left; reflexivity|exact T1].
    + injection H as <- _ <-. split; [reflexivity|]. split; [left; reflexivity|]. exact (coder_init_typed _ _ _ _ E T).
  - unfold encode_chunk, encode_chunk_calls in *. destruct (ec_allowed e); cbn [negb] in *; [|injection H as <- _ <-; split; [reflexivity|split; [left; reflexivity|exact T]]].
    destruct (coder_verify _ _); cbn [negb] in *; [|injection H as <- _ <-; split; [reflexivity|split; [left; reflexivity|exact T]]].
    cbv zeta in *. set (c0 := if fl_checksum (ec_flags e) then _ else _) in *.
    assert (coder_typed c0) as T0.
    { unfold c0. destruct (fl_checksum _); [|exact T]. destruct (ec_coder e) as [w|j]; cbn [coder_checksum coder_typed]; [|exact Logic.I].
      cbn [add_checksum wr_cks]. rewrite compute_adler32_ok by exact B. apply adler_sum_range. }
    clearbody c0. destruct (engine_encode _ _ _) as [[l|]|]; [| |discriminate].
    + destruct (coder_calls c0 l) as [c1|] eqn:EC; [|discriminate]. destruct (coder_output c1) as [[c2 o2]|] eqn:EO; [|discriminate].
      injection H as <- _ <-. pose proof (coder_calls_typed _ _ _ EC T0) as T1.
      destruct (coder_output_once _ _ _ EO T1 L) as [A1 A2]. split; [exact A1|]. split; [exact A2|]. exact (coder_output_typed _ _ _ EO T1).
    + injection H as <- _ <-. split; [reflexivity|]. split; [left; reflexivity|exact T0].
  - injection H as H. unfold finish_encoding, finish_encoding_calls in *. destruct (ec_allowed e); cbn [negb] in *.
    + injection H as <- _ <-. cbn [set_coder ec_coder]. destruct (ec_coder e) as [w|j]; cbn [coder_finish coder_finish_calls].
      * split; [reflexivity|]. split; [left; reflexivity|exact T].
      * unfold json_finish. destruct (jw_called j); (split; [reflexivity|]); (split; [|exact Logic.I]); [right; left; eauto|left; reflexivity].
    + injection H as <- _ <-. split; [reflexivity|]. split; [left; reflexivity|exact T].
Qed.
