(** The JSON writer writes arrays that read back as the instructions. *)

From Verif Require Import Base ListFacts Spec SpecEncode SpecJson CopyFacts CodeTable InstructionMap EncodeTable Adler WriterFacts JsonWriter RollingHash BlockHash BlockHashFacts Engine EngineFacts Encoder.
From Coq Require Import ZifyBool ZifyNat.

Definition ascii (l : list Z) : Prop := Forall (fun c => 0 <= c < 128) l.

Lemma ascii_app : forall a b, ascii (a ++ b) <-> ascii a /\ ascii b.
Proof. intros. unfold ascii. apply Forall_app. Qed.

Lemma ascii_bytes : forall l, ascii l -> bytes_ok l.
Proof. intros l H. eapply Forall_impl; [|exact H]. unfold byte_ok. intros; lia. Qed.

Lemma is_ascii_ok : forall l, bytes_ok l -> is_ascii l = true <-> ascii l.
Proof.
  intros l B. unfold is_ascii, ascii. rewrite forallb_forall, Forall_forall. unfold bytes_ok in B. rewrite Forall_forall in B.
  split; intros H x I; specialize (H x I); specialize (B x I); unfold byte_ok in B; lia.
Qed.

Lemma hex_value_digit : forall x, 0 <= x < 16 -> hex_value (hex_digit x) = Some x.
Proof.
  intros x X. unfold hex_digit, hex_value. destruct (Z.ltb_spec x 10).
  - destruct (Z.leb_spec 48 (48 + x)); [|lia]. destruct (Z.leb_spec (48 + x) 57); [|lia]. cbn [andb]. f_equal; lia.
  - destruct (Z.leb_spec 48 (87 + x)); [|lia]. destruct (Z.leb_spec (87 + x) 57); [lia|]. cbn [andb].
    destruct (Z.leb_spec 97 (87 + x)); [|lia]. destruct (Z.leb_spec (87 + x) 102); [|lia]. cbn [andb]. f_equal; lia.
Qed.

Lemma read_escaped : forall c tl acc, 0 <= c < 128 -> read_string (json_escape_byte c ++ tl) acc = read_string tl (acc ++ [c]).
Proof.
  intros c tl acc C. unfold json_escape_byte.
  destruct (Z.eqb_spec c 34) as [-> |N1]; [reflexivity|]. destruct (Z.eqb_spec c 92) as [-> |N2]; [reflexivity|].
  destruct (Z.eqb_spec c 8) as [-> |N3]; [reflexivity|]. destruct (Z.eqb_spec c 12) as [-> |N4]; [reflexivity|].
  destruct (Z.eqb_spec c 10) as [-> |N5]; [reflexivity|]. destruct (Z.eqb_spec c 13) as [-> |N6]; [reflexivity|].
  destruct (Z.eqb_spec c 9) as [-> |N7]; [reflexivity|].
  destruct ((c <? 32) || (127 <=? c)) eqn:E; cbn [app read_string].
  - cbn [Z.eqb Pos.eqb]. unfold hex4. rewrite !hex_value_digit by lia. change (hex_value 48) with (Some 0).
    cbv beta iota. do 3 f_equal. lia.
  - destruct (Z.eqb_spec c 34); [lia|]. destruct (Z.eqb_spec c 92); [lia|].
    destruct (Z.leb_spec 32 c); [|lia]. destruct (Z.ltb_spec c 128); [|lia]. reflexivity.
Qed.

Lemma read_string_ok : forall d tl acc, ascii d -> read_string (json_escape d ++ 34 :: tl) acc = Some (acc ++ d, tl).
Proof.
  induction d as [|c d IH]; intros tl acc A.
  - cbn [json_escape flat_map app read_string Z.eqb Pos.eqb]. rewrite app_nil_r. reflexivity.
  - inversion A; subst. unfold json_escape. cbn [flat_map]. rewrite <- app_assoc, read_escaped by assumption.
    fold (json_escape d). rewrite IH by assumption. rewrite <- app_assoc. reflexivity.
Qed.

(** ** Numbers *)

Lemma digits_read : forall fuel x acc a, 0 <= x < 10 ^ Z.of_nat fuel ->
  exists k, 0 <= k /\ read_digits (digits fuel x acc) a = read_digits acc (a * 10 ^ k + x).
Proof.
  induction fuel as [|n IH]; intros x acc a X.
  - change (10 ^ Z.of_nat 0) with 1 in X. exists 0. split; [lia|]. cbn [digits]. f_equal. lia.
  - cbn [digits]. destruct (Z.ltb_spec x 10).
    + exists 1. split; [lia|]. cbn [read_digits]. unfold is_digit.
      destruct (Z.leb_spec 48 (48 + x mod 10)); [|lia]. destruct (Z.leb_spec (48 + x mod 10) 57); [|lia]. cbn [andb]. f_equal. lia.
    + rewrite Nat2Z.inj_succ, Z.pow_succ_r in X by lia.
      destruct (IH (x / 10) ((48 + x mod 10) :: acc) a) as (k & K & ->); [lia|].
      exists (k + 1). split; [lia|]. cbn [read_digits]. unfold is_digit.
      destruct (Z.leb_spec 48 (48 + x mod 10)); [|lia]. destruct (Z.leb_spec (48 + x mod 10) 57); [|lia]. cbn [andb]. f_equal.
      rewrite Z.pow_add_r by lia. change (10 ^ 1) with 10. rewrite Z.mul_assoc. pose proof (Z.div_mod x 10 ltac:(lia)). lia.
Qed.

Lemma digits_head : forall fuel x acc, 1 <= x < 10 ^ Z.of_nat fuel -> exists c tl, digits fuel x acc = c :: tl /\ 49 <= c <= 57.
Proof.
  induction fuel as [|n IH]; intros x acc X; [change (10 ^ Z.of_nat 0) with 1 in X; lia|].
  cbn [digits]. destruct (Z.ltb_spec x 10); [do 2 eexists; split; [reflexivity|lia]|].
  rewrite Nat2Z.inj_succ, Z.pow_succ_r in X by lia. apply IH. lia.
Qed.

Lemma digits_app : forall fuel x acc, digits fuel x acc = digits fuel x [] ++ acc.
Proof.
  induction fuel as [|n IH]; intros x acc; cbn [digits]; [reflexivity|].
  destruct (x <? 10); [reflexivity|]. rewrite IH, (IH _ [_]), <- app_assoc. reflexivity.
Qed.

Lemma read_decimal : forall x c tl, 0 <= x <= size_max -> is_digit c = false ->
  read_number (decimal x ++ c :: tl) = Some (x, c :: tl).
Proof.
  intros x c tl X D. unfold decimal. destruct (Z.ltb_spec x 0); [lia|]. rewrite <- digits_app.
  assert (0 <= x < 10 ^ Z.of_nat 20) as X' by (change (10 ^ Z.of_nat 20) with 100000000000000000000; unfold size_max in *; lia).
  assert (x = 0 \/ 1 <= x) as [-> |P] by lia.
  - cbn [digits Z.ltb Z.compare Z.modulo Z.div_eucl snd Z.add read_number]. change (is_digit 48) with true. cbn [negb Z.eqb Pos.eqb].
    rewrite D. reflexivity.
  - destruct (digits_head 20 x (c :: tl)) as (h & t & E & R); [lia|]. destruct (digits_read 20 x (c :: tl) 0 X') as (k & K & ER).
    unfold read_number. rewrite E in *. assert (is_digit h = true) as -> by (unfold is_digit; lia). cbn [negb].
    destruct (Z.eqb_spec h 48); [lia|]. f_equal. etransitivity; [exact ER|]. cbn [read_digits]. rewrite D. reflexivity.
Qed.

(** ** Arrays *)

Definition etext (e : element) : list Z :=
  match e with JString s => [34] ++ json_escape s ++ [34] | JNumber n => decimal n end.
Definition good_element (e : element) : Prop :=
  match e with JString s => ascii s | JNumber n => 0 <= n <= size_max end.
Fixpoint join (es : list element) : list Z :=
  match es with
  | [] => []
  | [e] => etext e
  | e :: tl => etext e ++ [44] ++ join tl
  end.

Lemma read_element_ok : forall e c tl, good_element e -> is_digit c = false -> read_element (etext e ++ c :: tl) = Some (e, c :: tl).
Proof.
  intros [s|n] c tl G D; cbn [etext good_element] in *.
  - cbn [app read_element Z.eqb Pos.eqb]. rewrite <- app_assoc. cbn [app]. rewrite read_string_ok by exact G. reflexivity.
  - assert (exists h t, decimal n ++ c :: tl = h :: t /\ 48 <= h <= 57) as (h & t & E & R).
    { unfold decimal. destruct (Z.ltb_spec n 0); [lia|]. rewrite <- digits_app.
      assert (n = 0 \/ 1 <= n) as [-> |P] by lia; [do 2 eexists; split; [reflexivity|lia]|].
      destruct (digits_head 20 n (c :: tl)) as (h & t & E & R); [change (10 ^ Z.of_nat 20) with 100000000000000000000; unfold size_max in *; lia|].
      exists h, t. split; [exact E|lia]. }
    unfold read_element. rewrite E. destruct (Z.eqb_spec h 34); [lia|]. rewrite <- E, read_decimal by auto. reflexivity.
Qed.

Lemma digits_long : forall fuel x acc, (length acc <= length (digits fuel x acc))%nat.
Proof.
  induction fuel as [|n IH]; intros x acc; cbn [digits]; [lia|]. destruct (x <? 10); [cbn; lia|]. specialize (IH (x / 10) ((48 + x mod 10) :: acc)). cbn [length] in IH. lia.
Qed.

Lemma etext_nonempty : forall e, (1 <= length (etext e))%nat.
Proof.
  intros [s|n]; cbn [etext]; [cbn; lia|]. unfold decimal. destruct (n <? 0); [cbn [length]; lia|].
  change (digits 20 n []) with (if n <? 10 then [48 + n mod 10] else digits 19 (n / 10) [48 + n mod 10]).
  destruct (n <? 10); [cbn; lia|]. apply (digits_long 19 (n / 10) [48 + n mod 10]).
Qed.

Lemma join_cons : forall e e2 es, join (e :: e2 :: es) = etext e ++ [44] ++ join (e2 :: es).
Proof. reflexivity. Qed.

Lemma read_elements_ok : forall es fuel, es <> [] -> Forall good_element es -> (length (join es) <= fuel)%nat ->
  read_elements (S fuel) (join es ++ [93]) = Some es.
Proof.
  induction es as [|e es IH]; intros fuel NE G L; [congruence|]. inversion G as [|? ? G1 G2]; subst. cbn [read_elements].
  destruct es as [|e2 es].
  - cbn [join]. rewrite read_element_ok by auto. reflexivity.
  - rewrite join_cons in *. rewrite <- !app_assoc. cbn [app]. rewrite read_element_ok by auto. cbn [Z.eqb Pos.eqb].
    rewrite !app_length in L. cbn [length] in L.
    pose proof (etext_nonempty e). destruct fuel as [|fuel]; [lia|].
    rewrite (IH fuel); [reflexivity|discriminate|exact G2|]. lia.
Qed.

Lemma read_array_ok : forall es, es <> [] -> Forall good_element es -> read_array ([91] ++ join es ++ [93]) = Some es.
Proof.
  intros es NE G. cbn [app]. unfold read_array.
  assert (read_elements (length (join es ++ [93])) (join es ++ [93]) = Some es) as R.
  { rewrite app_length. cbn [length]. rewrite Nat.add_1_r. apply read_elements_ok; auto. }
  destruct (join es ++ [93]) as [|x [|y l]] eqn:E; [destruct (join es); discriminate| |].
  - exfalso. destruct es as [|e es]; [congruence|]. apply (f_equal (@length Z)) in E. rewrite app_length in E. cbn [length] in E.
    assert (1 <= length (join (e :: es)))%nat; [|lia]. destruct es; cbn [join]; [apply etext_nonempty|].
    rewrite app_length. pose proof (etext_nonempty e). lia.
  - destruct x as [|p|p]; try exact R. do 8 (destruct p as [p|p|]; try exact R).
Qed.

(** ** Instructions *)

Definition ielements (i : instruction) : list element :=
  match i with
  | Add d => [JString d]
  | Copy a n => [JNumber a; JNumber n]
  | Run n b => [JString (zrepeat b n)]
  end.

Lemma join_app : forall a b, a <> [] -> b <> [] -> join (a ++ b) = join a ++ [44] ++ join b.
Proof.
  induction a as [|e a IH]; intros b A B; [congruence|]. destruct a as [|e2 a].
  - cbn [app]. destruct b; [congruence|reflexivity].
  - change ((e :: e2 :: a) ++ b) with (e :: (e2 :: a) ++ b). specialize (IH b ltac:(discriminate) B).
    cbn [app] in *. change (join (e :: e2 :: a ++ b)) with (etext e ++ [44] ++ join (e2 :: a ++ b)). rewrite IH.
    change (join (e :: e2 :: a)) with (etext e ++ [44] ++ join (e2 :: a)). rewrite <- !app_assoc. reflexivity.
Qed.

(** A plan without RUN, with addresses and sizes that can be printed. *)
Definition jgood (i : instruction) : Prop :=
  match i with
  | Add d => ascii d
  | Copy a n => 0 <= a <= int32_max /\ 0 <= n <= int32_max
  | Run _ _ => False
  end.

Lemma json_call_text : forall j i (es : list element), jgood i -> jw_added j = (match es with [] => false | _ => true end) ->
  json_call j i = {| jw_out := jw_out j ++ (match es with [] => [] | _ => [44] end) ++ join (ielements i); jw_called := jw_called j; jw_added := true |}.
Proof.
  intros j i es G A. destruct i as [d|a n|n b]; cbn [json_call jgood ielements join etext] in *; [| |contradiction].
  - unfold json_add, json_append, json_comma. rewrite A. destruct es; reflexivity.
  - unfold json_copy, json_append, json_comma. rewrite A. rewrite to_int32_id by (unfold int32_max in *; lia).
    rewrite to_size_id by (unfold int32_max, size_max in *; lia). destruct es; reflexivity.
Qed.

Lemma json_calls_text : forall l j (es : list element) pre, Forall jgood l -> jw_added j = (match es with [] => false | _ => true end) ->
  pre ++ jw_out j = [91] ++ join es ->
  let j' := fold_left json_call l j in let es' := es ++ flat_map ielements l in
  jw_added j' = (match es' with [] => false | _ => true end) /\ pre ++ jw_out j' = [91] ++ join es' /\ jw_called j' = jw_called j.
Proof.
  induction l as [|i l IH]; intros j es pre G A T; cbn [fold_left flat_map].
  - rewrite app_nil_r. auto.
  - inversion G as [|? ? G1 G2]; subst. rewrite (json_call_text j i es G1 A).
    destruct (IH {| jw_out := jw_out j ++ match es with [] => [] | _ => [44] end ++ join (ielements i); jw_called := jw_called j; jw_added := true |}
                (es ++ ielements i) pre G2) as (X1 & X2 & X3).
    + cbn [jw_added]. destruct i, es; reflexivity.
    + cbn [jw_out]. rewrite app_assoc, T. destruct es as [|e es]; [rewrite !app_nil_l; reflexivity|].
      rewrite join_app; [|discriminate|destruct i; discriminate]. rewrite <- !app_assoc. reflexivity.
    + cbv zeta in *. rewrite (app_assoc es). split; [exact X1|]. split; [exact X2|exact X3].
Qed.

Lemma apply_elements_app : forall l dict T T' r, Forall jgood l -> execute_all dict T l = Some T' ->
  apply_elements dict T (flat_map ielements l ++ r) = apply_elements dict T' r.
Proof.
  induction l as [|i l IH]; intros dict T T' r G X; cbn [execute_all flat_map] in *; [injection X as <-; reflexivity|].
  inversion G as [|? ? G1 G2]; subst. destruct i as [d|a n|n b]; cbn [jgood execute] in *; [| |contradiction].
  - cbn [ielements app apply_elements]. apply (IH _ _ _ _ G2 X).
  - destruct (_ && _); [|discriminate]. cbn [ielements app apply_elements].
    destruct (copy_bytewise (Z.to_nat n) dict T a) as [T1|]; [|discriminate]. apply (IH _ _ _ _ G2 X).
Qed.

(** Where the elements so far can be carried out, the others follow. *)
Lemma apply_elements_split : forall a b dict T P, apply_elements dict T a = Some P -> apply_elements dict T (a ++ b) = apply_elements dict P b.
Proof.
  fix IH 1. intros [|[s|n] a] b dict T P H; cbn [app apply_elements] in *; [congruence|apply IH; exact H|].
  destruct a as [|[s|m] a]; [discriminate|discriminate|]. cbn [app].
  destruct (copy_bytewise (Z.to_nat m) dict T n) as [T1|]; [|discriminate]. apply IH. exact H.
Qed.

Lemma plan_jgood : forall look dict T b l T', genuine_plan look dict T b l T' -> ascii T' -> zlen dict + zlen T' <= int32_max -> Forall jgood l.
Proof.
  intros look dict T b l T' P. induction P as [T b|T d l T' D P IH|T b a n T1 l T' N A C P IH]; intros A' L; [constructor| |].
  - constructor; [|apply (IH A' L)]. destruct (genuine_plan_grows _ _ _ _ _ _ P) as (m & ->).
    apply ascii_app in A'. destruct A' as (A' & _). apply ascii_app in A'. exact (proj2 A').
  - constructor; [|apply (IH A' L)]. cbn [jgood]. destruct (genuine_plan_grows _ _ _ _ _ _ P) as (m & ->).
    destruct (copy_bytewise_length _ _ _ _ _ C) as (bs & -> & LB). rewrite !zlen_app in L. pose proof (zlen_nonneg _ m). pose proof (zlen_nonneg _ dict).
    pose proof (zlen_nonneg _ T). lia.
Qed.

(** Copies from the dictionary do not depend on the target data. *)
Lemma copy_dict : forall n dict P T a T1, 0 <= a -> a + Z.of_nat n <= zlen dict -> copy_bytewise n dict T a = Some T1 ->
  copy_bytewise n dict (P ++ T) a = Some (P ++ T1).
Proof.
  induction n as [|n IH]; intros dict P T a T1 A B C; cbn [copy_bytewise] in *; [congruence|].
  rewrite !get_app_l in * by lia. destruct (get dict a) as [x|] eqn:G; [|discriminate].
  rewrite <- app_assoc. apply IH; [lia|lia|exact C].
Qed.

Lemma plan_prefix : forall dict P T b l T', genuine_plan false dict T b l T' -> genuine_plan false dict (P ++ T) b l (P ++ T').
Proof.
  intros dict P T b l T' G. induction G as [T b|T d l T' D G IH|T b a n T1 l T' N A C G IH]; [constructor| |].
  - constructor; [exact D|]. rewrite <- app_assoc. exact IH.
  - destruct A as [A|[A _]]; [|discriminate]. econstructor; [exact N|left; exact A| |exact IH]. apply copy_dict; [lia|lia|exact C].
Qed.

(** ** The encoder with the JSON writer *)

(** [jinv e dict pre es]: with [pre] the bytes appended so far, the text is the
    beginning of the array with the elements [es]. *)
Definition jinv (e : encoder) (dict pre : list Z) (es : list element) (j : json_writer) : Prop :=
  engine_ok (ec_engine e) dict /\ ec_coder e = Json j /\ ec_allowed e = true /\
  jw_added j = (match es with [] => false | _ => true end) /\ pre ++ jw_out j = [91] ++ join es /\
  (es <> [] -> jw_called j = true /\ jw_out j = []).

Definition text_fits (dict c : list Z) : Prop := ascii c /\ zlen dict + zlen c <= int32_max.

Lemma json_start : forall e dict j, engine_ok (ec_engine e) dict -> ec_coder e = Json j ->
  start_encoding e =
    if is_ascii dict then Some (set_coder e (Json (json_init j)) true, true, [])
    else Some (set_coder e (Json (json_init j)) (ec_allowed e), false, []).
Proof.
  intros e dict j K J. unfold start_encoding. rewrite J. cbn [coder_init coder_verify coder_header].
  assert (en_dict (ec_engine e) = dict) as -> by (destruct K as (? & ? & ? & ?); congruence).
  destruct (is_ascii dict); reflexivity.
Qed.

Lemma json_chunk : forall e dict pre es j data P, jinv e dict pre es j -> text_fits dict data ->
  Forall good_element es -> apply_elements dict [] es = Some P -> (ec_look e = true -> data = [] \/ P = []) ->
  exists e' j' out es', encode_chunk e data = Some (e', true, out) /\ jinv e' dict (pre ++ out) es' j' /\ ec_look e' = ec_look e /\
    Forall good_element es' /\ apply_elements dict [] es' = Some (P ++ data) /\ (P ++ data <> [] -> es' <> []).
Proof.
  intros e dict pre es j data P (K & J & AL & AD & TX & CA) (AS & SZ) GE AP LK.
  pose proof (ascii_bytes _ AS) as BD. unfold encode_chunk. rewrite AL, J. cbn [negb coder_verify].
  rewrite (proj2 (is_ascii_ok data BD) AS). cbn [negb].
  assert ((if fl_checksum (ec_flags e) then coder_checksum (Json j) (compute_adler32 data) else Json j) = Json j) as ->
    by (destruct (fl_checksum (ec_flags e)); reflexivity).
  assert (data = [] \/ data <> []) as [-> |NE] by (destruct data; [left; reflexivity|right; discriminate]).
  - assert (engine_encode (ec_engine e) (ec_look e) [] = Some None) as -> by (unfold engine_encode; destruct (en_hash (ec_engine e)); reflexivity).
    exists (set_coder e (Json j) true), j, [], es. rewrite !app_nil_r. split; [reflexivity|]. split.
    { split; [exact K|]. split; [reflexivity|]. split; [reflexivity|]. auto. }
    split; [reflexivity|]. split; [exact GE|]. split; [exact AP|]. intros N ->. cbn [apply_elements] in AP. congruence.
  - destruct (engine_encode_ok (ec_engine e) dict (ec_look e) data K BD NE SZ) as (l & -> & GP).
    cbn [coder_calls coder_output].
    pose proof (plan_jgood _ _ _ _ _ _ GP AS SZ) as JG.
    assert (l <> []) as LN by (intros ->; inversion GP; congruence).
    destruct (json_calls_text l j es pre JG AD TX) as (T1 & T2 & T3). cbv zeta in T1, T2.
    destruct (json_output (fold_left json_call l j)) as [j' out] eqn:JO. unfold json_output in JO. injection JO as <- <-.
    assert (es ++ flat_map ielements l <> []) as EN.
    { destruct l as [|i l]; [congruence|]. cbn [flat_map]. destruct es; destruct i; discriminate. }
    eexists _, _, _, (es ++ flat_map ielements l). split; [reflexivity|]. split.
    { split; [exact K|]. split; [reflexivity|]. split; [reflexivity|]. cbn [jw_added jw_out jw_called]. rewrite app_nil_r. auto. }
    split; [reflexivity|]. split; [|split; [|intros _; exact EN]].
    + apply Forall_app. split; [exact GE|]. clear - JG. induction JG as [|i l G _ IH]; [constructor|]. cbn [flat_map]. apply Forall_app. split; [|exact IH].
      unfold int32_max in *. destruct i as [d|a n|n b]; cbn [jgood ielements] in *; [| |contradiction].
      * constructor; [exact G|constructor].
      * constructor; [cbn [good_element]; unfold size_max, int32_max in *; lia|]. constructor; [cbn [good_element]; unfold size_max, int32_max in *; lia|constructor].
    + rewrite <- (app_nil_r (flat_map ielements l)). rewrite (apply_elements_split es _ dict [] P AP).
      rewrite (apply_elements_app l dict P (P ++ data) [] JG); [reflexivity|]. apply (genuine_plan_execute (ec_look e) _ _ false).
      destruct (ec_look e) eqn:LE.
      * destruct (LK eq_refl) as [-> | ->]; [congruence|exact GP].
      * pose proof (plan_prefix dict P [] false l data GP) as GP'. rewrite app_nil_r in GP'. exact GP'.
Qed.

Lemma json_chunks : forall chunks e dict pre es j P, jinv e dict pre es j -> Forall (text_fits dict) chunks ->
  Forall good_element es -> apply_elements dict [] es = Some P -> (P <> [] -> es <> []) ->
  (ec_look e = true -> forall before c after, chunks = before ++ c :: after -> c = [] \/ P ++ concat before = []) ->
  exists e' j' out es', encode_chunks e chunks pre = Some (e', true, out) /\ jinv e' dict out es' j' /\
    Forall good_element es' /\ apply_elements dict [] es' = Some (P ++ concat chunks) /\ (P ++ concat chunks <> [] -> es' <> []).
Proof.
  induction chunks as [|c chunks IH]; intros e dict pre es j P I F GE AP PN LK; cbn [encode_chunks concat].
  - exists e, j, pre, es. rewrite app_nil_r. auto.
  - inversion F as [|? ? F1 F2]; subst.
    destruct (json_chunk e dict pre es j c P I F1 GE AP) as (e1 & j1 & out & es1 & -> & I1 & L1 & G1 & A1 & N1).
    { intros L. destruct (LK L [] c chunks eq_refl) as [H|H]; [left; exact H|right]. cbn [concat] in H. rewrite app_nil_r in H. exact H. }
    destruct (IH e1 dict (pre ++ out) es1 j1 (P ++ c) I1 F2 G1 A1 N1) as (e' & j' & out' & es' & X1 & X2 & X3 & X4 & X5).
    { rewrite L1. intros L before c' after E. destruct (LK L (c :: before) c' after) as [H|H]; [cbn; rewrite E; reflexivity|left; exact H|right].
      cbn [concat] in H. rewrite <- app_assoc. exact H. }
    exists e', j', out', es'. rewrite <- app_assoc in X4, X5. auto.
Qed.

Lemma json_stream : forall e dict j chunks, engine_ok (ec_engine e) dict -> ec_coder e = Json j -> ascii dict ->
  Forall (text_fits dict) chunks -> concat chunks <> [] ->
  (ec_look e = true -> forall before c after, chunks = before ++ c :: after -> c = [] \/ concat before = []) ->
  exists e' j' out es, encode_stream e chunks = Some (e', true, out) /\ read_array out = Some es /\
    apply_elements dict [] es = Some (concat chunks) /\ engine_ok (ec_engine e') dict /\ ec_coder e' = Json j'.
Proof.
  intros e dict j chunks K J AD F NE LK. unfold encode_stream. rewrite (json_start e dict j K J).
  rewrite (proj2 (is_ascii_ok dict (ascii_bytes _ AD)) AD).
  destruct (json_chunks chunks (set_coder e (Json (json_init j)) true) dict [] [] (json_init j) []) as (e' & j' & out & es & -> & (K' & J' & AL & A1 & A2 & A3) & G & AP & N).
  - split; [exact K|]. split; [reflexivity|]. split; [reflexivity|]. split; [reflexivity|]. split; [reflexivity|congruence].
  - exact F.
  - constructor.
  - reflexivity.
  - congruence.
  - exact LK.
  - cbn [app] in AP, N. destruct (A3 (N NE)) as (CA & O). unfold finish_encoding. rewrite AL. cbn [negb]. rewrite J'.
    cbn [coder_finish]. unfold json_finish. rewrite CA. exists (set_coder e' (Json j') false), j', (out ++ [93]), es.
    split; [reflexivity|]. rewrite O, app_nil_r in A2. rewrite A2, <- app_assoc. split; [apply read_array_ok; [exact (N NE)|exact G]|].
    split; [exact AP|]. split; [exact K'|reflexivity].
Qed.

(** Bytes that are not ASCII are refused, and nothing is written. *)
Lemma json_refuses : forall e dict j data, engine_ok (ec_engine e) dict -> ec_coder e = Json j ->
  (bytes_ok dict -> ~ ascii dict -> exists e', start_encoding e = Some (e', false, [])) /\
  (bytes_ok data -> ~ ascii data -> encode_chunk e data = Some (e, false, [])).
Proof.
  intros e dict j data K J. split; intros B N.
  - rewrite (json_start e dict j K J). destruct (is_ascii dict) eqn:E; [apply is_ascii_ok in E; [contradiction|exact B]|]. eexists. reflexivity.
  - unfold encode_chunk. destruct (ec_allowed e); [|reflexivity]. cbn [negb]. rewrite J. cbn [coder_verify].
    destruct (is_ascii data) eqn:E; [apply is_ascii_ok in E; [contradiction|exact B]|]. reflexivity.
Qed.
