(** The command line tool with I/O errors: what is on the device in the end. *)

From Verif Require Import Base ListFacts Spec SpecEncode EncodeTable Engine Encoder Decoder Cli CliFacts Stdio.
From Coq Require Import ZifyBool ZifyNat.

(** What was handed to the C library. *)
Definition handed (f : wfile) : list Z := wf_disk f ++ wf_buf f.

Lemma write_handed : forall v f o ok f', write_output_io v f o = (ok, f') ->
  (ok = true -> handed f' = handed f ++ o) /\ exists q, handed f ++ o = handed f' ++ q.
Proof.
  intros v f o ok f' H. unfold write_output_io in H. destruct (nonempty o) eqn:N.
  - injection H as <- <-. unfold fwrite_io, handed. destruct (de_write v (wf_disk f) (wf_buf f ++ o)) as [k [n|]]; cbn [wf_disk wf_buf wf_err].
    + rewrite orb_true_r. split; [discriminate|]. exists (zdrop n (zdrop k (wf_buf f ++ o))).
      rewrite <- !app_assoc, ztake_zdrop, ztake_zdrop. reflexivity.
    + rewrite <- app_assoc, ztake_zdrop, <- app_assoc. split; [reflexivity|]. exists []. rewrite app_nil_r. reflexivity.
  - injection H as <- <-. destruct o; [rewrite app_nil_r|discriminate]. split; [reflexivity|]. exists []. rewrite app_nil_r. reflexivity.
Qed.

(** fclose reports an error if it leaves bytes behind (ISO C 7.21.5.1). *)
Definition honest (v : device) : Prop :=
  forall disk pending, snd (de_close v disk pending) = false -> zlen pending <= fst (de_close v disk pending).

Lemma close_handed : forall v f disk failed, fclose_io v f = (disk, failed) ->
  (exists q, handed f = disk ++ q) /\ (honest v -> failed = false -> disk = handed f).
Proof.
  intros v f disk failed H. unfold fclose_io in H. destruct (de_close v (wf_disk f) (wf_buf f)) as [k b] eqn:E. injection H as <- <-.
  unfold handed. split.
  - exists (zdrop k (wf_buf f)). rewrite <- app_assoc, ztake_zdrop. reflexivity.
  - intros HV B. specialize (HV (wf_disk f) (wf_buf f)). rewrite E in HV. cbn [fst snd] in HV. rewrite ztake_all by auto. reflexivity.
Qed.

Lemma fread_io_rest : forall f n bytes f', fread_io f n = (bytes, f') -> 0 <= n -> rf_eof f = false -> rf_err f = false ->
  rf_rest f = bytes ++ rf_rest f' /\ rf_bad f' = rf_bad f /\ rf_size f' = rf_size f /\ zlen bytes <= n /\
  (rf_eof f' = true -> rf_rest f' = [] /\ rf_bad f = false /\ rf_err f' = false /\ 0 < n) /\
  (rf_eof f' = false -> rf_err f' = false -> zlen bytes = n).
Proof.
  intros f n bytes f' H N E1 E2. unfold fread_io in H. destruct (Z.eqb_spec n 0) as [-> |Q].
  - injection H as <- <-. cbn [app]. rewrite zlen_nil. split; [reflexivity|]. split; [reflexivity|]. split; [reflexivity|]. split; [lia|].
    split; [congruence|lia].
  - injection H as <- <-. cbn [rf_rest rf_bad rf_size rf_eof rf_err]. rewrite E1, E2. cbn [orb].
    split; [symmetry; apply ztake_zdrop|]. split; [reflexivity|]. split; [reflexivity|]. rewrite zlen_ztake by lia.
    pose proof (zlen_nonneg _ (rf_rest f)). split; [lia|]. destruct (rf_bad f), (Z.ltb_spec (Z.min n (zlen (rf_rest f))) n); cbn [andb negb]; split; try discriminate; try lia.
    intros _. split; [apply zdrop_all; lia|]. split; [reflexivity|]. split; [reflexivity|lia].
Qed.

(** ** Encode *)

Lemma encode_io_ok : forall fuel v inp buf out e output ok cl, 0 <= buf -> rf_eof inp = false -> rf_err inp = false ->
  encode_loop_io fuel v inp buf out e output = IExit ok cl ->
  exists chunks rest e2 o f, rf_rest inp = concat chunks ++ rest /\ encode_chunks e chunks [] = Some (e2, true, o) /\ cl = fclose_io v f /\
    Forall (fun c => 0 < zlen c <= buf) chunks /\ ((zlen chunks - 1) * buf < zlen (concat chunks) \/ chunks = []) /\
    (exists q, handed out ++ output ++ o ++ snd (finish_encoding e2) = handed f ++ q) /\
    (ok = true -> rest = [] /\ rf_bad inp = false /\ handed f = handed out ++ output ++ o ++ snd (finish_encoding e2)).
Proof.
  induction fuel as [|fuel IH]; intros v inp buf out e output ok cl B EF ER H; cbn [encode_loop_io] in H; [discriminate|].
  destruct (write_output_io v out output) as [written out1] eqn:W1. destruct (write_handed _ _ _ _ _ W1) as [A1 (z1 & Z1)].
  assert (forall x, leave v false out1 = IExit ok cl ->
    exists chunks rest e2 o f, x = concat chunks ++ rest /\ encode_chunks e chunks [] = Some (e2, true, o) /\ cl = fclose_io v f /\
    Forall (fun c => 0 < zlen c <= buf) chunks /\ ((zlen chunks - 1) * buf < zlen (concat chunks) \/ chunks = []) /\
    (exists q, handed out ++ output ++ o ++ snd (finish_encoding e2) = handed f ++ q) /\
    (ok = true -> rest = [] /\ rf_bad inp = false /\ handed f = handed out ++ output ++ o ++ snd (finish_encoding e2))) as FAIL.
  { intros x L. injection L as <- <-. exists [], x, e, [], out1. split; [reflexivity|]. split; [reflexivity|]. split; [reflexivity|].
    split; [constructor|]. split; [right; reflexivity|]. split; [|discriminate].
    exists (z1 ++ snd (finish_encoding e)). cbn [app]. rewrite !app_assoc, Z1. reflexivity. }
  destruct written; cbn [negb] in H; [|exact (FAIL _ H)]. specialize (A1 eq_refl).
  destruct (fread_io inp buf) as [bytes inp1] eqn:FR. destruct (fread_io_rest _ _ _ _ FR B EF ER) as (R & BD & _ & LB & EE & EN).
  destruct (rf_err inp1) eqn:ER1; [exact (FAIL _ H)|].
  assert (forall e1 o1, (nonempty bytes = true -> encode_chunk e bytes = Some (e1, true, o1)) -> (nonempty bytes = false -> e1 = e /\ o1 = []) ->
    (if rf_eof inp1 then let '(_, _, o2) := finish_encoding e1 in let '(written, out2) := write_output_io v out1 (o1 ++ o2) in leave v written out2
     else encode_loop_io fuel v inp1 buf out1 e1 o1) = IExit ok cl ->
    exists chunks rest e2 o f, rf_rest inp = concat chunks ++ rest /\ encode_chunks e chunks [] = Some (e2, true, o) /\ cl = fclose_io v f /\
    Forall (fun c => 0 < zlen c <= buf) chunks /\ ((zlen chunks - 1) * buf < zlen (concat chunks) \/ chunks = []) /\
    (exists q, handed out ++ output ++ o ++ snd (finish_encoding e2) = handed f ++ q) /\
    (ok = true -> rest = [] /\ rf_bad inp = false /\ handed f = handed out ++ output ++ o ++ snd (finish_encoding e2))) as NEXT.
  { intros e1 o1 NE1 NE2 K.
    assert (forall chunks e2 o, encode_chunks e1 chunks [] = Some (e2, true, o) ->
      Forall (fun c => 0 < zlen c <= buf) chunks -> (rf_eof inp1 = false \/ chunks = []) -> ((zlen chunks - 1) * buf < zlen (concat chunks) \/ chunks = []) ->
      exists chunks', concat chunks' = bytes ++ concat chunks /\ encode_chunks e chunks' [] = Some (e2, true, o1 ++ o) /\
        Forall (fun c => 0 < zlen c <= buf) chunks' /\ ((zlen chunks' - 1) * buf < zlen (concat chunks') \/ chunks' = [])) as ADD.
    { intros chunks e2 o EC FC LAST LC. destruct (nonempty bytes) eqn:NE.
      - exists (bytes :: chunks). split; [reflexivity|]. cbn [encode_chunks concat]. rewrite (NE1 eq_refl), encode_chunks_acc, EC.
        split; [reflexivity|]. apply nonempty_iff in NE. split; [constructor; [lia|exact FC]|]. left. rewrite zlen_cons, zlen_app.
        destruct LC as [LC| ->]; [|cbn [concat]; rewrite !zlen_nil; lia].
        destruct LAST as [LAST| ->]; [rewrite (EN LAST eq_refl); lia|cbn [concat]; rewrite !zlen_nil; lia].
      - destruct (NE2 eq_refl) as [-> ->]. destruct bytes; [|discriminate]. exists chunks. auto. }
    destruct (rf_eof inp1) eqn:EF1.
    - destruct (EE eq_refl) as (R1 & NB & _ & BP).
      destruct (ADD [] e1 []) as (chunks & C1 & C2 & C3 & C4); [reflexivity|constructor|auto|right; reflexivity|].
      cbn [concat] in C1. rewrite app_nil_r in C1, C2.
      destruct (finish_encoding e1) as [[e3 r3] o3] eqn:FE. destruct (write_output_io v out1 (o1 ++ o3)) as [written2 out2] eqn:W2.
      destruct (write_handed _ _ _ _ _ W2) as [A2 (z2 & Z2)]. injection K as <- <-.
      exists chunks, [], e1, o1, out2. split; [rewrite R, R1, C1; reflexivity|]. split; [exact C2|]. split; [reflexivity|]. split; [exact C3|]. split; [exact C4|].
      rewrite FE. cbn [snd]. split; [exists z2; rewrite <- Z2, A1, <- !app_assoc; reflexivity|]. intros WR.
      split; [reflexivity|]. split; [exact NB|]. rewrite (A2 WR), A1, <- !app_assoc. reflexivity.
    - destruct (IH v inp1 buf out1 e1 o1 ok cl B EF1 ER1 K) as (chunks & rest & e2 & o & f & Q1 & Q2 & Q3 & Q4 & Q5 & (q & Q6) & Q7).
      destruct (ADD chunks e2 o Q2 Q4 (or_introl eq_refl) Q5) as (chunks' & C1 & C2 & C3 & C4).
      exists chunks', rest, e2, (o1 ++ o), f. split; [rewrite R, Q1, C1, <- app_assoc; reflexivity|]. split; [exact C2|]. split; [exact Q3|]. split; [exact C3|]. split; [exact C4|].
      rewrite A1, <- !app_assoc in Q6. rewrite A1, <- !app_assoc, BD in Q7. rewrite <- !app_assoc. split; [exists q; exact Q6|exact Q7]. }
  destruct (nonempty bytes) eqn:NE.
  - destruct (encode_chunk e bytes) as [[[e1 [|]] o1]|] eqn:EC; [|exact (FAIL _ H)|discriminate].
    apply (NEXT e1 o1); [reflexivity|discriminate|exact H].
  - apply (NEXT e []); [discriminate|auto|exact H].
Qed.

(** ** Decode *)

Lemma decode_io_ok : forall fuel v inp buf out d ok cl, 0 <= buf -> rf_eof inp = false -> rf_err inp = false ->
  decode_loop_io fuel v inp buf out d = IExit ok cl ->
  exists chunks rest d2 o f, rf_rest inp = concat chunks ++ rest /\ decode_chunks d chunks [] = Some (d2, true, o) /\ cl = fclose_io v f /\
    (exists q, handed out ++ o = handed f ++ q) /\
    (ok = true -> rest = [] /\ rf_bad inp = false /\ snd (finish_decoding d2) = true /\ handed f = handed out ++ o).
Proof.
  induction fuel as [|fuel IH]; intros v inp buf out d ok cl B EF ER H; cbn [decode_loop_io] in H; [discriminate|].
  assert (forall x, leave v false out = IExit ok cl ->
    exists chunks rest d2 o f, x = concat chunks ++ rest /\ decode_chunks d chunks [] = Some (d2, true, o) /\ cl = fclose_io v f /\
    (exists q, handed out ++ o = handed f ++ q) /\
    (ok = true -> rest = [] /\ rf_bad inp = false /\ snd (finish_decoding d2) = true /\ handed f = handed out ++ o)) as FAIL.
  { intros x L. injection L as <- <-. exists [], x, d, [], out. split; [reflexivity|]. split; [reflexivity|]. split; [reflexivity|].
    split; [exists []; reflexivity|discriminate]. }
  destruct (fread_io inp buf) as [bytes inp1] eqn:FR. destruct (fread_io_rest _ _ _ _ FR B EF ER) as (R & BD & _ & LB & EE & EN).
  destruct (rf_err inp1) eqn:ER1; [exact (FAIL _ H)|].
  assert (forall d1 o1, (nonempty bytes = true -> decode_chunk d bytes = CRet d1 true o1) -> (nonempty bytes = false -> d1 = d /\ o1 = []) ->
    (let '(written, out1) := write_output_io v out o1 in
     if negb written then leave v false out1
     else if rf_eof inp1 then leave v (snd (finish_decoding d1)) out1
     else decode_loop_io fuel v inp1 buf out1 d1) = IExit ok cl ->
    exists chunks rest d2 o f, rf_rest inp = concat chunks ++ rest /\ decode_chunks d chunks [] = Some (d2, true, o) /\ cl = fclose_io v f /\
    (exists q, handed out ++ o = handed f ++ q) /\
    (ok = true -> rest = [] /\ rf_bad inp = false /\ snd (finish_decoding d2) = true /\ handed f = handed out ++ o)) as NEXT.
  { intros d1 o1 NE1 NE2 K.
    assert (forall chunks d2 o, decode_chunks d1 chunks [] = Some (d2, true, o) ->
      exists chunks', concat chunks' = bytes ++ concat chunks /\ decode_chunks d chunks' [] = Some (d2, true, o1 ++ o)) as ADD.
    { intros chunks d2 o EC. destruct (nonempty bytes) eqn:NE.
      - exists (bytes :: chunks). split; [reflexivity|]. cbn [decode_chunks]. rewrite (NE1 eq_refl), decode_chunks_acc, EC. reflexivity.
      - destruct (NE2 eq_refl) as [-> ->]. destruct bytes; [|discriminate]. exists chunks. auto. }
    destruct (ADD [] d1 []) as (chunks1 & C1 & C2); [reflexivity|]. cbn [concat] in C1. rewrite app_nil_r in C1, C2.
    destruct (write_output_io v out o1) as [written out1] eqn:W1. destruct (write_handed _ _ _ _ _ W1) as [A1 (z1 & Z1)].
    destruct written; cbn [negb] in K.
    2: { injection K as <- <-. exists chunks1, (rf_rest inp1), d1, o1, out1. split; [rewrite C1; exact R|]. split; [exact C2|]. split; [reflexivity|].
      split; [exists z1; exact Z1|discriminate]. }
    specialize (A1 eq_refl).
    destruct (rf_eof inp1) eqn:EF1.
    - destruct (EE eq_refl) as (R1 & NB & _ & BP). injection K as <- <-.
      exists chunks1, [], d1, o1, out1. split; [rewrite C1, R, R1; reflexivity|]. split; [exact C2|]. split; [reflexivity|].
      split; [exists z1; exact Z1|]. intros F. split; [reflexivity|]. split; [exact NB|]. split; [exact F|exact A1].
    - destruct (IH v inp1 buf out1 d1 ok cl B EF1 ER1 K) as (chunks & rest & d2 & o & f & Q1 & Q2 & Q3 & (q & Q4) & Q5).
      destruct (ADD chunks d2 o Q2) as (chunks' & D1 & D2).
      exists chunks', rest, d2, (o1 ++ o), f. split; [rewrite R, Q1, D1, <- app_assoc; reflexivity|]. split; [exact D2|]. split; [exact Q3|].
      rewrite A1, <- app_assoc in Q4. rewrite BD, A1, <- app_assoc in Q5. split; [exists q; exact Q4|exact Q5]. }
  destruct (nonempty bytes) eqn:NE.
  - destruct (decode_chunk d bytes) as [d1 [|] o1| |] eqn:DC; [|exact (FAIL _ H)|discriminate|discriminate].
    apply (NEXT d1 o1); [reflexivity|discriminate|exact H].
  - apply (NEXT d []); [discriminate|auto|exact H].
Qed.

(** ** DecodeAndCompare *)

Lemma compare_io_step : forall orig o same orig1, compare_output_io orig o = (same, orig1) -> rf_eof orig = false -> rf_err orig = false ->
  same = true -> rf_rest orig = o ++ rf_rest orig1 /\ rf_bad orig1 = rf_bad orig /\ rf_eof orig1 = false /\ rf_err orig1 = false.
Proof.
  intros orig o same orig1 H E1 E2 S. unfold compare_output_io in H. pose proof (zlen_nonneg _ o) as NO. destruct (nonempty o) eqn:N.
  - destruct (fread_io orig (zlen o)) as [bytes f'] eqn:FR. destruct (fread_io_rest _ _ _ _ FR NO E1 E2) as (R & BD & _ & LB & EE & EN).
    destruct (rf_err f') eqn:ER; [congruence|]. destruct (Z.ltb_spec (zlen bytes) (zlen o)) as [L|L]; [congruence|].
    destruct (list_eq_dec Z.eq_dec o bytes) as [E|E]; [|congruence]. injection H as _ <-. subst bytes.
    split; [exact R|]. split; [exact BD|]. split; [|exact ER].
    unfold fread_io in FR. apply nonempty_iff in N. destruct (Z.eqb_spec (zlen o) 0); [lia|].
    injection FR as F1 F2. rewrite <- F2. cbn [rf_eof]. rewrite E1, F1. cbn [orb]. destruct (Z.ltb_spec (zlen o) (zlen o)); [lia|]. reflexivity.
  - injection H as _ <-. destruct o; [|discriminate]. auto.
Qed.

Lemma compare_io_ok : forall fuel inp buf orig d, 0 <= buf -> rf_eof inp = false -> rf_err inp = false -> rf_eof orig = false -> rf_err orig = false ->
  compare_loop_io fuel inp buf orig d = Some true ->
  rf_bad inp = false /\ rf_bad orig = false /\
  exists chunks d2, rf_rest inp = concat chunks /\ decode_chunks d chunks [] = Some (d2, true, rf_rest orig) /\ snd (finish_decoding d2) = true.
Proof.
  induction fuel as [|fuel IH]; intros inp buf orig d B EF ER OF OR H; cbn [compare_loop_io] in H; [discriminate|].
  destruct (fread_io inp buf) as [bytes inp1] eqn:FR. destruct (fread_io_rest _ _ _ _ FR B EF ER) as (R & BD & _ & LB & EE & EN).
  destruct (rf_err inp1) eqn:ER1; [discriminate|].
  assert (forall d1 o1, (nonempty bytes = true -> decode_chunk d bytes = CRet d1 true o1) -> (nonempty bytes = false -> d1 = d /\ o1 = []) ->
    (let '(same, orig1) := compare_output_io orig o1 in
          if negb same then Some false
          else if rf_eof inp1 then
            if negb (snd (finish_decoding d1)) then Some false
            else
              let '(c, orig2) := fread_io orig1 1 in
              if nonempty c then Some false else Some (negb (rf_err orig2))
          else compare_loop_io fuel inp1 buf orig1 d1) = Some true ->
    rf_bad inp = false /\ rf_bad orig = false /\
    exists chunks d2, rf_rest inp = concat chunks /\ decode_chunks d chunks [] = Some (d2, true, rf_rest orig) /\ snd (finish_decoding d2) = true) as NEXT.
  { intros d1 o1 NE1 NE2 K.
    assert (forall chunks d2 o, decode_chunks d1 chunks [] = Some (d2, true, o) ->
      exists chunks', concat chunks' = bytes ++ concat chunks /\ decode_chunks d chunks' [] = Some (d2, true, o1 ++ o)) as ADD.
    { intros chunks d2 o EC. destruct (nonempty bytes) eqn:NE.
      - exists (bytes :: chunks). split; [reflexivity|]. cbn [decode_chunks]. rewrite (NE1 eq_refl), decode_chunks_acc, EC. reflexivity.
      - destruct (NE2 eq_refl) as [-> ->]. destruct bytes; [|discriminate]. exists chunks. auto. }
    destruct (compare_output_io orig o1) as [same orig1] eqn:CO. destruct same; cbn [negb] in K; [|discriminate].
    destruct (compare_io_step _ _ _ _ CO OF OR eq_refl) as (RO & BO & OF1 & OR1).
    destruct (rf_eof inp1) eqn:EF1.
    - destruct (EE eq_refl) as (R1 & NB & _ & BP). destruct (snd (finish_decoding d1)) eqn:FN; cbn [negb] in K; [|discriminate].
      destruct (fread_io orig1 1) as [c orig2] eqn:F1. destruct (fread_io_rest _ _ _ _ F1 Z.le_0_1 OF1 OR1) as (RC & BC & _ & LC & EC & NC).
      destruct c as [|x c]; cbn [nonempty] in K; [|discriminate]. destruct (rf_err orig2) eqn:ER2; [discriminate|].
      destruct (rf_eof orig2) eqn:EF2; [|rewrite zlen_nil in NC; specialize (NC eq_refl eq_refl); discriminate NC].
      destruct (EC eq_refl) as (RZ & NBO & _). cbn [app] in RC. rewrite RZ in RC.
      split; [exact NB|]. split; [congruence|]. destruct (ADD [] d1 [] eq_refl) as (chunks & C1 & C2). exists chunks, d1.
      split; [rewrite R, R1, C1; reflexivity|]. rewrite RO, RC. split; [exact C2|exact FN].
    - destruct (IH inp1 buf orig1 d1 B EF1 ER1 OF1 OR1 K) as (A1 & A2 & chunks & d2 & A3 & A4 & A5).
      split; [congruence|]. split; [congruence|]. destruct (ADD _ _ _ A4) as (chunks' & C1 & C2). exists chunks', d2.
      split; [rewrite R, A3, C1; reflexivity|]. rewrite RO. split; [exact C2|exact A5]. }
  destruct (nonempty bytes) eqn:NE.
  - destruct (decode_chunk d bytes) as [d1 [|] o1| |] eqn:DC; [|discriminate|discriminate|discriminate].
    apply (NEXT d1 o1); [reflexivity|discriminate|exact H].
  - apply (NEXT d []); [discriminate|auto|exact H].
Qed.
