(** The read loops of the command line tool. *)

From Verif Require Import Base ListFacts SpecEncode EncodeTable Engine Encoder Decoder Cli.
From Coq Require Import ZifyBool ZifyNat.

Definition output_of (w : world) (n : name) : list Z :=
  match n with [] => wo_stdout w | _ => match wo_files w n with Some l => l | None => [] end end.
(** Nothing but the output named [n] (stdout if empty) differs. *)
Definition only_wrote (n : name) (w w' : world) : Prop :=
  wo_stdin w' = wo_stdin w /\ wo_writable w' = wo_writable w /\
  (forall m, m <> n \/ n = [] -> wo_files w' m = wo_files w m) /\ (n <> [] -> wo_stdout w' = wo_stdout w).
Definition wrote (n : name) (l : list Z) (w w' : world) : Prop :=
  only_wrote n w w' /\ output_of w' n = output_of w n ++ l /\ (n = [] \/ wo_files w' n <> None).
Definition is_open (n : name) (w : world) : Prop := n = [] \/ wo_files w n <> None.

Lemma name_eq_refl : forall n, name_eq n n = true.
Proof. intros. unfold name_eq. destruct (list_eq_dec _ _ _); congruence. Qed.
Lemma name_eq_neq : forall m n, m <> n -> name_eq m n = false.
Proof. intros. unfold name_eq. destruct (list_eq_dec _ _ _); congruence. Qed.

Lemma only_wrote_refl : forall n w, only_wrote n w w.
Proof. intros. unfold only_wrote. auto. Qed.
Lemma only_wrote_trans : forall n w1 w2 w3, only_wrote n w1 w2 -> only_wrote n w2 w3 -> only_wrote n w1 w3.
Proof.
  intros n w1 w2 w3 (A & B & C & D) (A' & B' & C' & D'). split; [congruence|]. split; [congruence|]. split.
  - intros m H. rewrite C', C by exact H. reflexivity.
  - intros H. rewrite D', D by exact H. reflexivity.
Qed.
Lemma wrote_nil : forall n w, is_open n w -> wrote n [] w w.
Proof. intros. split; [apply only_wrote_refl|]. split; [rewrite app_nil_r; reflexivity|exact H]. Qed.
Lemma wrote_trans : forall n a b w1 w2 w3, wrote n a w1 w2 -> wrote n b w2 w3 -> wrote n (a ++ b) w1 w3.
Proof.
  intros n a b w1 w2 w3 (O & E & _) (O' & E' & P). split; [eapply only_wrote_trans; eauto|]. split; [|exact P].
  rewrite E', E, app_assoc. reflexivity.
Qed.
Lemma wrote_open : forall n l w w', wrote n l w w' -> is_open n w'.
Proof. intros n l w w' (_ & _ & P). exact P. Qed.

Lemma write_output_wrote : forall n l w, is_open n w -> wrote n l w (write_output w n l).
Proof.
  intros n l w H. unfold write_output. destruct l as [|x l]; [apply wrote_nil; exact H|]. cbn [nonempty].
  destruct n as [|c n]; cbn [fwrite].
  - split; [|split; [reflexivity|left; reflexivity]]. split; [reflexivity|]. split; [reflexivity|]. split; [reflexivity|]. congruence.
  - split; [|split].
    + split; [reflexivity|]. split; [reflexivity|]. split; [|reflexivity]. intros m [N|N]; [|discriminate].
      cbn [set_content wo_files]. rewrite name_eq_neq by exact N. reflexivity.
    + cbn [output_of]. cbn [set_content wo_files]. rewrite name_eq_refl. reflexivity.
    + right. cbn [set_content wo_files]. rewrite name_eq_refl. discriminate.
Qed.

Lemma only_wrote_content : forall n w w' m, only_wrote n w w' -> n = [] \/ m <> n -> content w' m = content w m.
Proof.
  intros n w w' m (A & B & C & D) H. destruct m as [|c m]; cbn [content]; [exact A|]. rewrite C by tauto. reflexivity.
Qed.

Lemma nonempty_iff : forall A (l : list A), nonempty l = true <-> 0 < zlen l.
Proof.
  intros A [|x l]; cbn [nonempty]; [rewrite zlen_nil; lia|rewrite zlen_cons]. pose proof (zlen_nonneg _ l). split; [lia|reflexivity].
Qed.

(** One read. *)
Lemma fread_rest : forall w f n bytes f', fread w f n = (bytes, f') -> 0 < n -> 0 <= fi_pos f -> fi_eof f = false ->
  zdrop (fi_pos f) (content w (fi_name f)) = bytes ++ zdrop (fi_pos f') (content w (fi_name f')) /\
  fi_name f' = fi_name f /\ 0 <= fi_pos f' /\ zlen bytes <= n /\
  (fi_eof f' = true -> zdrop (fi_pos f') (content w (fi_name f')) = []) /\ (fi_eof f' = false -> zlen bytes = n).
Proof.
  intros w f n bytes f' H N P E. unfold fread in H. destruct (Z.eqb_spec n 0); [lia|]. injection H as <- <-.
  cbn [fi_name fi_pos fi_eof]. rewrite E. set (C := content w (fi_name f)). set (R := zdrop (fi_pos f) C).
  pose proof (zlen_nonneg _ (ztake n R)). pose proof (zlen_nonneg _ R).
  assert (zdrop (fi_pos f + zlen (ztake n R)) C = zdrop n R) as Q.
  { rewrite Z.add_comm. rewrite <- zdrop_zdrop by lia. fold R. rewrite zlen_ztake by lia.
    destruct (Z.min_spec n (zlen R)) as [[A ->]|[A ->]]; [reflexivity|]. rewrite !zdrop_all by lia. reflexivity. }
  rewrite Q. split; [symmetry; apply ztake_zdrop|]. split; [reflexivity|]. split; [lia|].
  rewrite zlen_ztake by lia. split; [lia|]. cbn [orb]. split; intros X.
  - apply zdrop_all. lia.
  - lia.
Qed.

(** The pieces in which a file is read: all but the last fill the buffer. *)
Inductive pieces_ok (buf : Z) : list (list Z) -> Prop :=
| po_nil : pieces_ok buf []
| po_last : forall c, 0 < zlen c <= buf -> pieces_ok buf [c]
| po_more : forall c l, zlen c = buf -> pieces_ok buf l -> pieces_ok buf (c :: l).

Lemma pieces_forall : forall buf l, 0 < buf -> pieces_ok buf l -> Forall (fun c => 0 < zlen c <= buf) l.
Proof. intros buf l B H. induction H; constructor; auto; lia. Qed.
Lemma pieces_cons : forall buf c l, 0 < buf -> 0 < zlen c <= buf -> pieces_ok buf l -> concat l = [] \/ zlen c = buf -> pieces_ok buf (c :: l).
Proof.
  intros buf c l B C P [H|H]; [|apply po_more; auto]. destruct l as [|x l]; [apply po_last; exact C|].
  apply pieces_forall in P; [|exact B]. inversion P; subst. cbn [concat] in H. apply (f_equal zlen) in H. rewrite zlen_app, zlen_nil in H.
  pose proof (zlen_nonneg _ (concat l)). lia.
Qed.
Lemma pieces_count : forall buf l, 0 < buf -> pieces_ok buf l -> (zlen l - 1) * buf <= zlen (concat l).
Proof.
  intros buf l B H. induction H as [|c H|c l H P IH]; cbn [concat]; rewrite ?zlen_cons, ?zlen_nil, ?zlen_app, ?zlen_nil; try lia.
Qed.
(** Some way to cut the rest of the input. *)
Lemma any_pieces : forall buf l, 0 < buf -> exists chunks, concat chunks = l /\ pieces_ok buf chunks.
Proof.
  intros buf l B. remember (Z.to_nat (zlen l)) as n eqn:E. revert l E. induction n as [n IH] using lt_wf_ind. intros l E.
  destruct (Z.leb_spec (zlen l) buf) as [S|S].
  - destruct l as [|x l]; [exists []; split; [reflexivity|constructor]|]. exists [x :: l]. split; [cbn [concat]; apply app_nil_r|].
    apply po_last. rewrite zlen_cons in *. pose proof (zlen_nonneg _ l). lia.
  - destruct (IH (Z.to_nat (zlen (zdrop buf l)))) with (l := zdrop buf l) as (ch & C & P); [|reflexivity|].
    + pose proof (zlen_zdrop _ buf l ltac:(lia)) as Q. lia.
    + exists (ztake buf l :: ch). split; [cbn [concat]; rewrite C; apply ztake_zdrop|]. apply po_more; [|exact P].
      rewrite zlen_ztake by lia. lia.
Qed.
Lemma failed_pieces : forall buf bytes rest, 0 < buf -> 0 < zlen bytes <= buf -> rest = [] \/ zlen bytes = buf ->
  exists chunks, concat (bytes :: chunks) = bytes ++ rest /\ pieces_ok buf (bytes :: chunks).
Proof.
  intros buf bytes rest B L H. destruct (any_pieces buf rest B) as (ch & C & P). exists ch. split; [cbn [concat]; congruence|].
  apply pieces_cons; auto. rewrite C. exact H.
Qed.

(** ** Encode *)

Lemma encode_chunks_acc : forall chunks e out,
  encode_chunks e chunks out =
  match encode_chunks e chunks [] with Some (e', r, o) => Some (e', r, out ++ o) | None => None end.
Proof.
  induction chunks as [|c chunks IH]; intros e out; cbn [encode_chunks]; [rewrite app_nil_r; reflexivity|].
  destruct (encode_chunk e c) as [[[e' [|]] o]|]; [|reflexivity|reflexivity].
  rewrite IH. rewrite (IH e' ([] ++ o)). destruct (encode_chunks e' chunks []) as [[[? ?] ?]|]; [|reflexivity].
  cbn [app]. rewrite app_assoc. reflexivity.
Qed.

Lemma encode_loop_ok : forall fuel w inp buf out e output, 0 < buf -> fi_eof inp = false -> 0 <= fi_pos inp ->
  out = [] \/ fi_name inp <> out -> is_open out w ->
  let rest := zdrop (fi_pos inp) (content w (fi_name inp)) in
  zlen rest + 1 < Z.of_nat fuel ->
  exists chunks, concat chunks = rest /\ pieces_ok buf chunks /\
    forall e2 o, encode_chunks e chunks [] = Some (e2, true, o) ->
      exists w', encode_loop fuel w inp buf out e output = Exit true w' /\
        wrote out (output ++ o ++ snd (finish_encoding e2)) w w'.
Proof.
  induction fuel as [|fuel IH]; intros w inp buf out e output B E P D O rest L; [pose proof (zlen_nonneg _ rest); lia|].
  cbn [encode_loop]. pose proof (write_output_wrote out output w O) as W1. set (w1 := write_output w out output) in *.
  destruct W1 as (OW & WO & O1). assert (wrote out output w w1) as W1 by (split; auto).
  destruct (fread w1 inp buf) as [bytes inp1] eqn:F.
  destruct (fread_rest _ _ _ _ _ F B P E) as (R & N1 & P1 & LB & EE & EN).
  rewrite N1 in R, EE. rewrite (only_wrote_content _ _ _ _ OW D) in R, EE. fold rest in R.
  assert (zdrop (fi_pos inp1) (content w (fi_name inp)) = [] \/ zlen bytes = buf) as FP by (destruct (fi_eof inp1); auto).
  destruct (nonempty bytes) eqn:NE.
  - apply nonempty_iff in NE. destruct (fi_eof inp1) eqn:EF.
    + specialize (EE eq_refl). rewrite EE, app_nil_r in R. exists [bytes]. split; [cbn [concat]; rewrite app_nil_r; auto|].
      split; [apply po_last; lia|]. intros e2 o H. cbn [encode_chunks] in H.
      destruct (encode_chunk e bytes) as [[[e1 [|]] o1]|]; try discriminate. injection H as -> <-.
      destruct (finish_encoding e2) as [[e3 r3] o3] eqn:FE. eexists. split; [reflexivity|]. cbn [snd app].
      eapply wrote_trans; [exact W1|]. apply write_output_wrote. exact O1.
    + destruct (encode_chunk e bytes) as [[[e1 [|]] o1]|] eqn:EC.
      * destruct (IH w1 inp1 buf out e1 o1 B EF P1) as (chunks & C1 & C2 & C3).
        -- rewrite N1. exact D.
        -- exact O1.
        -- rewrite N1, (only_wrote_content _ _ _ _ OW D). rewrite R, zlen_app in L. lia.
        -- rewrite N1, (only_wrote_content _ _ _ _ OW D) in C1. exists (bytes :: chunks). split; [cbn [concat]; congruence|].
           split; [apply po_more; [auto|exact C2]|]. intros e2 o H. cbn [encode_chunks] in H. rewrite EC in H.
           rewrite encode_chunks_acc in H. destruct (encode_chunks e1 chunks []) as [[[e3 r3] o3]|] eqn:EX; [|discriminate].
           injection H as -> -> <-. destruct (C3 e2 o3 eq_refl) as (w' & -> & W'). exists w'. split; [reflexivity|].
           rewrite <- !app_assoc. cbn [app]. eapply wrote_trans; [exact W1|]. exact W'.
      * destruct (failed_pieces buf bytes (zdrop (fi_pos inp1) (content w (fi_name inp))) B ltac:(lia) FP) as (ch & C1 & C2). exists (bytes :: ch).
        split; [congruence|]. split; [exact C2|]. intros e2 o H. cbn [encode_chunks] in H. rewrite EC in H. discriminate.
      * destruct (failed_pieces buf bytes (zdrop (fi_pos inp1) (content w (fi_name inp))) B ltac:(lia) FP) as (ch & C1 & C2). exists (bytes :: ch).
        split; [congruence|]. split; [exact C2|]. intros e2 o H. cbn [encode_chunks] in H. rewrite EC in H. discriminate.
  - assert (zlen bytes = 0) as Z0.
    { pose proof (zlen_nonneg _ bytes). destruct (Z.eq_dec (zlen bytes) 0); [lia|]. assert (nonempty bytes = true) by (apply nonempty_iff; lia). congruence. }
    destruct (fi_eof inp1) eqn:EF; [|specialize (EN eq_refl); lia]. specialize (EE eq_refl).
    apply zlen_0_nil in Z0 as ->. rewrite EE in R. exists []. split; [cbn; auto|]. split; [constructor|].
    intros e2 o H. cbn [encode_chunks] in H. injection H as <- <-. destruct (finish_encoding e) as [[e3 r3] o3].
    eexists. split; [reflexivity|]. cbn [snd app]. eapply wrote_trans; [exact W1|]. apply write_output_wrote. exact O1.
Qed.

(** A named file of length 0: the buffer has size 0 and the end of the file is
    never noticed. *)
Lemma encode_loop_forever : forall fuel w inp out e output, fi_eof inp = false ->
  encode_loop fuel w inp 0 out e output = Running.
Proof.
  induction fuel as [|fuel IH]; intros w inp out e output E; [reflexivity|]. cbn [encode_loop].
  change (fread (write_output w out output) inp 0) with (@nil Z, inp). cbn [nonempty]. rewrite E. apply IH. exact E.
Qed.

(** ** Decode *)

Lemma decode_chunks_acc : forall chunks d out,
  decode_chunks d chunks out =
  match decode_chunks d chunks [] with Some (d', r, o) => Some (d', r, out ++ o) | None => None end.
Proof.
  induction chunks as [|c chunks IH]; intros d out; cbn [decode_chunks]; [rewrite app_nil_r; reflexivity|].
  destruct (decode_chunk d c) as [d' [|] o| |]; [|reflexivity|reflexivity|reflexivity].
  rewrite IH. rewrite (IH d' ([] ++ o)). destruct (decode_chunks d' chunks []) as [[[? ?] ?]|]; [|reflexivity].
  cbn [app]. rewrite app_assoc. reflexivity.
Qed.

Lemma decode_loop_ok : forall fuel w inp buf out d, 0 < buf -> fi_eof inp = false -> 0 <= fi_pos inp ->
  out = [] \/ fi_name inp <> out -> is_open out w ->
  let rest := zdrop (fi_pos inp) (content w (fi_name inp)) in
  zlen rest + 1 < Z.of_nat fuel ->
  exists chunks, concat chunks = rest /\ pieces_ok buf chunks /\
    match decode_chunks d chunks [] with
    | None => decode_loop fuel w inp buf out d = Undefined
    | Some (d', ok, o) =>
        exists w' o' o2, decode_loop fuel w inp buf out d = Exit (ok && snd (finish_decoding d')) w' /\ wrote out o' w w' /\
          o = o' ++ o2 /\ (ok = true -> o2 = [])
    end.
Proof.
  induction fuel as [|fuel IH]; intros w inp buf out d B E P D O rest L; [pose proof (zlen_nonneg _ rest); lia|].
  cbn [decode_loop]. destruct (fread w inp buf) as [bytes inp1] eqn:F.
  destruct (fread_rest _ _ _ _ _ F B P E) as (R & N1 & P1 & LB & EE & EN).
  rewrite N1 in R, EE. fold rest in R.
  assert (zdrop (fi_pos inp1) (content w (fi_name inp)) = [] \/ zlen bytes = buf) as FP by (destruct (fi_eof inp1); auto).
  destruct (nonempty bytes) eqn:NE.
  - apply nonempty_iff in NE. destruct (decode_chunk d bytes) as [d1 [|] o1| |] eqn:DC.
    + pose proof (write_output_wrote out o1 w O) as W1. set (w1 := write_output w out o1) in *. cbv zeta.
      destruct W1 as (OW & WO & O1). assert (wrote out o1 w w1) as W1 by (split; auto).
      destruct (fi_eof inp1) eqn:EF.
      * specialize (EE eq_refl). rewrite EE, app_nil_r in R. exists [bytes]. split; [cbn [concat]; rewrite app_nil_r; auto|].
        split; [apply po_last; lia|]. cbn [decode_chunks]. rewrite DC. cbn [app].
        exists w1, o1, []. split; [reflexivity|]. split; [exact W1|]. split; [rewrite app_nil_r; reflexivity|reflexivity].
      * destruct (IH w1 inp1 buf out d1 B EF P1) as (chunks & C1 & C2 & C3).
        -- rewrite N1. exact D.
        -- exact O1.
        -- rewrite N1, (only_wrote_content _ _ _ _ OW D). rewrite R, zlen_app in L. lia.
        -- rewrite N1, (only_wrote_content _ _ _ _ OW D) in C1. exists (bytes :: chunks). split; [cbn [concat]; congruence|].
           split; [apply po_more; [auto|exact C2]|]. cbn [decode_chunks]. rewrite DC. rewrite decode_chunks_acc.
           destruct (decode_chunks d1 chunks []) as [[[d2 ok2] o2]|]; [|exact C3].
           destruct C3 as (w' & o' & o3 & -> & W' & -> & Q). exists w', (o1 ++ o'), o3. split; [reflexivity|].
           split; [eapply wrote_trans; [exact W1|exact W']|]. cbn [app]. split; [rewrite app_assoc; reflexivity|exact Q].
    + destruct (failed_pieces buf bytes (zdrop (fi_pos inp1) (content w (fi_name inp))) B ltac:(lia) FP) as (ch & C1 & C2). exists (bytes :: ch).
      split; [congruence|]. split; [exact C2|]. cbn [decode_chunks]. rewrite DC.
      exists w, [], o1. split; [reflexivity|]. split; [apply wrote_nil; exact O|]. split; [reflexivity|discriminate].
    + destruct (failed_pieces buf bytes (zdrop (fi_pos inp1) (content w (fi_name inp))) B ltac:(lia) FP) as (ch & C1 & C2). exists (bytes :: ch).
      split; [congruence|]. split; [exact C2|]. cbn [decode_chunks]. rewrite DC. reflexivity.
    + destruct (failed_pieces buf bytes (zdrop (fi_pos inp1) (content w (fi_name inp))) B ltac:(lia) FP) as (ch & C1 & C2). exists (bytes :: ch).
      split; [congruence|]. split; [exact C2|]. cbn [decode_chunks]. rewrite DC. reflexivity.
  - assert (zlen bytes = 0) as Z0.
    { pose proof (zlen_nonneg _ bytes). destruct (Z.eq_dec (zlen bytes) 0); [lia|]. assert (nonempty bytes = true) by (apply nonempty_iff; lia). congruence. }
    destruct (fi_eof inp1) eqn:EF; [|specialize (EN eq_refl); lia]. specialize (EE eq_refl).
    apply zlen_0_nil in Z0 as ->. rewrite EE in R. exists []. split; [cbn; auto|]. split; [constructor|].
    cbn [decode_chunks]. exists w, [], []. split; [reflexivity|]. split; [apply wrote_nil; exact O|]. split; [reflexivity|reflexivity].
Qed.

Lemma decode_loop_forever : forall fuel w inp out d, fi_eof inp = false -> decode_loop fuel w inp 0 out d = Running.
Proof.
  induction fuel as [|fuel IH]; intros w inp out d E; [reflexivity|]. cbn [decode_loop].
  change (fread w inp 0) with (@nil Z, inp). cbn [nonempty]. rewrite E. cbv zeta. apply IH. exact E.
Qed.

(** ** DecodeAndCompare *)

Definition same_bytes (a b : list Z) : bool := if list_eq_dec Z.eq_dec a b then true else false.
Lemma same_bytes_eq : forall a b, same_bytes a b = true <-> a = b.
Proof. intros. unfold same_bytes. destruct (list_eq_dec _ a b); split; congruence. Qed.

Lemma compare_step : forall w orig o same orig1, compare_output w orig o = (same, orig1) -> 0 <= fi_pos orig ->
  let R := zdrop (fi_pos orig) (content w (fi_name orig)) in
  (same = true -> 0 <= fi_pos orig1 /\ fi_name orig1 = fi_name orig /\ R = o ++ zdrop (fi_pos orig1) (content w (fi_name orig))) /\
  (same = false -> forall o2, R <> o ++ o2).
Proof.
  intros w orig o same orig1 H P R. unfold compare_output in H. destruct o as [|x o].
  - injection H as <- <-. split; [|discriminate]. intros _. auto.
  - cbn [nonempty] in H. set (O := x :: o) in *. assert (0 < zlen O) as LO by (unfold O; rewrite zlen_cons; pose proof (zlen_nonneg _ o); lia).
    clearbody O. unfold fread in H. destruct (Z.eqb_spec (zlen O) 0); [lia|]. fold R in H.
    pose proof (zlen_nonneg _ (ztake (zlen O) R)). pose proof (zlen_nonneg _ R).
    destruct (Z.ltb_spec (zlen (ztake (zlen O) R)) (zlen O)) as [S|S].
    + injection H as <- <-. split; [discriminate|]. intros _ o2 Q. rewrite Q, ztake_app_eq in S by reflexivity. lia.
    + destruct (list_eq_dec Z.eq_dec O (ztake (zlen O) R)) as [Q|Q]; injection H as <- <-.
      * split; [|discriminate]. intros _. cbn [fi_pos fi_name]. split; [lia|]. split; [reflexivity|].
        rewrite <- Q. rewrite Z.add_comm, <- zdrop_zdrop by lia. fold R. rewrite Q at 1. symmetry. apply ztake_zdrop.
      * split; [discriminate|]. intros _ o2 X. apply Q. rewrite X, ztake_app_eq by reflexivity. reflexivity.
Qed.

Lemma fread_one : forall w f, 0 <= fi_pos f -> nonempty (fst (fread w f 1)) = nonempty (zdrop (fi_pos f) (content w (fi_name f))).
Proof.
  intros w f P. unfold fread. change (1 =? 0) with false. cbn [fst]. set (R := zdrop _ _).
  destruct R as [|x r]; reflexivity.
Qed.

Lemma compare_loop_ok : forall fuel w inp buf orig d, 0 < buf -> fi_eof inp = false -> 0 <= fi_pos inp -> 0 <= fi_pos orig ->
  let rest := zdrop (fi_pos inp) (content w (fi_name inp)) in
  let R := zdrop (fi_pos orig) (content w (fi_name orig)) in
  zlen rest + 1 < Z.of_nat fuel ->
  exists chunks, concat chunks = rest /\ pieces_ok buf chunks /\
    match decode_chunks d chunks [] with
    | Some (d', ok, o) => compare_loop fuel w inp buf orig d = Exit (ok && snd (finish_decoding d') && same_bytes o R) w
    | None => compare_loop fuel w inp buf orig d = Undefined \/ compare_loop fuel w inp buf orig d = Exit false w
    end.
Proof.
  induction fuel as [|fuel IH]; intros w inp buf orig d B E P PO rest R0 L; [pose proof (zlen_nonneg _ rest); lia|].
  cbn [compare_loop]. destruct (fread w inp buf) as [bytes inp1] eqn:F.
  destruct (fread_rest _ _ _ _ _ F B P E) as (R & N1 & P1 & LB & EE & EN).
  rewrite N1 in R, EE. fold rest in R.
  assert (forall d1 orig1 R1, 0 <= fi_pos orig1 -> R1 = zdrop (fi_pos orig1) (content w (fi_name orig1)) ->
    (if negb (snd (finish_decoding d1)) then Exit false w else Exit (negb (nonempty (fst (fread w orig1 1)))) w) =
    Exit (snd (finish_decoding d1) && same_bytes [] R1) w) as FIN.
  { intros d1 orig1 R1 PP ->. rewrite fread_one by exact PP. destruct (snd (finish_decoding d1)); [|reflexivity]. cbn [negb andb].
    destruct (zdrop (fi_pos orig1) _); reflexivity. }
  assert (zdrop (fi_pos inp1) (content w (fi_name inp)) = [] \/ zlen bytes = buf) as FP by (destruct (fi_eof inp1); auto).
  destruct (nonempty bytes) eqn:NE.
  - apply nonempty_iff in NE. destruct (decode_chunk d bytes) as [d1 [|] o1| |] eqn:DC.
    + destruct (compare_output w orig o1) as [same orig1] eqn:CO. destruct (compare_step _ _ _ _ _ CO PO) as [CT CF]. fold R0 in CT, CF.
      destruct same; cbn [negb].
      * destruct (CT eq_refl) as (PO1 & NO1 & RR). clear CT CF.
        destruct (fi_eof inp1) eqn:EF.
        -- specialize (EE eq_refl). rewrite EE, app_nil_r in R. exists [bytes]. split; [cbn [concat]; rewrite app_nil_r; auto|].
           split; [apply po_last; lia|]. cbn [decode_chunks]. rewrite DC.
           rewrite (FIN d1 orig1 _ PO1 eq_refl). cbn [andb app]. f_equal. f_equal. rewrite NO1, RR.
           destruct (zdrop (fi_pos orig1) _) as [|x r]; [rewrite app_nil_r; cbn; symmetry; apply same_bytes_eq; reflexivity|].
           cbn. symmetry. destruct (same_bytes o1 (o1 ++ x :: r)) eqn:Q; [|reflexivity]. apply same_bytes_eq in Q.
           apply (f_equal zlen) in Q. rewrite zlen_app, zlen_cons in Q. pose proof (zlen_nonneg _ r). lia.
        -- destruct (IH w inp1 buf orig1 d1 B EF P1 PO1) as (chunks & C1 & C2 & C3).
           ++ rewrite N1. rewrite R, zlen_app in L. lia.
           ++ rewrite N1 in C1. exists (bytes :: chunks). split; [cbn [concat]; congruence|].
              split; [apply po_more; [auto|exact C2]|]. cbn [decode_chunks]. rewrite DC. rewrite decode_chunks_acc.
              destruct (decode_chunks d1 chunks []) as [[[d2 ok2] o2]|]; [|exact C3].
              rewrite C3. f_equal. f_equal. cbn [app]. rewrite NO1, RR.
              set (Q := zdrop (fi_pos orig1) _). destruct (same_bytes o2 Q) eqn:S1, (same_bytes (o1 ++ o2) (o1 ++ Q)) eqn:S2; auto.
              ** apply same_bytes_eq in S1. rewrite S1 in S2. assert (same_bytes (o1 ++ Q) (o1 ++ Q) = true) by (apply same_bytes_eq; reflexivity). congruence.
              ** apply same_bytes_eq, app_inv_head in S2. apply same_bytes_eq in S2. congruence.
      * specialize (CF eq_refl). clear CT. destruct (failed_pieces buf bytes (zdrop (fi_pos inp1) (content w (fi_name inp))) B ltac:(lia) FP) as (ch & C1 & C2). exists (bytes :: ch).
      split; [congruence|]. split; [exact C2|]. cbn [decode_chunks]. rewrite DC.
        rewrite decode_chunks_acc. destruct (decode_chunks d1 ch []) as [[[d2 ok2] o2]|]; [|auto].
        destruct (same_bytes _ R0) eqn:Q; [|rewrite andb_false_r; reflexivity]. apply same_bytes_eq in Q. cbn [app] in Q. symmetry in Q. destruct (CF _ Q).
    + destruct (failed_pieces buf bytes (zdrop (fi_pos inp1) (content w (fi_name inp))) B ltac:(lia) FP) as (ch & C1 & C2). exists (bytes :: ch).
      split; [congruence|]. split; [exact C2|]. cbn [decode_chunks]. rewrite DC. reflexivity.
    + destruct (failed_pieces buf bytes (zdrop (fi_pos inp1) (content w (fi_name inp))) B ltac:(lia) FP) as (ch & C1 & C2). exists (bytes :: ch).
      split; [congruence|]. split; [exact C2|]. cbn [decode_chunks]. rewrite DC. auto.
    + destruct (failed_pieces buf bytes (zdrop (fi_pos inp1) (content w (fi_name inp))) B ltac:(lia) FP) as (ch & C1 & C2). exists (bytes :: ch).
      split; [congruence|]. split; [exact C2|]. cbn [decode_chunks]. rewrite DC. auto.
  - assert (zlen bytes = 0) as Z0.
    { pose proof (zlen_nonneg _ bytes). destruct (Z.eq_dec (zlen bytes) 0); [lia|]. assert (nonempty bytes = true) by (apply nonempty_iff; lia). congruence. }
    destruct (fi_eof inp1) eqn:EF; [|specialize (EN eq_refl); lia]. specialize (EE eq_refl).
    apply zlen_0_nil in Z0 as ->. rewrite EE in R. exists []. split; [cbn; auto|]. split; [constructor|].
    cbn [decode_chunks compare_output nonempty negb].
    apply FIN; auto.
Qed.
