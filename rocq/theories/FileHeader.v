(** The file header, and the abstract decoder at the level of DecodeChunk calls. *)

From Verif Require Import Base Spec Varint VarintFacts AddrCache AddrCacheFacts CodeTable CodeTableFacts
  InstructionMap DecodeTable HeaderParser Adler AdlerFacts Decoder CopyFacts BodyFacts BodyExt WindowExt
  WindowHeader WindowStep Refine Totals Abstract.
From Coq Require Import ZifyBool ZifyNat.

(** ** check_magic *)

Definition hd5 (v ind : Z) (tl : list Z) : list Z := 214 :: 195 :: 196 :: v :: ind :: tl.

Lemma check_magic_inv : forall data, check_magic data = Ok tt ->
  exists v ind tl, data = hd5 v ind tl /\ (v = 0 \/ v = 83).
Proof.
  intros data H. unfold check_magic in H. cbv zeta in H.
  destruct data as [|a [|b [|c [|v [|i tl]]]]]; rewrite ?zlen_cons, ?zlen_nil in H; cbn [nth] in H;
    try (pose proof (zlen_nonneg _ tl)).
  1-5: (match type of H with (if ?x then _ else _) = _ => destruct x; [discriminate|] end;
    match type of H with (if ?x then _ else _) = _ => destruct x; [discriminate|] end;
    match type of H with (if ?x then _ else _) = _ => destruct x eqn:X; [discriminate|]; cbn in X; discriminate end).
  match type of H with (if ?x then _ else _) = _ => destruct x eqn:X1; [discriminate|] end.
  match type of H with (if ?x then _ else _) = _ => destruct x eqn:X2; [discriminate|] end.
  exists v, i, tl. split; [|lia]. unfold hd5. assert (a = 214 /\ b = 195 /\ c = 196) as (-> & -> & ->); [lia|reflexivity].
Qed.

Lemma check_magic_hd : forall v ind tl, v = 0 \/ v = 83 -> check_magic (hd5 v ind tl) = Ok tt.
Proof.
  intros v ind tl V. unfold check_magic, hd5. cbv zeta. rewrite ?zlen_cons. cbn [nth]. pose proof (zlen_nonneg _ tl).
  match goal with |- (if ?x then _ else _) = _ => destruct x eqn:X1; [lia|] end.
  match goal with |- (if ?x then _ else _) = _ => destruct x eqn:X2; [lia|] end.
  match goal with |- (if ?x then _ else _) = _ => destruct x eqn:X3; [lia|] end. reflexivity.
Qed.

Lemma check_magic_err_app : forall l y, check_magic l = Err -> check_magic (l ++ y) = Err.
Proof.
  intros l y H. unfold check_magic in *. cbv zeta in *. rewrite zlen_app. pose proof (zlen_nonneg _ y).
  destruct l as [|a [|b [|c [|v [|i tl]]]]]; rewrite ?zlen_cons, ?zlen_nil in *; cbn [nth app] in *;
    try (pose proof (zlen_nonneg _ tl)).
  all: repeat match goal with |- (if ?x then _ else _) = _ => destruct x eqn:?; try reflexivity end;
    repeat match type of H with (if ?x then _ else _) = _ => destruct x eqn:?; try discriminate H end; lia.
Qed.

Lemma check_magic_not_ub : forall l, check_magic l <> UB.
Proof. intros l. unfold check_magic. cbv zeta. repeat match goal with |- context [if ?x then _ else _] => destruct x end; discriminate. Qed.

(** ** Cache sizes *)

Lemma parse_cache_sizes_mono : mono parse_cache_sizes.
Proof.
  intros l y. unfold parse_cache_sizes. pose proof (parse_size_mono l y) as P1.
  destruct (parse_size l) as [[ns r1]| | |]; cbn [bind]; auto; [|rewrite P1; reflexivity].
  rewrite P1. cbn [bind]. pose proof (parse_size_mono r1 y) as P2.
  destruct (parse_size r1) as [[ss r2]| | |]; cbn [bind]; auto; [|rewrite P2; reflexivity].
  rewrite P2. cbn [bind]. destruct (_ || _); reflexivity.
Qed.

Lemma parse_cache_sizes_inv : forall l ns ss r, bytes_ok l -> parse_cache_sizes l = Ok (ns, ss, r) ->
  exists p q, l = p ++ q ++ r /\ varint p ns /\ varint q ss /\ 0 <= ns <= 255 /\ 0 <= ss <= 255 /\
    forall r', parse_cache_sizes (p ++ q ++ r') = Ok (ns, ss, r').
Proof.
  intros l ns ss r B H. unfold parse_cache_sizes in *.
  destruct (parse_size l) as [[n1 r1]| | |] eqn:P1; cbn [bind] in H; try discriminate.
  destruct (parse_size r1) as [[n2 r2]| | |] eqn:P2; cbn [bind] in H; try discriminate.
  destruct ((255 <? n1) || (255 <? n2)) eqn:C; [discriminate|]. injection H as <- <- <-.
  destruct (parse_inv I32 l n1 r1 type_ok_I32 B P1) as (p & E1 & V1 & R1).
  assert (bytes_ok r1) as B1 by (eapply bytes_ok_suffix; eauto).
  destruct (parse_inv I32 r1 n2 r2 type_ok_I32 B1 P2) as (q & E2 & V2 & R2).
  exists p, q. split; [congruence|]. split; [exact V1|]. split; [exact V2|].
  apply orb_false_iff in C as [C1 C2].
  split; [lia|]. split; [lia|]. intros r'.
  unfold parse_size. rewrite (parse_ok I32 p n1 (q ++ r')) by (auto using type_ok_I32; tauto). cbn [bind].
  rewrite (parse_ok I32 q n2 r') by (auto using type_ok_I32; tauto). cbn [bind]. rewrite C1, C2. reflexivity.
Qed.

(** ** The header of the abstract decoder *)

Definition a_table : adec := let '(Dec c _) := table_decoder in ADec (full [] c) [] None.

Definition aheader (k : core) (n : option adec) (chunk : list Z) : res (core * option adec * list Z) :=
  match d_sizes k with
  | Some _ => Ok (k, n, chunk)
  | None =>
      do '_ <- check_magic chunk;
      let version := nth 3 chunk 0 in
      let ind := nth 4 chunk 0 in
      if Z.testbit ind 0 then Err
      else if Z.testbit ind 1 then
        do '(ns, ss, rest) <- parse_cache_sizes (zdrop 5 chunk);
        Ok (set_file k version (Some (ns, ss)) [] (d_table k), Some a_table, rest)
      else Ok (set_file k version (Some (kDefaultNearCacheSize, kDefaultSameCacheSize)) [] (d_table k), n, zdrop 5 chunk)
  end.

Local Transparent zdrop.
Lemma zdrop_hd5 : forall v ind tl, zdrop 5 (hd5 v ind tl) = tl.
Proof. reflexivity. Qed.
Local Opaque zdrop.

Lemma aheader_hd5 : forall k n v ind tl, d_sizes k = None -> v = 0 \/ v = 83 ->
  aheader k n (hd5 v ind tl) =
  if Z.testbit ind 0 then Err
  else if Z.testbit ind 1 then
    do '(ns, ss, rest) <- parse_cache_sizes tl;
    Ok (set_file k v (Some (ns, ss)) [] (d_table k), Some a_table, rest)
  else Ok (set_file k v (Some (kDefaultNearCacheSize, kDefaultSameCacheSize)) [] (d_table k), n, tl).
Proof.
  intros k n v ind tl S V. unfold aheader. rewrite S, check_magic_hd by exact V. cbn [bind]. rewrite zdrop_hd5. reflexivity.
Qed.

Lemma aheader_cases : forall k n chunk, d_sizes k = None ->
  (check_magic chunk = Err /\ aheader k n chunk = Err) \/ (check_magic chunk = Eod /\ aheader k n chunk = Eod) \/
  exists v ind tl, chunk = hd5 v ind tl /\ (v = 0 \/ v = 83).
Proof.
  intros k n chunk S. destruct (check_magic chunk) as [[]| | |] eqn:C.
  - right. right. apply check_magic_inv. exact C.
  - right. left. split; [reflexivity|]. unfold aheader. rewrite S, C. reflexivity.
  - left. split; [reflexivity|]. unfold aheader. rewrite S, C. reflexivity.
  - destruct (check_magic_not_ub _ C).
Qed.

Lemma aheader_mono : forall k n l y,
  match aheader k n l with
  | Ok (a, r) => aheader k n (l ++ y) = Ok (a, r ++ y)
  | Err => aheader k n (l ++ y) = Err
  | UB => aheader k n (l ++ y) = UB
  | Eod => True
  end.
Proof.
  intros k n l y. destruct (d_sizes k) as [s|] eqn:S.
  { unfold aheader. rewrite S. reflexivity. }
  destruct (aheader_cases k n l S) as [[C E]|[[C E]|(v & ind & tl & -> & V)]].
  - rewrite E. unfold aheader. rewrite S, (check_magic_err_app _ _ C). reflexivity.
  - rewrite E. exact I.
  - change (hd5 v ind tl ++ y) with (hd5 v ind (tl ++ y)). rewrite !aheader_hd5 by auto.
    destruct (Z.testbit ind 0); [reflexivity|]. destruct (Z.testbit ind 1); [|reflexivity].
    pose proof (parse_cache_sizes_mono tl y) as M.
    destruct (parse_cache_sizes tl) as [[[ns ss] r]| | |]; cbn [bind]; auto; try contradiction; rewrite M; cbn [bind]; reflexivity.
Qed.

(** What a successful header is. *)
Lemma aheader_inv : forall k n chunk k' n' rest, bytes_ok chunk -> d_sizes k = None -> aheader k n chunk = Ok (k', n', rest) ->
  exists v ind tl, chunk = hd5 v ind tl /\ (v = 0 \/ v = 83) /\ Z.testbit ind 0 = false /\ byte_ok ind /\
   ((Z.testbit ind 1 = false /\ tl = rest /\ n' = n /\ k' = set_file k v (Some (4, 3)) [] (d_table k)) \/
    (Z.testbit ind 1 = true /\ n' = Some a_table /\ exists p q ns ss, tl = p ++ q ++ rest /\ varint p ns /\ varint q ss /\
       0 <= ns <= 255 /\ 0 <= ss <= 255 /\ k' = set_file k v (Some (ns, ss)) [] (d_table k) /\
       forall r', parse_cache_sizes (p ++ q ++ r') = Ok (ns, ss, r'))).
Proof.
  intros k n chunk k' n' rest B S H.
  destruct (aheader_cases k n chunk S) as [[C E]|[[C E]|(v & ind & tl & -> & V)]]; try congruence.
  exists v, ind, tl. rewrite aheader_hd5 in H by auto.
  split; [reflexivity|]. split; [exact V|].
  assert (byte_ok ind /\ bytes_ok tl) as [BI BT].
  { unfold hd5 in B. do 4 (apply bytes_ok_cons in B as [_ B]). apply bytes_ok_cons in B. exact B. }
  destruct (Z.testbit ind 0); [discriminate|]. split; [reflexivity|]. split; [exact BI|].
  destruct (Z.testbit ind 1).
  - right. split; [reflexivity|]. destruct (parse_cache_sizes tl) as [[[ns ss] r]| | |] eqn:P; cbn [bind] in H; try discriminate.
    injection H as <- <- <-.
    split; [reflexivity|]. destruct (parse_cache_sizes_inv _ _ _ _ BT P) as (p & q & E1 & E2 & E3 & E4 & E5 & E6).
    exists p, q, ns, ss. split; [exact E1|]. split; [exact E2|]. split; [exact E3|]. split; [exact E4|]. split; [exact E5|].
    split; [reflexivity|exact E6].
  - left. injection H as <- <- <-. auto.
Qed.

Lemma aheader_local : forall k n l a r, bytes_ok l -> d_sizes k = None -> aheader k n l = Ok (a, r) ->
  exists p, l = p ++ r /\ p <> [] /\ forall r', aheader k n (p ++ r') = Ok (a, r').
Proof.
  intros k n l [k' n'] r B S H.
  destruct (aheader_inv k n l k' n' r B S H) as (v & ind & tl & -> & V & I0 & BI & ALT).
  destruct ALT as [(I1 & -> & -> & ->)|(I1 & -> & p & q & ns & ss & -> & VP & VQ & NS & SS & -> & PC)].
  - exists (hd5 v ind []). split; [reflexivity|]. split; [discriminate|]. intros r'.
    change (hd5 v ind [] ++ r') with (hd5 v ind r'). rewrite aheader_hd5 by auto. rewrite I0, I1. reflexivity.
  - exists (hd5 v ind (p ++ q)). split; [unfold hd5; cbn [app]; rewrite <- app_assoc; reflexivity|]. split; [discriminate|]. intros r'.
    replace (hd5 v ind (p ++ q) ++ r') with (hd5 v ind (p ++ q ++ r')) by (unfold hd5; cbn [app]; rewrite <- app_assoc; reflexivity).
    rewrite aheader_hd5 by auto. rewrite I0, I1, PC. reflexivity.
Qed.

Lemma aheader_no_early : forall k n u y a r, bytes_ok (u ++ y) -> d_sizes k = None ->
  aheader k n u = Eod -> aheader k n (u ++ y) = Ok (a, r) -> zlen r <= zlen y.
Proof.
  intros k n u y a r B S E H.
  destruct (Z.leb_spec (zlen r) (zlen y)) as [|GT]; [assumption|exfalso].
  destruct (aheader_local k n _ a r B S H) as (p & EP & PN & L).
  assert (zlen u + zlen y = zlen p + zlen r) as ZZ by (rewrite <- !zlen_app; congruence).
  assert (u = p ++ zdrop (zlen p) u) as EQ.
  { rewrite <- (ztake_zdrop _ (zlen p) u) at 1. f_equal.
    rewrite <- (ztake_app_le _ (zlen p) u y) by lia. rewrite EP. apply ztake_app_eq. reflexivity. }
  rewrite EQ, L in E. discriminate.
Qed.

Lemma s_version_app : forall x y, s_version x -> s_version (x ++ y).
Proof.
  induction 1 as [ind tl|v ind p q ns ss x I VP VQ H IH]; rewrite <- !app_assoc; econstructor; eauto.
Qed.

Lemma bad_cache_app : forall x y, bad_cache x -> bad_cache (x ++ y).
Proof.
  induction 1 as [v ind p q x I VP VQ|v ind p q ns ss x I VP VQ H IH]; rewrite <- !app_assoc.
  - apply bad_here; auto.
  - eapply bad_nested; eauto.
Qed.

Lemma aheader_ub : forall k n l, bytes_ok l -> aheader k n l <> UB.
Proof.
  intros k n l B H. destruct (d_sizes k) as [s|] eqn:S.
  { unfold aheader in H. rewrite S in H. discriminate. }
  destruct (aheader_cases k n l S) as [[C E]|[[C E]|(v & ind & tl & -> & V)]]; try congruence.
  rewrite aheader_hd5 in H by auto. destruct (Z.testbit ind 0); [discriminate|].
  destruct (Z.testbit ind 1) eqn:I1; [|discriminate].
  pose proof (parse_cache_sizes_mono tl []) as M.
  destruct (parse_cache_sizes tl) as [[[ns ss] r]| | |] eqn:P; cbn [bind] in H; try discriminate. contradiction.
Qed.
