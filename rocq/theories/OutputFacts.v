(** Facts about the length of the window at hand. *)

From Verif Require Import Base Spec Varint VarintFacts AddrCache AddrCacheFacts CodeTable CodeTableFacts
  InstructionMap DecodeTable HeaderParser Adler AdlerFacts Decoder CopyFacts BodyFacts BodyExt WindowExt
  WindowHeader WindowStep Refine Totals Abstract Output.
From Coq Require Import ZifyBool ZifyNat.

(** The size of the target when the window at hand is complete, as far as known. *)
Definition pending (k : core) (u : list Z) : Z := zlen (d_target k) + target_bytes_remaining k u.

Lemma announced_range : forall c data n, bytes_ok data -> announced c data = Some n -> 0 <= n <= int32_max.
Proof.
  intros c data n B H. unfold announced in H.
  destruct (parse_win_indicator _ _ _ data) as [[a l]| | |] eqn:P1; try discriminate.
  destruct (parse_win_indicator_local _ _ _ data _ _ B P1) as (p1 & E1 & _). assert (B1 := bytes_ok_suffix _ _ _ B E1).
  destruct (parse_size l) as [[dl l2]| | |] eqn:P2; try discriminate.
  destruct (parse_size_local l _ _ B1 P2) as (p2 & E2 & _). assert (B2 := bytes_ok_suffix _ _ _ B1 E2).
  destruct (parse_size l2) as [[m l3]| | |] eqn:P3; try discriminate. injection H as <-.
  destruct (parse_inv I32 l2 m l3 type_ok_I32 B2 P3) as (p & _ & V & R). change (kMaxVal I32) with int32_max in R. exact R.
Qed.

Lemma announced_more : forall c z y n, bytes_ok z -> announced c z = Some n -> announced c (z ++ y) = Some n.
Proof.
  intros c z y n B H. unfold announced in *.
  destruct (parse_win_indicator _ _ _ z) as [[a l]| | |] eqn:P1; try discriminate.
  destruct (parse_win_indicator_local _ _ _ z _ _ B P1) as (p1 & E1 & L1). assert (B1 := bytes_ok_suffix _ _ _ B E1).
  destruct (parse_size l) as [[dl l2]| | |] eqn:P2; try discriminate.
  destruct (parse_size_local l _ _ B1 P2) as (p2 & E2 & L2). assert (B2 := bytes_ok_suffix _ _ _ B1 E2).
  destruct (parse_size l2) as [[m l3]| | |] eqn:P3; try discriminate.
  destruct (parse_size_local l2 _ _ B2 P3) as (p3 & E3 & L3).
  subst z l l2. rewrite <- !app_assoc, L1, L2, L3. exact H.
Qed.

Lemma header_announced : forall c data fd l ca, header_fields c data = Ok (fd, l) ->
  announced c data = Some (w_len (fields_window c fd ca)).
Proof.
  intros c data fd l ca H. unfold header_fields, announced in *.
  destruct (parse_win_indicator _ _ _ data) as [[[[[ind k] len] p] r]| | |]; cbn [bind] in H; try discriminate.
  destruct (parse_size r) as [[dl s]| | |]; cbn [bind] in H; try discriminate.
  destruct (parse_size s) as [[tl2 s2]| | |]; cbn [bind] in H; try discriminate.
  destruct (would_exceed c tl2) eqn:E; try discriminate.
  destruct (parse_delta_indicator s2) as [s3| | |]; cbn [bind] in H; try discriminate.
  destruct (parse_section_lengths _ _ _ _) as [[[[[x1 x2] x3] x4] x5]| | |]; cbn [bind] in H; try discriminate.
  injection H as <- <-. reflexivity.
Qed.

Definition announced0 (c : core) (data : list Z) : Z := match announced c data with Some n => n | None => 0 end.

(** At the start of a window. *)
Lemma window_announced : forall ns ss c data, core_ok ns ss c -> d_win c = None -> bytes_ok data -> tot_inv c -> lim_inv c -> ~ stopped c ->
  match decode_window c data with
  | XOk (c', _) => exists n, announced c data = Some n /\ zlen (d_target c') = zlen (d_target c) + n
  | XEod (c', u) => pending c' u = zlen (d_target c) + announced0 c data
  | _ => True
  end.
Proof.
  intros ns ss c data CO WN BD TI LI NS.
  pose proof (decode_window_step c ns ss data [] CO BD ltac:(constructor)) as ST.
  assert (match decode_window c data with XOk (c', _) | XEod (c', _) => cstep c c' | _ => True end) as CS.
  { destruct (decode_window c data) as [[c' r]|[c' r]| | |]; auto; tauto. }
  clear ST. assert (d_start c = zlen (d_target c)) as DS by (destruct TI as [_ TI]; rewrite WN in TI; tauto).
  assert (pending c data = zlen (d_target c) + announced0 c data) as PC.
  { unfold pending, target_bytes_remaining, window_length, announced0. rewrite WN, DS, Z.sub_diag, Z.sub_0_r.
    destruct (reached_planned c) eqn:RP; [destruct NS; split; auto|].
    destruct (announced c data) as [n|] eqn:A; [|reflexivity]. pose proof (announced_range _ _ _ BD A).
    destruct (Z.eqb_spec n 0) as [->|]; [reflexivity|]. rewrite to_size_id; [reflexivity|]. unfold int32_max, size_max in *. lia. }
  rewrite (decode_window_none c ns ss) in * by (auto; apply CO).
  destruct (header_fields c data) as [[fd l]| | |] eqn:HF; auto.
  destruct (negb (fields_il c fd) && (zlen l <? fields_total fd)); [exact PC|].
  destruct (cache_init ns ss) as [ca|]; [|exact Logic.I]. cbv zeta in *.
  pose proof (header_announced c data fd l ca HF) as AN. pose proof (announced_range _ _ _ BD AN) as AR.
  assert (forall total w st avail after, w_len w = w_len (fields_window c fd ca) ->
     match finish_window c total w st avail after with XOk (c', _) | XEod (c', _) => cstep c c' | _ => True end ->
     match finish_window c total w st avail after with
     | XOk (c', _) => exists n, announced c data = Some n /\ zlen (d_target c') = zlen (d_target c) + n
     | XEod (c', u) => pending c' u = zlen (d_target c) + announced0 c data
     | _ => True
     end) as FW.
  { intros total w st avail after EW CS'. pose proof (finish_window_len c total w st avail after) as F.
    destruct (finish_window c total w st avail after) as [[c' r]|[c' r]| | |]; auto.
    - destruct F as (F1 & _). exists (w_len w). rewrite AN, EW. split; [reflexivity|]. lia.
    - destruct F as (F1 & F2 & F3 & w' & F4 & F5).
      destruct CS' as (w1 & s1 & m1 & t1 & E). assert (zlen (d_target c) <= zlen (d_target c')) as MT.
      { subst c'. cbn [set_win d_target]. rewrite zlen_app. pose proof (zlen_nonneg _ m1). lia. }
      unfold pending, target_bytes_remaining, window_length, announced0. rewrite F4, F5, F2, AN, <- EW in *.
      destruct (Z.eqb_spec (w_len w) 0) as [E0|]; [lia|]. rewrite to_size_id; [lia|]. unfold int32_max, size_max in *. lia. }
  destruct (fields_il c fd); [unfold finish_il in *|]; apply FW; auto.
Qed.

Lemma pending_srel : forall k u p, srel (k, u) p -> pending k u = pending (fst p) (snd p).
Proof.
  intros k u p [<-|(w & nops & W & _ & L & _ & ->)]; [reflexivity|]. cbn [fst snd] in *.
  unfold pending, target_bytes_remaining, window_length. cbn [set_win d_win d_target d_start]. rewrite W. reflexivity.
Qed.

(** The decoder that keeps everything has the same remainder. *)
Lemma announced_full : forall pre c data, shiftable pre c -> announced (full pre c) data = announced c data.
Proof.
  intros pre c data [->|[AL _]]; [reflexivity|]. unfold announced. cbn [full d_dict d_target d_allow]. rewrite AL.
  unfold parse_win_indicator. destruct (parse_byte data) as [[ind l]| | |]; cbn [bind]; reflexivity.
Qed.

Lemma remaining_full : forall pre c u, shiftable pre c ->
  target_bytes_remaining (full pre c) u = target_bytes_remaining c u.
Proof.
  intros pre c u SH. unfold target_bytes_remaining, window_length. rewrite announced_full by exact SH.
  cbn [full d_win d_target d_start]. change (reached_planned (full pre c)) with (reached_planned c).
  rewrite zlen_app. replace (zlen pre + zlen (d_target c) - (zlen pre + d_start c)) with (zlen (d_target c) - d_start c) by lia. reflexivity.
Qed.

(** The sizes of the target when a window ends, in a run over the data of a call. *)
Inductive visits : core -> list Z -> Z -> Prop :=
| visit_here : forall k data k' rest, decode_window k data = XOk (k', rest) -> visits k data (zlen (d_target k'))
| visit_later : forall k data k' rest e, decode_window k data = XOk (k', rest) -> reached_planned k' = false -> rest <> [] ->
    visits k' rest e -> visits k data e.

(** Ends of windows with the data [Ts], when the first starts at [n]. *)
Fixpoint ends (n : Z) (Ts : list (list Z)) : list Z :=
  match Ts with [] => [] | T :: tl => (n + zlen T) :: ends (n + zlen T) tl end.

Lemma ends_app : forall Ts Ts' n, ends n (Ts ++ Ts') = ends n Ts ++ ends (n + zlen (concat Ts)) Ts'.
Proof.
  induction Ts as [|T Ts IH]; intros Ts' n; cbn [app concat ends].
  - rewrite zlen_nil, Z.add_0_r. reflexivity.
  - rewrite IH, zlen_app, Z.add_assoc. reflexivity.
Qed.

Lemma ends_last : forall Ts n, Ts = [] \/ In (n + zlen (concat Ts)) (ends n Ts).
Proof.
  intros Ts n. destruct Ts as [|T Ts] using rev_ind; [left; reflexivity|right].
  rewrite ends_app, concat_app. cbn [concat ends]. rewrite app_nil_r, zlen_app. apply in_or_app. right. left. lia.
Qed.

Lemma ends_length : forall Ts n, length (ends n Ts) = length Ts.
Proof. induction Ts as [|T Ts IH]; intros n; cbn; [reflexivity|]. rewrite IH. reflexivity. Qed.
