(** How often the loops of the decoder are executed.  Every function here follows the
    function of the model of the same name, calls the same functions on the same
    states, and counts instead of returning a result. *)

From Verif Require Import Base ListFacts Varint VarintFacts AddrCache CodeTable InstructionMap DecodeTable HeaderParser Adler Decoder BodyFacts.
From Coq Require Import ZifyBool ZifyNat.

(** decodetable.cc 61-90 (see [inst_loop]): iterations of the do-while loop *)
Fixpoint opcode_steps (t : table) (pending : option Z) (inst : list Z) : Z :=
  match pending with
  | Some _ => 1
  | None =>
      match inst with
      | [] => 1
      | op :: tl =>
          let pending' := if tget (inst2 t) op =? VCD_NOOP then None else Some op in
          if tget (inst1 t) op =? VCD_NOOP then 1 + opcode_steps t pending' tl else 1
      end
  end.

(** vcdecoder.cc 1241-1295 (see [body_loop]): iterations of the loop in DecodeBody, with
    those in GetNextInstruction *)
Fixpoint body_steps (fuel : nat) (dict : list Z) (t : table) (w : window) (start : Z) (st : body) : Z :=
  if zlen (b_target st) - start <? w_len w then
    match fuel with
    | O => 0
    | S fuel' =>
        opcode_steps t (b_pending st) (b_inst st) +
        match get_next_instruction t (b_pending st) (b_inst st) with
        | NI ty size mode p rest =>
            if (w_len w <? size) || (w_len w <? size + (zlen (b_target st) - start)) then 0
            else
              match decode_instruction dict w start (with_inst st p rest) ty size mode with
              | XOk st' => body_steps fuel' dict t w start st'
              | _ => 0
              end
        | _ => 0
        end
    end
  else 0.

(** vcdecoder.cc 1339-1390 (see [decode_window]) *)
Definition window_steps (c : core) (data : list Z) : Z :=
  match d_win c with
  | None =>
      match read_header c data with
      | Ok (w, st, _, _) => body_steps (body_fuel st) (d_dict c) (d_table c) w (d_start c) st
      | _ => 0
      end
  | Some w =>
      let st := {| b_il := true; b_inst := ztake (w_expected w) data; b_data := []; b_addr := [];
                   b_pending := w_pending w; b_cache := w_cache w; b_target := d_target c |} in
      body_steps (body_fuel st) (d_dict c) (d_table c) w (d_start c) st
  end.

(** vcdecoder.cc 900-915 (see [window_loop]): one for every window, and the steps in it *)
Fixpoint windows_steps (fuel : nat) (c : core) (data : list Z) : Z :=
  match data with
  | [] => 0
  | _ =>
      match fuel with
      | O => 0
      | S fuel' =>
          1 + window_steps c data +
          match decode_window c data with
          | XOk (c', rest) =>
              if reached_planned c' then 0
              else if d_allow c' then windows_steps fuel' c' rest
              else windows_steps fuel' (fst (flush_target c')) rest
          | _ => 0
          end
      end
  end.

(** vcdecoder.cc 880-925 with 808-848 (see [decode_chunk_fuel]): one for every decoder
    that is entered, and the steps in the windows *)
Fixpoint chunk_steps_fuel (fuel : nat) (d : dec) (data : list Z) : Z :=
  match fuel with
  | O => 0
  | S fuel' =>
      1 +
      let '(Dec c0 _) := d in
      if negb (d_started c0) then 0
      else
        let chunk := d_unparsed c0 ++ data in
        match read_file_header d chunk with
        | Ok (Dec c None, rest) => windows_steps (S (length rest)) c rest
        | Ok (Dec c (Some nd), rest) =>
            chunk_steps_fuel fuel' nd rest +
            match decode_chunk_fuel fuel' nd rest with
            | CRet nd' true o =>
                let s := d_string c ++ o in
                if zlen s <? 1536 then 0
                else
                  let '(Dec nc _, fin) := finish_decoding nd' in
                  if negb fin then 0
                  else if negb (zlen s =? 1536) then 0
                  else
                    let rest' := finish_except (zlen (d_unparsed nc)) rest in
                    match d_sizes c with
                    | None => 0
                    | Some (ns, ss) =>
                        match use_code_table (d_table c) (table_of_bytes s) (last_mode ns ss) with
                        | None => 0
                        | Some (t, _) => windows_steps (S (length rest')) (set_file c (d_version c) (d_sizes c) [] t) rest'
                        end
                    end
            | _ => 0
            end
        | _ => 0
        end
  end.
Definition chunk_steps (d : dec) (data : list Z) : Z := chunk_steps_fuel (chunk_fuel d data) d data.

(** ** The bytes that wait in the decoder and in the decoders inside it, and the number
    of those *)
Fixpoint waiting (d : dec) : Z :=
  let '(Dec c n) := d in zlen (d_unparsed c) + match n with Some nd => waiting nd | None => 0 end.
Fixpoint depth (d : dec) : Z :=
  let '(Dec _ n) := d in match n with Some nd => 1 + depth nd | None => 0 end.

Lemma waiting_nonneg : forall d, 0 <= waiting d.
Proof. fix IH 1. intros [c [n|]]; cbn [waiting]; pose proof (zlen_nonneg _ (d_unparsed c)); [specialize (IH n)|]; lia. Qed.
Lemma depth_nonneg : forall d, 0 <= depth d.
Proof. fix IH 1. intros [c [n|]]; cbn [depth]; [specialize (IH n)|]; lia. Qed.

(** ** Bounds *)

Definition pend {A} (p : option A) : Z := match p with Some _ => 1 | None => 0 end.
Lemma pend_range : forall A (p : option A), 0 <= pend p <= 1.
Proof. intros A [x|]; cbn; lia. Qed.

Lemma opcode_steps_loop : forall t inst pending,
  match inst_loop t pending inst with
  | inl (_, _, _, p, rest) => opcode_steps t pending inst + 2 * zlen rest + pend p <= 2 * zlen inst + pend pending
  | inr (p, rest) => opcode_steps t pending inst + 2 * zlen rest + pend p <= 2 * zlen inst + pend pending + 1
  end.
Proof.
  induction inst as [|op tl IH]; intros [o|]; cbn [inst_loop opcode_steps pend]; try (rewrite ?zlen_nil; lia).
  cbv zeta. rewrite zlen_cons. destruct (tget (inst1 t) op =? VCD_NOOP).
  - specialize (IH (if tget (inst2 t) op =? VCD_NOOP then None else Some op)).
    pose proof (pend_range Z (if tget (inst2 t) op =? VCD_NOOP then None else Some op)).
    destruct (inst_loop _ _ tl) as [[[[[ty s] m] p] rest]|[p rest]]; lia.
  - pose proof (pend_range Z (if tget (inst2 t) op =? VCD_NOOP then None else Some op)). lia.
Qed.

Lemma opcode_steps_pos : forall t inst pending, 1 <= opcode_steps t pending inst.
Proof.
  induction inst as [|op tl IH]; intros [o|]; cbn [opcode_steps]; try lia. cbv zeta. destruct (_ =? _); [|lia].
  specialize (IH (if tget (inst2 t) op =? VCD_NOOP then None else Some op)). lia.
Qed.

Lemma opcode_steps_next : forall t pending inst,
  opcode_steps t pending inst <= 2 * zlen inst + pend pending + 1 /\
  forall ty size mode p rest, get_next_instruction t pending inst = NI ty size mode p rest ->
    opcode_steps t pending inst + 2 * zlen rest + pend p <= 2 * zlen inst + pend pending.
Proof.
  intros t pending inst. pose proof (opcode_steps_loop t inst pending) as H. unfold get_next_instruction.
  destruct (inst_loop t pending inst) as [[[[[ty s] m] p] rest]|[p rest]].
  - pose proof (zlen_nonneg _ rest). pose proof (pend_range _ p). split; [lia|]. intros ty' size mode p' rest' E.
    destruct (s =? 0); [|injection E as <- <- <- <- <-; exact H].
    destruct (parse I32 rest) as [[n r]| | |] eqn:P; try discriminate. injection E as <- <- <- <- <-.
    apply parse_suffix in P as (q & -> & _). rewrite zlen_app in H. pose proof (zlen_nonneg _ q). lia.
  - pose proof (zlen_nonneg _ rest). pose proof (pend_range _ p). split; [lia|discriminate].
Qed.

Lemma body_steps_bound : forall fuel dict t w start st,
  0 <= body_steps fuel dict t w start st <= 2 * zlen (b_inst st) + pend (b_pending st) + 1 /\
  forall st', body_loop fuel dict t w start st = XOk st' ->
    body_steps fuel dict t w start st + 2 * zlen (b_inst st') + pend (b_pending st') <= 2 * zlen (b_inst st) + pend (b_pending st).
Proof.
  induction fuel as [|fuel IH]; intros dict t w start st; cbn [body_steps body_loop];
    pose proof (zlen_nonneg _ (b_inst st)); pose proof (pend_range _ (b_pending st)).
  - destruct (_ <? _); split; try lia; intros st' H'; try discriminate. injection H' as <-. lia.
  - destruct (_ <? _); [|split; [lia|]; intros st' H'; injection H' as <-; lia].
    destruct (opcode_steps_next t (b_pending st) (b_inst st)) as [G1 G2]. pose proof (opcode_steps_pos t (b_inst st) (b_pending st)) as GP.
    destruct (get_next_instruction t (b_pending st) (b_inst st)) as [ty size mode p rest| |]; try (split; [lia|discriminate]).
    specialize (G2 _ _ _ _ _ eq_refl). destruct (_ || _); [split; [lia|discriminate]|].
    destruct (decode_instruction dict w start (with_inst st p rest) ty size mode) as [st1| | | |] eqn:D; try (split; [lia|discriminate]).
    apply exec_shrinks in D as [L P]. cbn [with_inst b_inst b_pending] in L, P.
    assert (zlen (b_inst st1) <= zlen rest) as LZ. { Local Transparent zlen. unfold zlen. lia. }
    rewrite <- P in G2. destruct (IH dict t w start st1) as [I1 I2]. split; [lia|]. intros st' H'. specialize (I2 _ H'). lia.
Qed.
Local Opaque zlen.

Ltac binds H := repeat match type of H with
  | bind ?r _ = Ok _ => let E := fresh "E" in destruct r as [?| | |] eqn:E; cbn [bind] in H; try discriminate
  | (let '(_, _) := ?x in _) = _ => destruct x
  end.

Lemma parse_len : forall t l v rest, parse t l = Ok (v, rest) -> zlen rest + 1 <= zlen l /\ 0 <= v.
Proof.
  intros t l v rest. unfold parse. assert (forall l acc, 0 <= acc -> parse_loop t acc l = Ok (v, rest) -> zlen rest + 1 <= zlen l /\ 0 <= v) as G; [|apply G; lia].
  clear l. induction l as [|b l IH]; intros acc A H; cbn [parse_loop] in H; [discriminate|]. rewrite zlen_cons.
  assert (0 <= b mod 128) by (apply Z.mod_pos_bound; lia).
  destruct (b <? 128); [injection H as <- <-; lia|]. destruct (_ <? _); [discriminate|]. apply IH in H; lia.
Qed.

Lemma segment_len : forall tl n a b r, parse_source_segment n tl = Ok (a, b, r) -> zlen r <= zlen tl.
Proof.
  intros tl n a b0 r P. unfold parse_source_segment in P. destruct (parse_size tl) as [[v1 r1]| | |] eqn:P1; cbn [bind] in P; try discriminate.
  destruct (_ <? _); [discriminate|]. destruct (parse_size r1) as [[v2 r2]| | |] eqn:P2; cbn [bind] in P; try discriminate.
  destruct (_ && _); [discriminate|]. destruct (_ <? _); [discriminate|]. injection P as _ _ <-. apply parse_len in P1. apply parse_len in P2. lia.
Qed.

Lemma sections_len : forall hc dl start l3 nd ni na cks l4, parse_section_lengths hc dl start l3 = Ok (nd, ni, na, cks, l4) ->
  0 <= nd /\ 0 <= ni /\ 0 <= na /\ zlen l4 + 3 <= zlen l3.
Proof.
  intros hc dl start l3 nd ni na cks l4 E4. unfold parse_section_lengths in E4.
  destruct (parse_size l3) as [[v1 r1]| | |] eqn:P1; cbn [bind] in E4; try discriminate. apply parse_len in P1.
  destruct (parse_size r1) as [[v2 r2]| | |] eqn:P2; cbn [bind] in E4; try discriminate. apply parse_len in P2.
  destruct (parse_size r2) as [[v3 r3]| | |] eqn:P3; cbn [bind] in E4; try discriminate. apply parse_len in P3.
  destruct (if hc then parse_checksum r3 else Ok (0, r3)) as [[v4 r4]| | |] eqn:P4; cbn [bind] in E4; try discriminate.
  assert (zlen r4 <= zlen r3).
  { destruct hc; [|injection P4 as _ <-; lia]. unfold parse_checksum in P4. destruct (parse I64 r3) as [[v r]| | |] eqn:P; cbn [bind] in P4; try discriminate.
    destruct (_ <? _); [discriminate|]. injection P4 as _ <-. apply parse_len in P. lia. }
  destruct (_ =? _); [|discriminate]. injection E4 as <- <- <- _ <-. lia.
Qed.

Lemma read_header_lens : forall c data w st after l, read_header c data = Ok (w, st, after, l) ->
  b_pending st = None /\ zlen l + 5 <= zlen data /\ zlen (b_inst st) <= zlen l /\
  (b_il st = false -> zlen after + zlen (b_inst st) <= zlen l).
Proof.
  intros c data w st after l H. unfold read_header in H.
  destruct (parse_win_indicator _ _ _ data) as [[[[[ind kind] seglen] pos] l0]| | |] eqn:E0; cbn [bind] in H; try discriminate.
  assert (zlen l0 + 1 <= zlen data) as L0.
  { unfold parse_win_indicator, parse_byte in E0. destruct data as [|b tl]; [discriminate|]. cbn [bind] in E0. rewrite zlen_cons.
    pose proof (segment_len tl) as PS.
    destruct (Z.testbit b 0), (Z.testbit b 1); try discriminate.
    - destruct (parse_source_segment _ tl) as [[[a b0] r]| | |] eqn:P; cbn [bind] in E0; try discriminate. injection E0 as _ _ _ _ <-. apply PS in P. lia.
    - destruct (negb _); [discriminate|]. destruct (parse_source_segment _ tl) as [[[a b0] r]| | |] eqn:P; cbn [bind] in E0; try discriminate.
      injection E0 as _ _ _ _ <-. apply PS in P. lia.
    - injection E0 as _ _ _ _ <-. lia. }
  destruct (parse_size l0) as [[delta_len start]| | |] eqn:E1; cbn [bind] in H; try discriminate. apply parse_len in E1.
  destruct (parse_size start) as [[target_len l2]| | |] eqn:E2; cbn [bind] in H; try discriminate. apply parse_len in E2.
  destruct (would_exceed _ _); [discriminate|].
  destruct (parse_delta_indicator l2) as [l3| | |] eqn:E3; cbn [bind] in H; try discriminate.
  assert (zlen l3 <= zlen l2) as L3.
  { unfold parse_delta_indicator, parse_byte in E3. destruct l2; cbn [bind] in E3; [discriminate|]. destruct (_ =? _); [|discriminate]. injection E3 as <-. rewrite zlen_cons. lia. }
  destruct (parse_section_lengths _ _ _ l3) as [[[[[nd ni] na] cks] l4]| | |] eqn:E4; cbn [bind] in H; try discriminate.
  assert (0 <= nd /\ 0 <= ni /\ 0 <= na /\ zlen l4 + 3 <= zlen l3) as (Nd & Ni & Na & L4).
  { eapply sections_len. exact E4. }
  cbv zeta in H. pose proof (zlen_nonneg _ l4). destruct (allow_extensions c && (nd =? 0) && (na =? 0)) eqn:IL; cbn [negb andb] in H.
  - destruct (d_sizes c) as [[ns ss]|]; [|discriminate]. destruct (cache_init ns ss); [|discriminate]. injection H as _ <- _ <-.
    cbn [b_pending b_inst b_il]. split; [reflexivity|]. split; [lia|]. rewrite zlen_ztake by lia. split; [lia|discriminate].
  - destruct (Z.ltb_spec (zlen l4) (nd + ni + na)); [discriminate|].
    destruct (d_sizes c) as [[ns ss]|]; [|discriminate]. destruct (cache_init ns ss); [|discriminate]. injection H as _ <- <- <-.
    cbn [b_pending b_inst b_il]. split; [reflexivity|]. split; [lia|]. rewrite zlen_ztake, !zlen_zdrop by lia. split; lia.
Qed.

Definition waiting_window (c : core) : Z := match d_win c with Some w => pend (w_pending w) | None => 0 end.
Lemma waiting_window_range : forall c, 0 <= waiting_window c <= 1.
Proof. intros c. unfold waiting_window. destruct (d_win c) as [w|]; [apply pend_range|lia]. Qed.

Lemma ztake_len : forall A n (l : list A), zlen (ztake n l) <= zlen l.
Proof. intros A n l. rewrite <- (ztake_zdrop _ n l) at 2. rewrite zlen_app. pose proof (zlen_nonneg _ (zdrop n l)). lia. Qed.

Lemma decode_body_empty : forall dict t w start st st', decode_body dict t w start st = XOk st' ->
  body_loop (body_fuel st) dict t w start st = XOk st' /\ b_inst st' = [].
Proof.
  intros dict t w start st st' H. unfold decode_body in H. destruct (body_loop _ _ _ _ _ st) as [st1| | | |]; try discriminate.
  destruct (negb _); [discriminate|]. destruct (_ && _); [discriminate|]. destruct (b_inst st1) as [|x l] eqn:E; cbn [nonempty] in H; [|discriminate].
  destruct (_ && _); [discriminate|]. injection H as <-. split; [reflexivity|exact E].
Qed.

(** One window: the work is bounded by what is there, and by what is taken when it succeeds. *)
Lemma window_steps_bound : forall c data,
  0 <= window_steps c data <= 2 * zlen data + waiting_window c + 1 /\
  match decode_window c data with
  | XOk (c', rest) =>
      d_win c' = None /\ window_steps c data + 2 * zlen rest + (if d_win c then 0 else 10) <= 2 * zlen data + waiting_window c
  | XEod (c', rest) => d_win c' = None -> window_steps c data = 0 /\ rest = data
  | _ => True
  end.
Proof.
  intros c data. unfold window_steps, decode_window, waiting_window.
  pose proof (zlen_nonneg _ data) as ZD.
  assert (forall total w st avail after, zlen (b_inst st) <= zlen avail -> (b_il st = false -> zlen after + zlen (b_inst st) <= zlen avail) ->
    match finish_window c total w st avail after with
    | XOk (c', rest) => d_win c' = None /\
        body_steps (body_fuel st) (d_dict c) (d_table c) w (d_start c) st + 2 * zlen rest <= 2 * zlen avail + pend (b_pending st)
    | XEod (c', rest) => d_win c' <> None
    | _ => True
    end) as FW.
  { intros total w st avail after L1 L2. unfold finish_window. pose proof (zlen_nonneg _ (b_inst st)).
    destruct (decode_body _ _ _ _ st) as [st'|st'| | |] eqn:D; try exact Logic.I.
    - apply decode_body_empty in D as [B E]. split; [reflexivity|].
      pose proof (proj2 (body_steps_bound _ _ _ _ _ _) _ B) as Q. pose proof (pend_range _ (b_pending st')). rewrite E, zlen_nil in *. rewrite Z.sub_0_r.
      destruct (b_il st); [rewrite zlen_zdrop by lia; lia|]. specialize (L2 eq_refl). lia.
    - cbv zeta. destruct (b_il st && _); [|exact Logic.I]. cbn [set_win d_win]. discriminate. }
  destruct (d_win c) as [w|] eqn:W.
  - cbv zeta. set (st := {| b_il := true |}). specialize (FW (d_total c) w st data []).
    assert (zlen (b_inst st) <= zlen data) as L by apply ztake_len. specialize (FW L ltac:(discriminate)).
    destruct (body_steps_bound (body_fuel st) (d_dict c) (d_table c) w (d_start c) st) as [Q _]. cbn [b_pending st] in Q, FW.
    pose proof (pend_range _ (w_pending w)). split; [lia|].
    destruct (finish_window _ _ _ _ _ _) as [[c' rest]|[c' rest]| | |]; try exact Logic.I; [|intros; contradiction].
    destruct FW as [F1 F2]. split; [exact F1|lia].
  - destruct (read_header c data) as [[[[w st] after] l]| | |] eqn:R; try (split; [lia|try exact Logic.I]).
    + apply read_header_lens in R as (P & L1 & L2 & L3). specialize (FW (to_size (d_total c + w_len w)) w st l after L2 L3). rewrite P in FW. cbn [pend] in FW.
      destruct (body_steps_bound (body_fuel st) (d_dict c) (d_table c) w (d_start c) st) as [Q _]. rewrite P in Q. cbn [pend] in Q. pose proof (zlen_nonneg _ (b_inst st)). split; [lia|].
      destruct (finish_window _ _ _ _ _ _) as [[c' rest]|[c' rest]| | |]; try exact Logic.I; [|intros; contradiction].
      destruct FW as [F1 F2]. split; [exact F1|lia].
    + intros _. split; reflexivity.
Qed.

(** What may be left over from the chunk before *)
Definition carried (c : core) : Z := match d_win c with Some w => 1 + pend (w_pending w) | None => 0 end.

Lemma windows_steps_bound : forall fuel c data out,
  0 <= windows_steps fuel c data <= 2 * zlen data + carried c + 2 /\
  match window_loop fuel c data out with
  | (XOk (c', rest), _) | (XEod (c', rest), _) =>
      d_win c' = None -> windows_steps fuel c data + 2 * zlen rest <= 2 * zlen data + carried c + 2
  | _ => True
  end.
Proof.
  assert (forall c, 0 <= carried c) as CN.
  { intros c. unfold carried. destruct (d_win c) as [w|]; [pose proof (pend_range _ (w_pending w))|]; lia. }
  induction fuel as [|fuel IH]; intros c data out; pose proof (zlen_nonneg _ data); specialize (CN c) as CNc;
    destruct data as [|b tl]; cbn [windows_steps window_loop]; rewrite ?zlen_nil in *; try (split; [lia|]; intros _; rewrite ?zlen_nil; lia); try (split; [lia|exact Logic.I]).
  set (data := b :: tl) in *. destruct (window_steps_bound c data) as [B1 B2].
  assert (waiting_window c <= carried c /\ (d_win c <> None -> 1 + waiting_window c = carried c) /\ (d_win c = None -> carried c = 0)) as (W1 & W2 & W3).
  { unfold waiting_window, carried. destruct (d_win c); split; try lia; split; congruence. }
  destruct (decode_window c data) as [[c' rest]|[c' rest]| | |]; try (split; [lia|exact Logic.I]).
  - destruct B2 as [N B2]. pose proof (zlen_nonneg _ rest).
    assert (1 + window_steps c data + 2 * zlen rest <= 2 * zlen data + carried c) as B3.
    { destruct (d_win c); [specialize (W2 ltac:(discriminate))|]; lia. }
    destruct (reached_planned c').
    + split; [lia|]. intros _. lia.
    + assert (carried c' = 0 /\ carried (fst (flush_target c')) = 0) as [C0 C1].
      { unfold flush_target, carried. cbn [fst set_target_out d_win]. rewrite N. auto. }
      destruct (d_allow c').
      * destruct (IH c' rest out) as [I1 I2]. split; [lia|]. destruct (window_loop fuel c' rest out) as [[[c2 r2]|[c2 r2]| | |] o2]; try exact Logic.I; intros N2; specialize (I2 N2); lia.
      * destruct (flush_target c') as [c'' o] eqn:FT. cbn [fst] in *. destruct (IH c'' rest (out ++ o)) as [I1 I2]. split; [lia|].
        destruct (window_loop fuel c'' rest (out ++ o)) as [[[c2 r2]|[c2 r2]| | |] o2]; try exact Logic.I; intros N2; specialize (I2 N2); lia.
  - split; [lia|]. intros N. destruct (B2 N) as [-> ->]. lia.
Qed.

Lemma carried_range : forall c, 0 <= carried c <= 2.
Proof. intros c. unfold carried. destruct (d_win c) as [w|]; [pose proof (pend_range _ (w_pending w))|]; lia. Qed.

Lemma chunk_windows_bound : forall c data,
  0 <= windows_steps (S (length data)) c data <= 2 * zlen data + 4 /\
  forall c' n' o, chunk_windows c data = CRet (Dec c' n') true o -> d_win c' = None ->
    windows_steps (S (length data)) c data + 2 * zlen (d_unparsed c') <= 2 * zlen data + 4.
Proof.
  intros c data. destruct (windows_steps_bound (S (length data)) c data []) as [B1 B2]. pose proof (carried_range c). split; [lia|].
  intros c' n' o H' N. unfold chunk_windows in H'.
  destruct (window_loop _ c data []) as [[[c1 rest]|[c1 rest]| | |] out]; try discriminate;
    unfold chunk_done, append_new_output in H'; cbn [set_unparsed set_target_out d_unparsed d_target d_win d_start] in H'; injection H' as <- _ _;
    cbn [set_unparsed set_target_out d_unparsed d_win] in N |- *; specialize (B2 N); lia.
Qed.

Lemma complete_unparsed : forall c n, is_decoding_complete (Dec c n) = true -> d_unparsed c = [] \/ (d_win c = None /\ n = None).
Proof.
  intros c n H. unfold is_decoding_complete in H. destruct (d_sizes c); [|left; destruct (d_unparsed c); [reflexivity|discriminate]].
  destruct n; [discriminate|]. destruct (d_win c); [discriminate|]. right. split; reflexivity.
Qed.

Lemma file_header_len : forall d chunk c n rest, read_file_header d chunk = Ok (Dec c n, rest) ->
  let '(Dec c0 n0) := d in
  (n = n0 /\ zlen rest <= zlen chunk) \/ (n = Some table_decoder /\ zlen rest + 7 <= zlen chunk).
Proof.
  intros [c0 n0] chunk c n rest H. unfold read_file_header in H. destruct (d_sizes c0); [injection H as _ <- <-; left; split; [reflexivity|lia]|].
  destruct (check_magic chunk) as [u| | |] eqn:M; cbn [bind] in H; try discriminate.
  assert (5 <= zlen chunk) as L.
  { unfold check_magic in M. cbv zeta in M. destruct (_ && _ && _); [discriminate|]. destruct (_ || _ || _); [discriminate|].
    destruct (Z.ltb_spec (zlen chunk) 5); [discriminate|lia]. }
  pose proof (zlen_zdrop _ 5 chunk). destruct (Z.testbit _ 0); [discriminate|]. destruct (Z.testbit _ 1).
  - destruct (parse_cache_sizes (zdrop 5 chunk)) as [[[ns ss] r]| | |] eqn:P; cbn [bind] in H; try discriminate. injection H as _ <- <-.
    right. split; [reflexivity|]. unfold parse_cache_sizes in P.
    destruct (parse_size (zdrop 5 chunk)) as [[v1 r1]| | |] eqn:P1; cbn [bind] in P; try discriminate. apply parse_len in P1.
    destruct (parse_size r1) as [[v2 r2]| | |] eqn:P2; cbn [bind] in P; try discriminate. apply parse_len in P2.
    destruct (_ || _); [discriminate|]. injection P as _ _ <-. lia.
  - injection H as _ <- <-. left. split; [reflexivity|lia].
Qed.

Definition core_of (d : dec) : core := let '(Dec c _) := d in c.

Lemma chunk_steps_bound : forall fuel d data,
  0 <= chunk_steps_fuel fuel d data <= 3 * (waiting d + zlen data) + 5 * depth d + 5 /\
  forall d' o, decode_chunk_fuel fuel d data = CRet d' true o -> is_decoding_complete d' = true ->
    chunk_steps_fuel fuel d data + 2 * zlen (d_unparsed (core_of d')) <= 3 * (waiting d + zlen data) + 5 * depth d + 5.
Proof.
  induction fuel as [|fuel IH]; intros d data; cbn [chunk_steps_fuel decode_chunk_fuel]; pose proof (waiting_nonneg d); pose proof (depth_nonneg d); pose proof (zlen_nonneg _ data).
  { split; [lia|discriminate]. }
  destruct d as [c0 n0]. destruct (negb (d_started c0)); [split; [lia|discriminate]|].
  set (chunk := d_unparsed c0 ++ data) in *.
  assert (zlen chunk = zlen (d_unparsed c0) + zlen data) as LC by apply zlen_app. pose proof (zlen_nonneg _ (d_unparsed c0)).
  destruct (read_file_header (Dec c0 n0) chunk) as [[[c [nd|]] rest]| | |] eqn:R.
  - assert (3 * (waiting nd + zlen rest) + 5 * depth nd + 10 <= 3 * (waiting (Dec c0 n0) + zlen data) + 5 * depth (Dec c0 n0) + 5) as KB.
    { apply file_header_len in R as [[E L]|[E L]].
      - subst n0. cbn [waiting depth] in *. lia.
      - injection E as ->. cbn [waiting depth] in *. change (waiting table_decoder) with 0. change (depth table_decoder) with 0.
        destruct n0 as [m|]; [pose proof (waiting_nonneg m); pose proof (depth_nonneg m)|]; lia. }
    set (K := 3 * (waiting (Dec c0 n0) + zlen data) + 5 * depth (Dec c0 n0) + 5) in *. clearbody K.
    destruct (IH nd rest) as [I1 I2].
    destruct (decode_chunk_fuel fuel nd rest) as [nd' [|] o| |]; try (split; [lia|discriminate]).
    cbv zeta. destruct (zlen (d_string c ++ o) <? 1536).
    { split; [lia|]. intros d' o' E C. unfold chunk_done, append_new_output in E. cbn [set_unparsed set_target_out d_unparsed d_target d_start] in E.
      injection E as <- _. apply complete_unparsed in C as [C|[_ C]]; [|discriminate]. cbn [core_of set_unparsed set_target_out d_unparsed] in *. rewrite zlen_nil. lia. }
    destruct nd' as [nc nn]. unfold finish_decoding. cbn [negb].
    destruct (d_started nc && is_decoding_complete (Dec nc nn)) eqn:F; cbn [negb]; [|split; [lia|discriminate]].
    apply andb_true_iff in F as [_ F]. specialize (I2 _ _ eq_refl F). cbn [core_of] in I2.
    destruct (negb _); [split; [lia|discriminate]|]. destruct (d_sizes c) as [[ns ss]|]; [|split; [lia|discriminate]].
    destruct (use_code_table _ _ _) as [[t b]|]; [|split; [lia|discriminate]].
    cbn [reset d_unparsed]. set (rest' := finish_except _ _).
    assert (zlen rest' <= zlen (d_unparsed nc)) as LR.
    { unfold rest', finish_except. pose proof (zlen_nonneg _ (d_unparsed nc)). destruct (Z.ltb_spec (zlen rest) (zlen (d_unparsed nc))); [rewrite zlen_nil; lia|].
      rewrite zlen_zdrop by lia. lia. }
    destruct (chunk_windows_bound (set_file c (d_version c) (Some (ns, ss)) [] t) rest') as [W1 W2]. split; [lia|].
    intros [c' n'] o' E C. cbn [core_of]. apply complete_unparsed in C as [-> | [C _]]; [rewrite zlen_nil; lia|]. specialize (W2 _ _ _ E C). lia.
  - assert (zlen rest <= zlen chunk) as L by (apply file_header_len in R as [[_ L]|[_ L]]; lia).
    assert (zlen (d_unparsed c0) <= waiting (Dec c0 n0)) as LW.
    { cbn [waiting]. destruct n0 as [m|]; [pose proof (waiting_nonneg m)|]; lia. }
    pose proof (zlen_nonneg _ rest).
    destruct (chunk_windows_bound c rest) as [W1 W2]. split; [lia|].
    intros [c' n'] o' E C. cbn [core_of]. apply complete_unparsed in C as [-> | [C _]]; [rewrite zlen_nil; lia|]. specialize (W2 _ _ _ E C). lia.
  - split; [lia|]. intros d' o' E C. unfold chunk_done, append_new_output in E. cbn [set_unparsed set_target_out d_unparsed d_target d_start] in E.
    injection E as <- _. apply complete_unparsed in C. cbn [core_of set_unparsed set_target_out d_unparsed d_win] in *.
    assert (zlen (d_unparsed c0) <= waiting (Dec c0 n0)) as LW.
    { cbn [waiting]. destruct n0 as [m|]; [pose proof (waiting_nonneg m)|]; lia. } lia.
  - split; [lia|discriminate].
  - split; [lia|discriminate].
Qed.

(** Also a bound on the number of loop executions in a chunk *)
Theorem decode_steps_linear : forall d data, chunk_steps d data <= 3 * (waiting d + zlen data) + 5 * depth d + 5.
Proof. intros d data. apply chunk_steps_bound. Qed.
