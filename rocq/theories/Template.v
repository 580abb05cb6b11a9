(** What a decoder does depends on the length of the dictionary, not on its content,
    except for the verification of checksums.

    [decode_stream_nc] is the decoder without that verification (only used in proofs). *)

From Verif Require Import Base ListFacts Varint AddrCache CodeTable InstructionMap DecodeTable HeaderParser Adler Decoder BodyFacts.
From Coq Require Import ZifyBool ZifyNat.

(** ** The decoder without verification of checksums *)

Definition decode_body_nc (dict : list Z) (t : table) (w : window) (start : Z) (st : body) : xres body :=
  match body_loop (body_fuel st) dict t w start st with
  | XOk st' =>
      if negb (zlen (b_target st') - start =? w_len w) then XErr
      else if nonempty (b_inst st') then XErr
      else if negb (b_il st') && (nonempty (b_data st') || nonempty (b_addr st')) then XErr
      else XOk st'
  | r => r
  end.

Definition finish_window_nc (c : core) (total : Z) (w : window) (st : body) (avail after : list Z) : dres :=
  match decode_body_nc (d_dict c) (d_table c) w (d_start c) st with
  | XOk st' =>
      let parsed := zlen (b_inst st) - zlen (b_inst st') in
      let rest := if b_il st then zdrop parsed avail else after in
      XOk (set_win c None (zlen (b_target st')) (b_target st') total, rest)
  | XEod st' =>
      let parsed := zlen (b_inst st) - zlen (b_inst st') in
      let expected := w_expected w - parsed in
      if b_il st && (0 <? expected) then
        let w' := {| w_kind := w_kind w; w_pos := w_pos w; w_seglen := w_seglen w;
                     w_len := w_len w; w_has_cks := w_has_cks w; w_cks := w_cks w;
                     w_expected := expected; w_pending := b_pending st';
                     w_cache := b_cache st' |} in
        XEod (set_win c (Some w') (d_start c) (b_target st') total, zdrop parsed avail)
      else XErr
  | XErr => XErr
  | XUB => XUB
  | XFuel => XFuel
  end.

Definition resumed (c : core) (w : window) (data : list Z) : body :=
  {| b_il := true; b_inst := ztake (w_expected w) data; b_data := []; b_addr := [];
     b_pending := w_pending w; b_cache := w_cache w; b_target := d_target c |}.

Definition decode_window_nc (c : core) (data : list Z) : dres :=
  match d_win c with
  | None =>
      match read_header c data with
      | Eod => XEod (c, data)
      | Err => XErr
      | UB => XUB
      | Ok (w, st, after, l) => finish_window_nc c (to_size (d_total c + w_len w)) w st l after
      end
  | Some w => finish_window_nc c (d_total c) w (resumed c w data) data []
  end.

Fixpoint window_loop_nc (fuel : nat) (c : core) (data out : list Z) : xres (core * list Z) * list Z :=
  match data with
  | [] => (XOk (c, []), out)
  | _ =>
      match fuel with
      | O => (XFuel, out)
      | S fuel' =>
          match decode_window_nc c data with
          | XOk (c', rest) =>
              if reached_planned c' then (XOk (c', rest), out)
              else if d_allow c' then window_loop_nc fuel' c' rest out
              else let '(c'', o) := flush_target c' in window_loop_nc fuel' c'' rest (out ++ o)
          | r => (r, out)
          end
      end
  end.

Definition chunk_windows_nc (c : core) (data : list Z) : cres :=
  match window_loop_nc (S (length data)) c data [] with
  | (XOk (c', rest), out) => chunk_done c' None rest out
  | (XEod (c', rest), out) => chunk_done c' None rest out
  | (XErr, out) => chunk_failed c out
  | (XUB, _) => CUB
  | (XFuel, _) => CFuel
  end.

(** DecodeChunk, with the loop over the windows as a parameter *)
Definition chunk_with (cw : core -> list Z -> cres) (d : dec) (data : list Z) : cres :=
  let '(Dec c0 _) := d in
  if negb (d_started c0) then chunk_failed c0 []
  else
    let chunk := d_unparsed c0 ++ data in
    match read_file_header d chunk with
    | UB => CUB
    | Err => chunk_failed c0 []
    | Eod => let '(Dec c n) := d in chunk_done c n chunk []
    | Ok (Dec c None, rest) => cw c rest
    | Ok (Dec c (Some nd), rest) =>
        match decode_chunk_fuel (pred (chunk_fuel d data)) nd rest with
        | CUB => CUB
        | CFuel => CFuel
        | CRet _ false _ => chunk_failed c []
        | CRet nd' true o =>
            let s := d_string c ++ o in
            if zlen s <? 1536 then
              chunk_done (set_file c (d_version c) (d_sizes c) s (d_table c)) (Some nd') [] []
            else
              let '(Dec nc _, fin) := finish_decoding nd' in
              if negb fin then chunk_failed c []
              else if negb (zlen s =? 1536) then chunk_failed c []
              else
                let rest' := finish_except (zlen (d_unparsed nc)) rest in
                match d_sizes c with
                | None => CUB
                | Some (ns, ss) =>
                    match use_code_table (d_table c) (table_of_bytes s) (last_mode ns ss) with
                    | None => CUB
                    | Some (t, _) => cw (set_file c (d_version c) (d_sizes c) [] t) rest'
                    end
                end
        end
    end.

Lemma chunk_with_eq : forall d data, decode_chunk d data = chunk_with chunk_windows d data.
Proof.
  intros d data. unfold decode_chunk. destruct (chunk_fuel d data) as [|f] eqn:E; [destruct d as [c [nd|]]; discriminate E|].
  unfold chunk_with. rewrite E. reflexivity.
Qed.

Definition decode_chunk_nc : dec -> list Z -> cres := chunk_with chunk_windows_nc.

Fixpoint decode_chunks_nc (d : dec) (chunks : list (list Z)) (out : list Z) : option (dec * bool * list Z) :=
  match chunks with
  | [] => Some (d, true, out)
  | x :: tl =>
      match decode_chunk_nc d x with
      | CRet d' true o => decode_chunks_nc d' tl (out ++ o)
      | CRet d' false o => Some (d', false, out ++ o)
      | _ => None
      end
  end.
Definition decode_stream_nc (d : dec) (dict : list Z) (chunks : list (list Z)) : option (bool * list Z) :=
  match decode_chunks_nc (start_decoding d dict) chunks [] with
  | None => None
  | Some (_, false, out) => Some (false, out)
  | Some (d', true, out) => Some (snd (finish_decoding d'), out)
  end.

(** ** The decoder without verification commutes with a substitution of bytes of the dictionary *)

Section Natural.
Variable phi : Z -> Z.

Definition fixed (l : list Z) : Prop := map phi l = l.

Lemma fixed_app : forall a b, fixed (a ++ b) -> fixed a /\ fixed b.
Proof.
  unfold fixed. induction a as [|x a IH]; intros b H; cbn in *; [auto|]. injection H as H1 H2. apply IH in H2 as [H2 H3].
  split; [|exact H3]. rewrite H1, H2. reflexivity.
Qed.
Lemma fixed_both : forall a b, fixed a -> fixed b -> fixed (a ++ b).
Proof. unfold fixed. intros. rewrite map_app. congruence. Qed.
Lemma fixed_take : forall n l, fixed l -> fixed (ztake n l).
Proof. intros n l H. rewrite <- (ztake_zdrop _ n l) in H. apply fixed_app in H. tauto. Qed.
Lemma fixed_drop : forall n l, fixed l -> fixed (zdrop n l).
Proof. intros n l H. rewrite <- (ztake_zdrop _ n l) in H. apply fixed_app in H. tauto. Qed.

Local Transparent zlen ztake zdrop slice.
Lemma zlen_map : forall l, zlen (map phi l) = zlen l.
Proof. intros l. unfold zlen. rewrite map_length. reflexivity. Qed.
Lemma ztake_map : forall n l, ztake n (map phi l) = map phi (ztake n l).
Proof. intros n l. unfold ztake. apply firstn_map. Qed.
Lemma zdrop_map : forall n l, zdrop n (map phi l) = map phi (zdrop n l).
Proof. intros n l. unfold zdrop. apply skipn_map. Qed.
Lemma slice_map : forall l o n, slice (map phi l) o n = option_map (map phi) (slice l o n).
Proof. intros l o n. unfold slice. rewrite zlen_map, zdrop_map, ztake_map. destruct (_ && _); reflexivity. Qed.
Local Opaque zlen ztake zdrop slice.
Lemma append_map : forall cap t b, append_target cap (map phi t) (map phi b) = option_map (map phi) (append_target cap t b).
Proof. intros cap t b. unfold append_target. rewrite !zlen_map, <- map_app. destruct (_ <=? _); reflexivity. Qed.

Definition xm {A B} (f : A -> B) (r : xres A) : xres B :=
  match r with XOk a => XOk (f a) | XEod a => XEod (f a) | XErr => XErr | XUB => XUB | XFuel => XFuel end.

Lemma read_source_map : forall dict w t a n, read_source (map phi dict) w (map phi t) a n = option_map (map phi) (read_source dict w t a n).
Proof.
  intros dict w t a n. unfold read_source. destruct (w_kind w); try apply slice_map.
  change (@nil Z) with (map phi []) at 1. apply slice_map.
Qed.

Lemma copy_loop_map : forall f cap start t td a n, copy_loop f cap start (map phi t) td a n = xm (map phi) (copy_loop f cap start t td a n).
Proof.
  induction f as [|f IH]; intros cap start t td a n; cbn [copy_loop]; [reflexivity|]. cbv zeta.
  destruct (td - a <? n); rewrite slice_map.
  - destruct (slice t (start + a) (td - a)) as [bs|]; cbn [option_map]; [|reflexivity]. rewrite append_map.
    destruct (append_target cap t bs); cbn [option_map]; [|reflexivity]. apply IH.
  - destruct (slice t (start + a) n) as [bs|]; cbn [option_map]; [|reflexivity]. rewrite append_map.
    destruct (append_target cap t bs); reflexivity.
Qed.

Lemma copy_bytes_map : forall dict w start t a n, copy_bytes (map phi dict) w start (map phi t) a n = xm (map phi) (copy_bytes dict w start t a n).
Proof.
  intros dict w start t a n. unfold copy_bytes. cbv zeta. rewrite zlen_map. destruct (a + n <=? w_seglen w).
  { rewrite read_source_map. destruct (read_source dict w t a n); cbn [option_map]; [|reflexivity]. rewrite append_map.
    destruct (append_target _ t _); reflexivity. }
  destruct (a <? w_seglen w); [|apply copy_loop_map].
  rewrite read_source_map. destruct (read_source dict w t a _); cbn [option_map]; [|reflexivity]. rewrite append_map.
  destruct (append_target _ t _); cbn [option_map]; [|reflexivity]. apply copy_loop_map.
Qed.

Definition bmap (st : body) : body :=
  {| b_il := b_il st; b_inst := b_inst st; b_data := b_data st; b_addr := b_addr st;
     b_pending := b_pending st; b_cache := b_cache st; b_target := map phi (b_target st) |}.
Definition bfixed (st : body) : Prop := fixed (b_inst st) /\ fixed (b_data st) /\ fixed (b_addr st).

Lemma data_fixed : forall st, bfixed st -> fixed (data_of st).
Proof. intros st (A & B & C). unfold data_of. destruct (b_il st); assumption. Qed.

Lemma decode_add_map : forall w start st n, bfixed st -> decode_add w start (bmap st) n = xm bmap (decode_add w start st n).
Proof.
  intros w start st n F. unfold decode_add. change (data_of (bmap st)) with (data_of st). destruct (_ <? n); [reflexivity|].
  pose proof (fixed_take n _ (data_fixed st F)) as T. unfold fixed in T. cbn [bmap b_target]. rewrite <- T at 1. rewrite append_map.
  destruct (append_target _ (b_target st) _); reflexivity.
Qed.

Lemma decode_run_map : forall w start st n, bfixed st -> decode_run w start (bmap st) n = xm bmap (decode_run w start st n).
Proof.
  intros w start st n F. unfold decode_run. change (data_of (bmap st)) with (data_of st). pose proof (data_fixed st F) as D.
  destruct (data_of st) as [|b tl]; [reflexivity|]. cbn [bmap b_target]. unfold fixed in D. cbn [map] in D. injection D as D _.
  assert (zrepeat b n = map phi (zrepeat b n)) as E.
  { unfold zrepeat. induction (Z.to_nat n) as [|k IH]; [reflexivity|]. cbn [repeat map]. rewrite D. f_equal. exact IH. }
  rewrite E at 1. rewrite append_map. destruct (append_target _ (b_target st) _); reflexivity.
Qed.

Lemma decode_copy_map : forall dict w start st n m, decode_copy (map phi dict) w start (bmap st) n m = xm bmap (decode_copy dict w start st n m).
Proof.
  intros dict w start st n m. unfold decode_copy. cbv zeta. cbn [bmap b_target b_cache]. rewrite zlen_map. change (addr_of (bmap st)) with (addr_of st).
  destruct (decode_address _ _ _ _) as [[[a r] c]| | |]; try reflexivity. rewrite copy_bytes_map.
  destruct (copy_bytes dict w start (b_target st) a n); reflexivity.
Qed.

Lemma decode_instruction_map : forall dict w start st ty n m, bfixed st ->
  decode_instruction (map phi dict) w start (bmap st) ty n m = xm bmap (decode_instruction dict w start st ty n m).
Proof.
  intros dict w start st ty n m F. unfold decode_instruction.
  destruct (ty =? VCD_ADD); [apply decode_add_map; exact F|]. destruct (ty =? VCD_RUN); [apply decode_run_map; exact F|].
  destruct (ty =? VCD_COPY); [apply decode_copy_map|reflexivity].
Qed.

Lemma decode_instruction_fixed : forall dict w start st ty n m st', bfixed st ->
  decode_instruction dict w start st ty n m = XOk st' -> bfixed st'.
Proof.
  intros dict w start st ty n m st' (A & B & C) H. unfold decode_instruction in H.
  destruct (ty =? VCD_ADD); [|destruct (ty =? VCD_RUN); [|destruct (ty =? VCD_COPY); [|discriminate H]]].
  - unfold decode_add in H. destruct (_ <? n); [discriminate H|]. destruct (append_target _ _ _); [|discriminate H]. injection H as <-.
    unfold bfixed, with_data, data_of. cbn [b_inst b_data b_addr b_il]. destruct (b_il st); auto using fixed_drop.
  - unfold decode_run in H. destruct (data_of st) as [|b tl] eqn:D; [discriminate H|]. destruct (append_target _ _ _); [|discriminate H]. injection H as <-.
    unfold bfixed, with_data. cbn [b_inst b_data b_addr b_il]. unfold data_of in D. destruct (b_il st); rewrite D in *.
    + apply (fixed_app [b]) in A as [_ A]. split; [exact A|split; assumption].
    + apply (fixed_app [b]) in B as [_ B]. split; [exact A|split; assumption].
  - unfold decode_copy in H. destruct (decode_address _ _ _ _) as [[[a rest] c]| | |] eqn:D; try discriminate H.
    destruct (copy_bytes _ _ _ _ _ _); try discriminate H. injection H as <-. apply decode_address_suffix in D as (p & D & _).
    unfold bfixed, with_addr. cbn [b_inst b_data b_addr b_il]. unfold addr_of in D. destruct (b_il st); rewrite D in *.
    + apply fixed_app in A. tauto.
    + apply fixed_app in C. tauto.
Qed.

Lemma inst_loop_suffix : forall t inst p,
  match inst_loop t p inst with
  | inl (_, _, _, _, rest) | inr (_, rest) => exists q, inst = q ++ rest
  end.
Proof.
  intros t. induction inst as [|op tl IH]; intros [q|]; cbn [inst_loop]; try (exists []; reflexivity). cbv zeta.
  destruct (tget (inst1 t) op =? VCD_NOOP); [|exists [op]; reflexivity].
  specialize (IH (if tget (inst2 t) op =? VCD_NOOP then None else Some op)).
  destruct (inst_loop _ _ tl) as [[[[[ty k] m] p] rest]|[p rest]]; destruct IH as (q & ->); exists (op :: q); reflexivity.
Qed.

Lemma gni_suffix : forall t p inst,
  match get_next_instruction t p inst with
  | NI _ _ _ _ rest | NI_eod _ rest => exists q, inst = q ++ rest
  | NI_err => True
  end.
Proof.
  intros t p inst. unfold get_next_instruction. pose proof (inst_loop_suffix t inst p) as H.
  destruct (inst_loop t p inst) as [[[[[ty k] m] p'] rest]|[p' rest]]; [|exact H]. destruct (k =? 0); [|exact H].
  destruct H as (q & ->). destruct (parse I32 rest) as [[n r]| | |] eqn:P; [|exists []; reflexivity|exact I|exact I].
  apply parse_suffix in P as (q' & -> & _). exists (q ++ q'). apply app_assoc.
Qed.

Lemma body_loop_map : forall f dict t w start st, bfixed st ->
  body_loop f (map phi dict) t w start (bmap st) = xm bmap (body_loop f dict t w start st).
Proof.
  induction f as [|f IH]; intros dict t w start st F; cbn [body_loop]; cbn [bmap b_target b_pending b_inst]; rewrite zlen_map;
    (destruct (_ <? w_len w); [|reflexivity]); [reflexivity|].
  pose proof (gni_suffix t (b_pending st) (b_inst st)) as G.
  destruct (get_next_instruction _ _ _) as [ty n m p r|p r|]; try reflexivity. destruct (_ || _); [reflexivity|].
  change (with_inst (bmap st) p r) with (bmap (with_inst st p r)).
  assert (bfixed (with_inst st p r)) as F'.
  { destruct G as (q & G). destruct F as (A & B & C). unfold bfixed. cbn. rewrite G in A. apply fixed_app in A. tauto. }
  rewrite decode_instruction_map by exact F'.
  destruct (decode_instruction dict w start (with_inst st p r) ty n m) as [st'|st'| | |] eqn:D; cbn [xm]; try reflexivity.
  apply IH. eapply decode_instruction_fixed; eauto.
Qed.

Lemma decode_body_nc_map : forall dict t w start st, bfixed st ->
  decode_body_nc (map phi dict) t w start (bmap st) = xm bmap (decode_body_nc dict t w start st).
Proof.
  intros dict t w start st F. unfold decode_body_nc. change (body_fuel (bmap st)) with (body_fuel st). rewrite body_loop_map by exact F.
  destruct (body_loop _ _ _ _ _ _) as [st'|st'| | |]; cbn [xm]; try reflexivity. cbn [bmap b_target b_inst b_il b_data b_addr]. rewrite zlen_map.
  destruct (negb _); [reflexivity|]. destruct (nonempty _); [reflexivity|]. destruct (negb _ && _); reflexivity.
Qed.

(** The state with the other dictionary *)
Definition cm (k : core) : core :=
  {| d_started := d_started k; d_dict := map phi (d_dict k); d_unparsed := d_unparsed k; d_target := map phi (d_target k);
     d_version := d_version k; d_sizes := d_sizes k;
     d_string := d_string k; d_planned := d_planned k; d_max_file := d_max_file k; d_max_window := d_max_window k; d_total := d_total k;
     d_out_pos := d_out_pos k; d_allow := d_allow k; d_win := d_win k; d_start := d_start k; d_table := d_table k |}.
Definition pm (p : core * list Z) : core * list Z := (cm (fst p), snd p).

Lemma finish_window_nc_map : forall c total w st avail after, bfixed st ->
  finish_window_nc (cm c) total w (bmap st) avail after = xm pm (finish_window_nc c total w st avail after).
Proof.
  intros c total w st avail after F. unfold finish_window_nc. cbn [cm d_dict d_table d_start]. rewrite decode_body_nc_map by exact F.
  destruct (decode_body_nc _ _ _ _ _) as [st'|st'| | |]; cbn [xm]; try reflexivity; cbv zeta; cbn [bmap b_inst b_il b_target b_pending b_cache].
  - rewrite zlen_map. reflexivity.
  - destruct (_ && _); reflexivity.
Qed.


Lemma parse_size_fixed : forall l v rest, parse_size l = Ok (v, rest) -> fixed l -> fixed rest.
Proof. intros l v rest H F. unfold parse_size in H. apply parse_suffix in H as (p & -> & _). apply fixed_app in F. tauto. Qed.

Lemma parse_segment_fixed : forall n l len pos rest, parse_source_segment n l = Ok (len, pos, rest) -> fixed l -> fixed rest.
Proof.
  intros n l len pos rest H F. unfold parse_source_segment in H. destruct (parse_size l) as [[v l1]| | |] eqn:P1; cbn [bind] in H; try discriminate H.
  destruct (n <? v); [discriminate H|]. destruct (parse_size l1) as [[v2 l2]| | |] eqn:P2; cbn [bind] in H; try discriminate H.
  destruct (_ && _); [discriminate H|]. destruct (_ <? _); [discriminate H|]. injection H as _ _ <-.
  eapply parse_size_fixed; [exact P2|]. eapply parse_size_fixed; [exact P1|exact F].
Qed.

Lemma parse_win_fixed : forall ds ts al l x rest, parse_win_indicator ds ts al l = Ok (x, rest) -> fixed l -> fixed rest.
Proof.
  intros ds ts al l x rest H F. unfold parse_win_indicator in H. destruct l as [|ind tl]; [discriminate H|]. cbn [parse_byte bind] in H.
  apply (fixed_app [ind]) in F as [_ F]. destruct (Z.testbit ind 0), (Z.testbit ind 1).
  - discriminate H.
  - destruct (parse_source_segment ds tl) as [[[len pos] r]| | |] eqn:P; cbn [bind] in H; try discriminate H.
    apply parse_segment_fixed in P; [|exact F]. congruence.
  - destruct (negb al); [discriminate H|]. destruct (parse_source_segment ts tl) as [[[len pos] r]| | |] eqn:P; cbn [bind] in H; try discriminate H.
    apply parse_segment_fixed in P; [|exact F]. congruence.
  - congruence.
Qed.

Lemma parse_sections_fixed : forall h n start l x rest, parse_section_lengths h n start l = Ok (x, rest) -> fixed l -> fixed rest.
Proof.
  intros h n start l x rest H F. unfold parse_section_lengths in H.
  destruct (parse_size l) as [[v1 l1]| | |] eqn:P1; cbn [bind] in H; try discriminate H. apply parse_size_fixed in P1; [|exact F].
  destruct (parse_size l1) as [[v2 l2]| | |] eqn:P2; cbn [bind] in H; try discriminate H. apply parse_size_fixed in P2; [|exact P1].
  destruct (parse_size l2) as [[v3 l3]| | |] eqn:P3; cbn [bind] in H; try discriminate H. apply parse_size_fixed in P3; [|exact P2].
  assert (forall v l4, (if h then parse_checksum l3 else Ok (0, l3)) = Ok (v, l4) -> fixed l4) as Q.
  { intros v l4 E. destruct h; [|congruence]. unfold parse_checksum in E. destruct (parse I64 l3) as [[u r]| | |] eqn:P4; cbn [bind] in E; try discriminate E.
    destruct (_ <? u); [discriminate E|]. apply parse_suffix in P4 as (p & -> & _). apply fixed_app in P3. assert (r = l4) as <- by congruence. tauto. }
  destruct (if h then parse_checksum l3 else Ok (0, l3)) as [[v4 l4]| | |]; cbn [bind] in H; try discriminate H.
  specialize (Q v4 l4 eq_refl). destruct (_ =? _); [|discriminate H]. congruence.
Qed.

Definition hm (r : res (window * body * list Z * list Z)) : res (window * body * list Z * list Z) :=
  match r with Ok (w, st, after, l) => Ok (w, bmap st, after, l) | Eod => Eod | Err => Err | UB => UB end.

Lemma read_header_map : forall c data, read_header (cm c) data = hm (read_header c data).
Proof.
  intros c data. unfold read_header. change (allow_extensions (cm c)) with (allow_extensions c). cbn [cm d_dict d_target d_allow d_sizes]. rewrite !zlen_map.
  destruct (parse_win_indicator _ _ _ data) as [[[[[ind kind] seglen] pos] l]| | |]; cbn [bind]; try reflexivity.
  destruct (parse_size l) as [[dl start]| | |]; cbn [bind]; try reflexivity.
  destruct (parse_size start) as [[tl l2]| | |]; cbn [bind]; try reflexivity.
  change (would_exceed (cm c) tl) with (would_exceed c tl). destruct (would_exceed c tl); [reflexivity|].
  destruct (parse_delta_indicator l2) as [l3| | |]; cbn [bind]; try reflexivity.
  destruct (parse_section_lengths _ dl start l3) as [[[[[nd ni] na] cks] l4]| | |]; cbn [bind]; try reflexivity. cbv zeta.
  destruct (_ && _); [reflexivity|]. destruct (d_sizes c) as [[ns ss]|]; [|reflexivity]. destruct (cache_init ns ss); [|reflexivity].
  cbn [hm]. destruct (allow_extensions c && (nd =? 0) && (na =? 0)); reflexivity.
Qed.

Lemma read_header_fixed : forall c data w st after l, read_header c data = Ok (w, st, after, l) -> fixed data -> bfixed st /\ fixed after /\ fixed l.
Proof.
  intros c data w st after l H F. unfold read_header in H.
  destruct (parse_win_indicator _ _ _ data) as [[[[[ind kind] seglen] pos] l1]| | |] eqn:P1; cbn [bind] in H; try discriminate H.
  apply parse_win_fixed in P1; [|exact F].
  destruct (parse_size l1) as [[dl start]| | |] eqn:P2; cbn [bind] in H; try discriminate H. apply parse_size_fixed in P2; [|exact P1].
  destruct (parse_size start) as [[tl l2]| | |] eqn:P3; cbn [bind] in H; try discriminate H. apply parse_size_fixed in P3; [|exact P2].
  destruct (would_exceed c tl); [discriminate H|].
  destruct (parse_delta_indicator l2) as [l3| | |] eqn:P4; cbn [bind] in H; try discriminate H.
  assert (fixed l3) as F3.
  { unfold parse_delta_indicator in P4. destruct l2 as [|b l2]; [discriminate P4|]. cbn [parse_byte bind] in P4. destruct (_ =? 0); [|discriminate P4].
    apply (fixed_app [b]) in P3. assert (l2 = l3) as <- by congruence. tauto. }
  destruct (parse_section_lengths _ dl start l3) as [[[[[nd ni] na] cks] l4]| | |] eqn:P5; cbn [bind] in H; try discriminate H.
  apply parse_sections_fixed in P5; [|exact F3]. cbv zeta in H.
  destruct (negb _ && _); [discriminate H|]. destruct (d_sizes c) as [[ns ss]|]; [|discriminate H]. destruct (cache_init ns ss); [|discriminate H].
  set (il := allow_extensions c && (nd =? 0) && (na =? 0)) in H. clearbody il.
  assert (st = if il then {| b_il := true; b_inst := ztake ni l4; b_data := []; b_addr := []; b_pending := None; b_cache := c0; b_target := d_target c |}
     else {| b_il := false; b_inst := ztake ni (zdrop nd l4); b_data := ztake nd l4; b_addr := ztake na (zdrop (nd + ni) l4); b_pending := None; b_cache := c0; b_target := d_target c |}) as -> by congruence.
  assert (after = zdrop (nd + ni + na) l4) as -> by congruence. assert (l = l4) as -> by congruence.
  split; [|split; [apply fixed_drop|]; exact P5]. unfold bfixed. destruct il; cbn; (split; [|split]); try reflexivity; repeat (apply fixed_take || apply fixed_drop); exact P5.
Qed.

Lemma finish_window_nc_fixed : forall c total w st avail after, fixed avail -> fixed after ->
  match finish_window_nc c total w st avail after with XOk (_, r) | XEod (_, r) => fixed r | _ => True end.
Proof.
  intros c total w st avail after A B. unfold finish_window_nc. destruct (decode_body_nc _ _ _ _ _) as [st'|st'| | |]; try exact I; cbv zeta.
  - destruct (b_il st); auto using fixed_drop.
  - destruct (_ && _); [|exact I]. auto using fixed_drop.
Qed.

Lemma decode_window_nc_map : forall c data, fixed data ->
  decode_window_nc (cm c) data = xm pm (decode_window_nc c data) /\
  match decode_window_nc c data with XOk (_, r) | XEod (_, r) => fixed r | _ => True end.
Proof.
  intros c data F. unfold decode_window_nc. change (d_win (cm c)) with (d_win c). destruct (d_win c) as [w|].
  - split.
    + change (resumed (cm c) w data) with (bmap (resumed c w data)). apply finish_window_nc_map. unfold bfixed. cbn.
      split; [apply fixed_take; exact F|split; reflexivity].
    + apply finish_window_nc_fixed; [exact F|reflexivity].
  - rewrite read_header_map. destruct (read_header c data) as [[[[w st] after] l]| | |] eqn:RH; cbn [hm xm]; try (split; [reflexivity|auto]).
    destruct (read_header_fixed _ _ _ _ _ _ RH F) as (A & B & C). split; [apply finish_window_nc_map; exact A|apply finish_window_nc_fixed; auto].
Qed.

Definition lm (r : xres (core * list Z) * list Z) : xres (core * list Z) * list Z := (xm pm (fst r), map phi (snd r)).

Lemma window_loop_nc_map : forall f c data out, fixed data ->
  window_loop_nc f (cm c) data (map phi out) = lm (window_loop_nc f c data out) /\
  match fst (window_loop_nc f c data out) with XOk (_, r) | XEod (_, r) => fixed r | _ => True end.
Proof.
  induction f as [|f IH]; intros c data out F; (destruct data as [|b data]; [split; reflexivity|]); cbn [window_loop_nc].
  - split; [reflexivity|exact I].
  - destruct (decode_window_nc_map c (b :: data) F) as [E R]. rewrite E.
    destruct (decode_window_nc c (b :: data)) as [[c' rest]|[c' rest]| | |]; cbn [xm pm fst snd]; try (split; [reflexivity|auto]).
    change (reached_planned (cm c')) with (reached_planned c'). destruct (reached_planned c'); [split; [reflexivity|exact R]|].
    change (d_allow (cm c')) with (d_allow c'). destruct (d_allow c'); [apply IH; exact R|].
    unfold flush_target. cbn [cm d_out_pos d_target]. rewrite zdrop_map, <- map_app.
    change (set_target_out (cm c') [] 0 0) with (cm (set_target_out c' [] 0 0)). apply IH. exact R.
Qed.

Definition dm (d : dec) : dec := let '(Dec c n) := d in Dec (cm c) n.
Definition rm (r : cres) : cres := match r with CRet d b o => CRet (dm d) b (map phi o) | CUB => CUB | CFuel => CFuel end.

Lemma chunk_done_map : forall c n rest out, chunk_done (cm c) n rest (map phi out) = rm (chunk_done c n rest out).
Proof.
  intros c n rest out. unfold chunk_done, append_new_output. cbn [set_unparsed cm d_target d_out_pos d_start rm]. rewrite zlen_map, zdrop_map, <- map_app. reflexivity.
Qed.
Lemma reset_map : forall c, reset (cm c) = cm (reset c).
Proof. intros c. unfold reset, cm. cbn. rewrite zlen_map. reflexivity. Qed.
Lemma chunk_failed_map : forall c out, chunk_failed (cm c) (map phi out) = rm (chunk_failed c out).
Proof. intros c out. unfold chunk_failed. rewrite reset_map. reflexivity. Qed.

Definition unparsed_fixed (d : dec) : Prop := let '(Dec c _) := d in fixed (d_unparsed c).
Definition rfixed (r : cres) : Prop := match r with CRet d true _ => unparsed_fixed d | _ => True end.

Lemma chunk_windows_nc_map : forall c data, fixed data ->
  chunk_windows_nc (cm c) data = rm (chunk_windows_nc c data) /\ rfixed (chunk_windows_nc c data).
Proof.
  intros c data F. unfold chunk_windows_nc. destruct (window_loop_nc_map (S (length data)) c data [] F) as [E R].
  change (map phi []) with (@nil Z) in E. rewrite E. destruct (window_loop_nc _ c data []) as [[[c' rest]|[c' rest]| | |] out]; cbn [lm xm pm fst snd] in *;
    try (split; [reflexivity|exact I]).
  - split; [apply chunk_done_map|exact R].
  - split; [apply chunk_done_map|exact R].
  - split; [apply chunk_failed_map|exact I].
Qed.

Lemma read_file_header_map : forall d data, fixed data ->
  read_file_header (dm d) data = match read_file_header d data with Ok (d', rest) => Ok (dm d', rest) | Eod => Eod | Err => Err | UB => UB end /\
  match read_file_header d data with Ok (_, rest) => fixed rest | _ => True end.
Proof.
  intros [c n] data F. cbn [dm read_file_header]. change (d_sizes (cm c)) with (d_sizes c). destruct (d_sizes c); [split; [reflexivity|exact F]|].
  destruct (check_magic data); cbn [bind]; try (split; [reflexivity|exact I]). cbv zeta.
  destruct (Z.testbit _ 0); [split; [reflexivity|exact I]|]. destruct (Z.testbit _ 1).
  - destruct (parse_cache_sizes (zdrop 5 data)) as [[[ns ss] rest]| | |] eqn:P; cbn [bind]; (split; [reflexivity|try exact I]).
    unfold parse_cache_sizes in P. destruct (parse_size (zdrop 5 data)) as [[v l]| | |] eqn:P1; cbn [bind] in P; try discriminate P.
    destruct (parse_size l) as [[v2 l2]| | |] eqn:P2; cbn [bind] in P; try discriminate P. destruct (_ || _); [discriminate P|].
    assert (l2 = rest) as <- by congruence. eapply parse_size_fixed; [exact P2|]. eapply parse_size_fixed; [exact P1|]. apply fixed_drop. exact F.
  - split; [reflexivity|apply fixed_drop; exact F].
Qed.

Lemma chunk_fuel_map : forall d data, chunk_fuel (dm d) data = chunk_fuel d data.
Proof. intros [c [nd|]] data; reflexivity. Qed.

Lemma decode_chunk_nc_map : forall d data, fixed data -> unparsed_fixed d ->
  decode_chunk_nc (dm d) data = rm (decode_chunk_nc d data) /\ rfixed (decode_chunk_nc d data).
Proof.
  intros [c0 n0] data F U. unfold decode_chunk_nc, chunk_with. rewrite chunk_fuel_map. generalize (pred (chunk_fuel (Dec c0 n0) data)) as f. intros f.
  cbn [dm]. change (d_started (cm c0)) with (d_started c0). destruct (negb (d_started c0)).
  { split; [exact (chunk_failed_map c0 [])|exact I]. }
  cbv zeta. change (d_unparsed (cm c0)) with (d_unparsed c0). pose proof (fixed_both _ _ U F) as FC. set (chunk := d_unparsed c0 ++ data) in *.
  destruct (read_file_header_map (Dec c0 n0) chunk FC) as [E R]. cbn [dm] in E. rewrite E.
  destruct (read_file_header (Dec c0 n0) chunk) as [[[c n] rest]| | |]; cbn [dm].
  - destruct n as [nd|]; [|apply chunk_windows_nc_map; exact R].
    destruct (decode_chunk_fuel f nd rest) as [nd' [|] o| |]; try (split; [reflexivity|exact I]).
    + change (d_string (cm c)) with (d_string c). destruct (_ <? 1536).
      { split; [exact (chunk_done_map (set_file c (d_version c) (d_sizes c) (d_string c ++ o) (d_table c)) (Some nd') [] [])|]. cbn. reflexivity. }
      destruct (finish_decoding nd') as [[nc x] fin]. destruct (negb fin); [split; [exact (chunk_failed_map c [])|exact I]|].
      destruct (negb _); [split; [exact (chunk_failed_map c [])|exact I]|].
      change (d_sizes (cm c)) with (d_sizes c). change (d_table (cm c)) with (d_table c). destruct (d_sizes c) as [[ns ss]|]; [|split; [reflexivity|exact I]].
      destruct (use_code_table _ _ _) as [[t b]|]; [|split; [reflexivity|exact I]].
      apply (chunk_windows_nc_map (set_file c (d_version c) (Some (ns, ss)) [] t)). unfold finish_except. destruct (_ <? _); [reflexivity|apply fixed_drop; exact R].
    + split; [exact (chunk_failed_map c [])|exact I].
  - split; [exact (chunk_done_map c0 n0 chunk [])|exact FC].
  - split; [exact (chunk_failed_map c0 [])|exact I].
  - split; [reflexivity|exact I].
Qed.

Lemma decode_chunks_nc_map : forall chunks d out, Forall fixed chunks -> unparsed_fixed d ->
  decode_chunks_nc (dm d) chunks (map phi out) =
  match decode_chunks_nc d chunks out with Some (d', b, o) => Some (dm d', b, map phi o) | None => None end.
Proof.
  induction chunks as [|x tl IH]; intros d out F U; cbn [decode_chunks_nc]; [reflexivity|]. inversion F as [|? ? F1 F2]; subst.
  destruct (decode_chunk_nc_map d x F1 U) as [E R]. rewrite E. destruct (decode_chunk_nc d x) as [d' [|] o| |]; cbn [rm]; try reflexivity.
  - rewrite <- map_app. apply IH; assumption.
  - rewrite <- map_app. reflexivity.
Qed.

Lemma decode_stream_nc_map : forall c n dict chunks, d_started c = false -> Forall fixed chunks ->
  decode_stream_nc (Dec c n) (map phi dict) chunks =
  match decode_stream_nc (Dec c n) dict chunks with Some (b, o) => Some (b, map phi o) | None => None end.
Proof.
  intros c n dict chunks S F. unfold decode_stream_nc. cbn [start_decoding]. rewrite S.
  pose proof (decode_chunks_nc_map chunks (Dec (start_core c dict) None) [] F eq_refl) as E. cbn [dm map] in E.
  change (cm (start_core c dict)) with (start_core c (map phi dict)) in E. rewrite E. clear E.
  destruct (decode_chunks_nc (Dec (start_core c dict) None) chunks []) as [[[[c' n'] [|]] o]|]; reflexivity.
Qed.
End Natural.

(** ** With verification of checksums *)

Definition begins (a b : list Z) : Prop := exists x, b = a ++ x.
Lemma begins_refl : forall a, begins a a.
Proof. intros a. exists []. rewrite app_nil_r. reflexivity. Qed.
Lemma begins_trans : forall a b c, begins a b -> begins b c -> begins a c.
Proof. intros a b c (x & ->) (y & ->). exists (x ++ y). apply eq_sym, app_assoc. Qed.
Lemma begins_app : forall a b, begins a (a ++ b).
Proof. intros a b. exists b. reflexivity. Qed.
Lemma begins_under : forall a b c, begins b c -> begins (a ++ b) (a ++ c).
Proof. intros a b c (x & ->). exists x. apply app_assoc. Qed.

Lemma decode_body_either : forall dict t w start st,
  decode_body dict t w start st = decode_body_nc dict t w start st \/ (w_has_cks w = true /\ decode_body dict t w start st = XErr).
Proof.
  intros dict t w start st. unfold decode_body, decode_body_nc. destruct (body_loop _ _ _ _ _ _) as [st'|st'| | |]; auto.
  destruct (negb (_ =? w_len w)); auto. destruct (w_has_cks w); cbn [andb]; auto. destruct (negb _); auto.
Qed.

Lemma finish_window_either : forall c total w st avail after,
  finish_window c total w st avail after = finish_window_nc c total w st avail after \/
  (w_has_cks w = true /\ finish_window c total w st avail after = XErr).
Proof.
  intros c total w st avail after. unfold finish_window, finish_window_nc.
  destruct (decode_body_either (d_dict c) (d_table c) w (d_start c) st) as [->|[H ->]]; auto.
Qed.

Definition may_check (c : core) : Prop :=
  match d_win c with Some w => w_has_cks w = true | None => d_version c = 83 end.

Lemma read_header_cks : forall c data w st after l, read_header c data = Ok (w, st, after, l) -> w_has_cks w = true -> d_version c = 83.
Proof.
  intros c data w st after l H. unfold read_header in H.
  destruct (parse_win_indicator _ _ _ _) as [[[[[ind kind] seglen] pos] l0]| | |]; try discriminate H. cbn [bind] in H.
  destruct (parse_size l0) as [[delta_len start]| | |]; try discriminate H. cbn [bind] in H.
  destruct (parse_size start) as [[target_len l1]| | |]; try discriminate H. cbn [bind] in H.
  destruct (would_exceed c target_len) eqn:W; [discriminate H|].
  destruct (parse_delta_indicator l1) as [l2| | |]; try discriminate H. cbn [bind] in H.
  destruct (parse_section_lengths _ _ _ _) as [[[[[nd ni] na] cks] l3]| | |]; try discriminate H. cbn [bind] in H. cbv zeta in H.
  destruct (negb _ && _); [discriminate H|]. destruct (d_sizes c) as [[ns ss]|]; [|discriminate H].
  destruct (cache_init ns ss) as [ca|]; [|discriminate H]. injection H as <- _ _ _. cbn [w_has_cks]. unfold allow_extensions. lia.
Qed.

Lemma decode_window_either : forall c data,
  decode_window c data = decode_window_nc c data \/ (may_check c /\ decode_window c data = XErr).
Proof.
  intros c data. unfold decode_window, decode_window_nc, may_check. destruct (d_win c) as [w|].
  - apply finish_window_either.
  - destruct (read_header c data) as [[[[w st] after] l]| | |] eqn:RH; auto.
    destruct (finish_window_either c (to_size (d_total c + w_len w)) w st l after) as [E|[E1 E2]]; auto.
    right. split; [|exact E2]. eapply read_header_cks; eauto.
Qed.

Lemma window_loop_nc_out : forall f c data out, begins out (snd (window_loop_nc f c data out)).
Proof.
  induction f as [|f IH]; intros c data out; (destruct data as [|b data]; [apply begins_refl|]); cbn [window_loop_nc]; [apply begins_refl|].
  destruct (decode_window_nc c (b :: data)) as [[c' rest]|[c' rest]| | |]; try apply begins_refl.
  destruct (reached_planned c'); [apply begins_refl|]. destruct (d_allow c'); [apply IH|]. unfold flush_target. cbn [fst snd].
  eapply begins_trans; [|apply IH]. apply begins_app.
Qed.

Lemma window_loop_either : forall f c data out,
  window_loop f c data out = window_loop_nc f c data out \/
  exists o, window_loop f c data out = (XErr, o) /\ begins o (snd (window_loop_nc f c data out)).
Proof.
  induction f as [|f IH]; intros c data out; (destruct data as [|b data]; [left; reflexivity|]); [left; reflexivity|].
  destruct (decode_window_either c (b :: data)) as [E|[_ E]].
  - cbn [window_loop window_loop_nc]. rewrite E. destruct (decode_window_nc c (b :: data)) as [[c' rest]|[c' rest]| | |]; try (left; reflexivity).
    destruct (reached_planned c'); [left; reflexivity|]. destruct (d_allow c'); [apply IH|]. unfold flush_target. cbv zeta. apply IH.
  - right. exists out. split; [|apply (window_loop_nc_out (S f))]. cbn [window_loop]. rewrite E. reflexivity.
Qed.

Definition rejected (r rn : cres) : Prop :=
  exists d o, r = CRet d false o /\ match rn with CRet _ _ o' => begins o o' | _ => True end.

Lemma chunk_windows_either : forall c data, chunk_windows c data = chunk_windows_nc c data \/ rejected (chunk_windows c data) (chunk_windows_nc c data).
Proof.
  intros c data. unfold chunk_windows, chunk_windows_nc. destruct (window_loop_either (S (length data)) c data []) as [->|(o & -> & B)]; [left; reflexivity|].
  right. destruct (window_loop_nc _ c data []) as [[[c' rest]|[c' rest]| | |] out]; cbn [snd] in B; exists (Dec (reset c) None), o; (split; [reflexivity|]); auto.
  - unfold chunk_done. destruct (append_new_output _) as [c2 o2]. eapply begins_trans; [exact B|apply begins_app].
  - unfold chunk_done. destruct (append_new_output _) as [c2 o2]. eapply begins_trans; [exact B|apply begins_app].
Qed.

Lemma decode_chunk_either : forall d data, decode_chunk d data = decode_chunk_nc d data \/ rejected (decode_chunk d data) (decode_chunk_nc d data).
Proof.
  intros [c0 n0] data. rewrite chunk_with_eq. unfold decode_chunk_nc, chunk_with. destruct (negb _); [left; reflexivity|]. cbv zeta.
  destruct (read_file_header _ _) as [[[c [nd|]] rest]| | |]; try (left; reflexivity); [|apply chunk_windows_either].
  destruct (decode_chunk_fuel _ nd rest) as [nd' [|] o| |]; try (left; reflexivity).
  destruct (_ <? 1536); [left; reflexivity|]. destruct (finish_decoding nd') as [[nc x] fin].
  destruct (negb fin); [left; reflexivity|]. destruct (negb _); [left; reflexivity|]. destruct (d_sizes c) as [[ns ss]|]; [|left; reflexivity].
  destruct (use_code_table _ _ _) as [[t b]|]; [|left; reflexivity]. apply chunk_windows_either.
Qed.

Lemma decode_chunks_nc_out : forall chunks d out, match decode_chunks_nc d chunks out with Some (_, _, o) => begins out o | None => True end.
Proof.
  induction chunks as [|x tl IH]; intros d out; cbn [decode_chunks_nc]; [apply begins_refl|].
  destruct (decode_chunk_nc d x) as [d' [|] o| |]; auto; [|apply begins_app]. specialize (IH d' (out ++ o)).
  destruct (decode_chunks_nc d' tl (out ++ o)) as [[[d2 b2] o2]|]; auto. eapply begins_trans; [apply begins_app|exact IH].
Qed.

Lemma decode_chunks_either : forall chunks d out,
  decode_chunks d chunks out = decode_chunks_nc d chunks out \/
  exists d' o, decode_chunks d chunks out = Some (d', false, o) /\ match decode_chunks_nc d chunks out with Some (_, _, o') => begins o o' | None => True end.
Proof.
  induction chunks as [|x tl IH]; intros d out; cbn [decode_chunks decode_chunks_nc]; [left; reflexivity|].
  destruct (decode_chunk_either d x) as [->|(d1 & o1 & -> & B)].
  - destruct (decode_chunk_nc d x) as [d' [|] o| |]; try (left; reflexivity). apply IH.
  - right. exists d1, (out ++ o1). split; [reflexivity|]. destruct (decode_chunk_nc d x) as [d' [|] o| |]; auto.
    + pose proof (decode_chunks_nc_out tl d' (out ++ o)) as H. destruct (decode_chunks_nc d' tl (out ++ o)) as [[[d2 b2] o2]|]; auto.
      eapply begins_trans; [|exact H]. apply begins_under. exact B.
    + apply begins_under. exact B.
Qed.

Lemma decode_stream_either : forall d dict chunks,
  decode_stream d dict chunks = decode_stream_nc d dict chunks \/
  exists o, decode_stream d dict chunks = Some (false, o) /\ match decode_stream_nc d dict chunks with Some (_, o') => begins o o' | None => True end.
Proof.
  intros d dict chunks. unfold decode_stream, decode_stream_nc. destruct (decode_chunks_either chunks (start_decoding d dict) []) as [->|(d' & o & -> & B)]; [left; reflexivity|].
  right. exists o. split; [reflexivity|]. destruct (decode_chunks_nc _ _ _) as [[[d2 [|]] o2]|]; auto.
Qed.

(** ** Without extensions there is no verification *)

Definition calm (c : core) : Prop := d_version c <> 83 /\ match d_win c with Some w => w_has_cks w = false | None => True end.

Lemma finish_window_nc_calm : forall c total w st avail after, d_version c <> 83 -> w_has_cks w = false ->
  match finish_window_nc c total w st avail after with XOk (c', _) | XEod (c', _) => calm c' | _ => True end.
Proof.
  intros c total w st avail after V W. unfold finish_window_nc. destruct (decode_body_nc _ _ _ _ _) as [st'|st'| | |]; try exact I; cbv zeta.
  - split; [exact V|exact I].
  - destruct (_ && _); [|exact I]. split; [exact V|exact W].
Qed.

Lemma decode_window_calm : forall c data, calm c -> decode_window c data = decode_window_nc c data /\
  match decode_window_nc c data with XOk (c', _) | XEod (c', _) => calm c' | _ => True end.
Proof.
  intros c data CA. pose proof CA as [V W]. split.
  - destruct (decode_window_either c data) as [E|[M _]]; [exact E|]. exfalso. unfold may_check in M. destruct (d_win c); congruence.
  - unfold decode_window_nc. destruct (d_win c) as [w|]; [apply finish_window_nc_calm; auto|].
    destruct (read_header c data) as [[[[w st] after] l]| | |] eqn:RH; auto. apply finish_window_nc_calm; [exact V|].
    pose proof (read_header_cks _ _ _ _ _ _ RH). destruct (w_has_cks w); tauto.
Qed.

Lemma window_loop_calm : forall f c data out, calm c -> window_loop f c data out = window_loop_nc f c data out /\
  match fst (window_loop_nc f c data out) with XOk (c', _) | XEod (c', _) => calm c' | _ => True end.
Proof.
  induction f as [|f IH]; intros c data out CA; (destruct data as [|b data]; [split; [reflexivity|exact CA]|]); [split; [reflexivity|exact I]|].
  cbn [window_loop window_loop_nc]. destruct (decode_window_calm c (b :: data) CA) as [-> CA'].
  destruct (decode_window_nc c (b :: data)) as [[c' rest]|[c' rest]| | |]; try (split; [reflexivity|auto]).
  destruct (reached_planned c'); [split; [reflexivity|exact CA']|]. destruct (d_allow c'); [apply IH; exact CA'|]. unfold flush_target. cbv zeta. apply IH.
  destruct CA' as [V W]. split; [exact V|exact W].
Qed.

Definition dcalm (d : dec) : Prop := let '(Dec c _) := d in calm c /\ d_sizes c <> None.

Lemma decode_window_nc_sizes : forall c data, match decode_window_nc c data with XOk (c', _) | XEod (c', _) => d_sizes c' = d_sizes c | _ => True end.
Proof.
  assert (forall c total w st avail after, match finish_window_nc c total w st avail after with XOk (c', _) | XEod (c', _) => d_sizes c' = d_sizes c | _ => True end) as FW.
  { intros c total w st avail after. unfold finish_window_nc. destruct (decode_body_nc _ _ _ _ _) as [st'|st'| | |]; try exact I; cbv zeta; [reflexivity|].
    destruct (_ && _); [reflexivity|exact I]. }
  intros c data. unfold decode_window_nc. destruct (d_win c) as [w|]; [apply FW|].
  destruct (read_header c data) as [[[[w st] after] l]| | |]; auto. apply FW.
Qed.

Lemma window_loop_nc_sizes : forall f c data out,
  match fst (window_loop_nc f c data out) with XOk (c', _) | XEod (c', _) => d_sizes c' = d_sizes c | _ => True end.
Proof.
  induction f as [|f IH]; intros c data out; (destruct data as [|b data]; [reflexivity|]); [exact I|]. cbn [window_loop_nc].
  pose proof (decode_window_nc_sizes c (b :: data)) as S. destruct (decode_window_nc c (b :: data)) as [[c' rest]|[c' rest]| | |]; auto.
  destruct (reached_planned c'); [exact S|]. destruct (d_allow c').
  - specialize (IH c' rest out). rewrite S in IH. exact IH.
  - unfold flush_target. cbv zeta. specialize (IH (set_target_out c' [] 0 0) rest (out ++ zdrop (d_out_pos c') (d_target c'))).
    cbn [set_target_out d_sizes] in IH. rewrite S in IH. exact IH.
Qed.

Lemma chunk_windows_calm : forall c data, calm c -> d_sizes c <> None -> chunk_windows c data = chunk_windows_nc c data /\
  match chunk_windows_nc c data with CRet d true _ => dcalm d | _ => True end.
Proof.
  intros c data CA NS. unfold chunk_windows, chunk_windows_nc. destruct (window_loop_calm (S (length data)) c data [] CA) as [-> CA'].
  pose proof (window_loop_nc_sizes (S (length data)) c data []) as S.
  destruct (window_loop_nc _ c data []) as [[[c' rest]|[c' rest]| | |] out]; cbn [fst] in *; (split; [reflexivity|]); try exact I.
  - destruct CA' as [V W]. split; [split; [exact V|exact W]|]. cbn. congruence.
  - destruct CA' as [V W]. split; [split; [exact V|exact W]|]. cbn. congruence.
Qed.

(** What is left of the input, beginning with what the decoder keeps, does not begin with a header of version 'S' *)
Definition not_s (X : list Z) : Prop := forall ind tl, X <> [214; 195; 196; 83; ind] ++ tl.

Definition stays (d : dec) (rest : list Z) : Prop :=
  let '(Dec c _) := d in
  match d_sizes c with Some _ => calm c | None => d_win c = None /\ not_s (d_unparsed c ++ rest) end.

Lemma check_magic_inv : forall data u, check_magic data = Ok u -> exists v ind tl, data = [214; 195; 196; v; ind] ++ tl.
Proof.
  intros data u H. unfold check_magic in H. cbv zeta in H.
  destruct data as [|b0 [|b1 [|b2 [|b3 [|b4 tl]]]]]; cbn [nth] in H; rewrite ?zlen_cons, ?zlen_nil in H.
  1-5: exfalso; repeat (destruct (_ && _) in H; [discriminate H|]); repeat (destruct (_ || _) in H; [discriminate H|]); cbn in H; discriminate H.
  pose proof (zlen_nonneg _ tl).
  destruct ((4 <=? _) && _ && _) eqn:E1; [discriminate H|]. destruct (_ || _) eqn:E2; [discriminate H|].
  exists b3, b4, tl. cbn [app]. repeat f_equal; lia.
Qed.

Lemma decode_chunk_calm : forall d x rest, stays d (x ++ rest) -> decode_chunk d x = decode_chunk_nc d x /\
  match decode_chunk_nc d x with CRet d' true _ => stays d' rest | _ => True end.
Proof.
  intros [c0 n0] x rest0 ST. rewrite chunk_with_eq. unfold decode_chunk_nc, chunk_with. generalize (pred (chunk_fuel (Dec c0 n0) x)) as f. intros f.
  destruct (negb (d_started c0)); [split; [reflexivity|exact I]|]. cbv zeta.
  assert (forall c r, dcalm (Dec c None) -> chunk_windows c r = chunk_windows_nc c r /\ match chunk_windows_nc c r with CRet d' true _ => stays d' rest0 | _ => True end) as CW.
  { intros c r [CA NS]. destruct (chunk_windows_calm c r CA NS) as [E H]. split; [exact E|].
    destruct (chunk_windows_nc c r) as [[c' n'] [|] o| |]; auto. destruct H as [H1 H2]. unfold stays. destruct (d_sizes c'); [exact H1|congruence]. }
  set (chunk := d_unparsed c0 ++ x).
  assert (match read_file_header (Dec c0 n0) chunk with Ok (Dec c n, _) => dcalm (Dec c n) | Eod => d_sizes c0 = None | _ => True end) as RF.
  { unfold stays in ST. cbn [read_file_header]. destruct (d_sizes c0) as [q|] eqn:SZ; [split; [exact ST|congruence]|]. destruct ST as [NW NS].
    destruct (check_magic chunk) as [u| | |] eqn:CM; cbn [bind]; auto. cbv zeta.
    destruct (check_magic_inv _ _ CM) as (v & ind & tl & E).
    assert (v <> 83) as NV. { intros ->. apply (NS ind (tl ++ rest0)). unfold chunk in E. rewrite app_assoc, E. reflexivity. }
    destruct (Z.testbit _ 0); auto. destruct (Z.testbit _ 1).
    - destruct (parse_cache_sizes _) as [[[ns ss] r]| | |]; cbn [bind]; auto. rewrite E. cbn.
      split; [|discriminate]. split; [exact NV|]. cbn. rewrite NW. exact I.
    - rewrite E. cbn. split; [|discriminate]. split; [exact NV|]. cbn. rewrite NW. exact I. }
  destruct (read_file_header (Dec c0 n0) chunk) as [[[c n] r]| | |].
  - destruct n as [nd|]; [|apply CW; exact RF].
    destruct (decode_chunk_fuel f nd r) as [nd' [|] o| |]; try (split; [reflexivity|exact I]).
    destruct RF as [[V W] NS]. destruct (_ <? 1536).
    { split; [reflexivity|]. cbn. destruct (d_sizes c); [|congruence]. split; [exact V|exact W]. }
    destruct (finish_decoding nd') as [[nc y] fin]. destruct (negb fin); [split; [reflexivity|exact I]|]. destruct (negb _); [split; [reflexivity|exact I]|].
    destruct (d_sizes c) as [[ns ss]|] eqn:SZ; [|split; [reflexivity|exact I]]. destruct (use_code_table _ _ _) as [[t b]|]; [|split; [reflexivity|exact I]].
    apply CW. split; [split; [exact V|exact W]|discriminate].
  - split; [reflexivity|]. unfold chunk_done, append_new_output. unfold stays in *. cbn [set_unparsed set_target_out d_sizes d_win d_unparsed].
    rewrite RF in *. destruct ST as [A B]. split; [exact A|]. unfold chunk. rewrite <- app_assoc. exact B.
  - split; [reflexivity|exact I].
  - split; [reflexivity|exact I].
Qed.

Lemma decode_chunks_calm : forall chunks d out, stays d (concat chunks) -> decode_chunks d chunks out = decode_chunks_nc d chunks out.
Proof.
  induction chunks as [|x tl IH]; intros d out ST; cbn [decode_chunks decode_chunks_nc]; [reflexivity|]. cbn [concat] in ST.
  destruct (decode_chunk_calm d x (concat tl) ST) as [-> H]. destruct (decode_chunk_nc d x) as [d' [|] o| |]; try reflexivity. apply IH. exact H.
Qed.

Lemma decode_stream_calm : forall c n dict chunks, d_started c = false -> not_s (concat chunks) ->
  decode_stream (Dec c n) dict chunks = decode_stream_nc (Dec c n) dict chunks.
Proof.
  intros c n dict chunks S NS. unfold decode_stream, decode_stream_nc. rewrite decode_chunks_calm; [reflexivity|]. cbn [start_decoding]. rewrite S.
  split; [reflexivity|exact NS].
Qed.
