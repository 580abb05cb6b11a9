(** How often the loops of the encoder's search are executed.  Every function here
    follows the function of the model of the same name, calls the same functions
    on the same states, and counts instead of returning a result. *)

From Verif Require Import Base ListFacts SpecEncode RollingHash RollingHashFacts BlockHash BlockHashFacts Engine EngineFacts.
From Coq Require Import ZifyBool ZifyNat.

(** blockhash.cc 303-315 (see [skip_non_matching]): blocks of 16 bytes compared *)
Fixpoint skip_steps (n : nat) (bh : blockhash) (block_number : Z) (block : list Z) : Z :=
  if block_number <? 0 then 0
  else
    1 + match slice (bh_source bh) (block_number * kBlockSize) kBlockSize with
        | None => 0
        | Some s =>
            if block_contents_match block s then 0
            else
              match n with
              | O => 0
              | S n' => match get (bh_next bh) block_number with None => 0 | Some b => skip_steps n' bh b block end
              end
        end.
(** blockhash.cc 320-329 (see [first_matching_block]) *)
Definition first_steps (bh : blockhash) (hash_value : Z) (block : list Z) : Z :=
  match get (bh_table bh) (hash_table_index bh hash_value) with
  | None => 0
  | Some b => skip_steps kMaxProbes bh b block
  end.
(** blockhash.cc 331-339 (see [next_matching_block]) *)
Definition next_steps (bh : blockhash) (block_number : Z) (block : list Z) : Z :=
  if number_of_blocks bh <=? to_size block_number then 0
  else match get (bh_next bh) block_number with None => 0 | Some b => skip_steps kMaxProbes bh b block end.

(** blockhash.cc 355-370 (see [matching_left]): bytes compared *)
Fixpoint left_steps (n : nat) (source : list Z) (s : Z) (target : list Z) (t : Z) : Z :=
  match n with
  | O => 0
  | S n' =>
      1 + match get source (s - 1), get target (t - 1) with
          | Some a, Some b => if negb (a =? b) then 0 else left_steps n' source (s - 1) target (t - 1)
          | _, _ => 0
          end
  end.
(** blockhash.cc 376-388 (see [matching_right]): bytes compared *)
Fixpoint right_steps (n : nat) (source : list Z) (s : Z) (target : list Z) (t : Z) : Z :=
  match n with
  | O => 0
  | S n' =>
      1 + match get source s, get target t with
          | Some a, Some b => if a =? b then right_steps n' source (s + 1) target (t + 1) else 0
          | _, _ => 0
          end
  end.
(** blockhash.cc 407-442 (see [extend_match]) *)
Definition extend_steps (bh : blockhash) (block_number : Z) (target : list Z) (cand start target_size : Z) : Z :=
  let source_match_offset := block_number * kBlockSize in
  let source_match_end := source_match_offset + kBlockSize in
  let target_match_offset := to_int32 (cand - start) in
  let target_match_end := target_match_offset + kBlockSize in
  let source_bytes_to_right := to_size (zlen (bh_source bh) - source_match_end) in
  let target_bytes_to_right := to_size (target_size - target_match_end) in
  left_steps (Z.to_nat (Z.min source_match_offset target_match_offset))
    (bh_source bh) source_match_offset target (start + target_match_offset) +
  right_steps (Z.to_nat (to_int32 (Z.min source_bytes_to_right target_bytes_to_right)))
    (bh_source bh) source_match_end target (start + target_match_end).
(** blockhash.cc 397-444 (see [find_loop]): one for every match, and the steps in it *)
Fixpoint find_steps (n : nat) (bh : blockhash) (block_number : Z) (block target : list Z) (cand start target_size : Z) (best : match_) : Z :=
  if block_number <? 0 then 0
  else
    match n with
    | O => 0
    | S n' =>
        1 + extend_steps bh block_number target cand start target_size +
        match extend_match bh block_number target cand start target_size best with
        | None => 0
        | Some best' =>
            next_steps bh block_number block +
            match next_matching_block bh block_number block with
            | None => 0
            | Some b => find_steps n' bh b block target cand start target_size best'
            end
        end
    end.
(** blockhash.cc 397-446 (see [find_best_match]) *)
Definition best_steps (bh : blockhash) (hash_value : Z) (target : list Z) (cand start target_size : Z) (best : match_) : Z :=
  match slice target cand kBlockSize with
  | None => 0
  | Some block =>
      first_steps bh hash_value block +
      match first_matching_block bh hash_value block with
      | None => 0
      | Some b => find_steps kMaxMatchesToCheck bh b block target cand start target_size best
      end
  end.

(** blockhash.cc 234-237 (see [add_blocks_loop]): blocks hashed and added *)
Fixpoint add_blocks_steps (fuel : nat) (bh : blockhash) (block_ptr end_ptr : Z) : Z :=
  if block_ptr <? end_ptr then
    match fuel with
    | O => 0
    | S n =>
        1 + match slice (bh_source bh) block_ptr kBlockSize with
            | None => 0
            | Some b =>
                match hash_direct kBlockSize b with
                | None => 0
                | Some h => match add_block bh h with None => 0 | Some bh' => add_blocks_steps n bh' (block_ptr + kBlockSize) end_ptr end
                end
            end
    end
  else 0.
(** blockhash.cc 203-238 (see [add_all_blocks_through_index]) *)
Definition add_all_steps (bh : blockhash) (end_index : Z) : Z :=
  let size := zlen (bh_source bh) in
  if to_int32 size <? end_index then 0
  else if end_index <=? bh_last bh * kBlockSize then 0
  else if size <? kBlockSize then 0
  else
    let last_legal := to_int32 (size - kBlockSize) in
    let end_limit := if last_legal <? end_index then last_legal + 1 else end_index in
    add_blocks_steps (Z.to_nat (number_of_blocks bh)) bh (next_index_to_add bh) end_limit.

(** blockhash.cc 55-78 (see [bh_init]): elements of the three tables filled, and
    blocks added *)
Definition init_steps (source : list Z) (starting_offset : Z) (populate : bool) : Z :=
  match calc_table_size (zlen source) with
  | None => 0
  | Some table_size =>
      if table_size =? 0 then 0
      else
        let blocks := zlen source / kBlockSize in
        let bh := {| bh_source := source; bh_start := starting_offset; bh_mask := to_uint32 (table_size - 1);
                     bh_table := zrepeat (-1) table_size; bh_next := zrepeat (-1) blocks;
                     bh_last_of := zrepeat (-1) blocks; bh_last := -1 |} in
        table_size + blocks + blocks + (if populate then add_all_steps bh (to_int32 (zlen source)) else 0)
  end.

(** vcdiffengine.cc 75-115 (see [encode_copy_for_best_match]) *)
Definition copy_steps (dict_hash : blockhash) (target_hash : option blockhash)
    (hash_value : Z) (target : list Z) (cand start size : Z) : Z :=
  best_steps dict_hash hash_value target cand start size no_match +
  match find_best_match dict_hash hash_value target cand start size no_match with
  | None => 0
  | Some best1 =>
      match target_hash with
      | Some th => best_steps th hash_value target cand start size best1
      | None => 0
      end
  end.

(** vcdiffengine.cc 173-212 (see [encode_loop]): one for every iteration, and the
    steps in it *)
Fixpoint loop_steps (fuel : nat) (dict_hash : blockhash) (target : list Z) (rt : list Z)
    (next_encode cand hash_value : Z) (target_hash : option blockhash) : Z :=
  match fuel with
  | O => 0
  | S n =>
      let target_size := zlen target in
      let start_of_last_block := target_size - kBlockSize in
      1 + copy_steps dict_hash target_hash hash_value target cand next_encode (target_size - next_encode) +
      match encode_copy_for_best_match dict_hash target_hash hash_value target cand next_encode
              (target_size - next_encode) with
      | None => 0
      | Some (bytes_encoded, calls) =>
          if 0 <? bytes_encoded then
            let next := next_encode + bytes_encoded in
            if start_of_last_block <? next then 0
            else
              match slice target next kBlockSize with
              | None => 0
              | Some b =>
                  match hash_direct kBlockSize b with
                  | None => 0
                  | Some h =>
                      match target_hash with
                      | None => loop_steps n dict_hash target rt next next h None
                      | Some th =>
                          add_all_steps th (to_int32 next) +
                          match add_all_blocks_through_index th (to_int32 next) with
                          | None => 0
                          | Some th' => loop_steps n dict_hash target rt next next h (Some th')
                          end
                      end
                  end
              end
          else if start_of_last_block <? cand + 1 then 0
          else
            match (match target_hash with
                   | None => Some None
                   | Some th =>
                       match add_one_index_hash th (to_int32 cand) hash_value with
                       | None => None
                       | Some th' => Some (Some th')
                       end
                   end) with
            | None => 0
            | Some target_hash' =>
                match get target cand, get target (cand + kBlockSize) with
                | Some first, Some last =>
                    match update_hash rt hash_value first last with
                    | None => 0
                    | Some h => 1 + loop_steps n dict_hash target rt next_encode (cand + 1) h target_hash'
                    end
                | _, _ => 0
                end
            end
      end
  end.

(** vcdiffengine.cc 132-228 (see [engine_encode]) *)
Definition engine_steps (en : engine) (look_for_target_matches : bool) (target : list Z) : Z :=
  match en_hash en with
  | None => 0
  | Some dict_hash =>
      let target_size := zlen target in
      if target_size =? 0 then 0
      else if target_size <? kBlockSize then 0
      else
        (if look_for_target_matches then init_steps target (to_int32 (zlen (en_dict en))) false else 0) +
        match (if look_for_target_matches then create_target_hash target (zlen (en_dict en))
               else Some None) with
        | None => 0
        | Some th =>
            if look_for_target_matches && (match th with None => true | Some _ => false end) then 0
            else
              match slice target 0 kBlockSize with
              | None => 0
              | Some b =>
                  match hash_direct kBlockSize b with
                  | None => 0
                  | Some h => loop_steps (Z.to_nat target_size) dict_hash target (remove_table kBlockSize) 0 0 h th
                  end
              end
        end
  end.

(** ** Bounds *)

Lemma skip_steps_bound : forall n bh b block, 0 <= skip_steps n bh b block <= Z.of_nat n + 1.
Proof.
  induction n as [|n IH]; intros bh b block; cbn [skip_steps].
  - destruct (b <? 0); [lia|]. destruct (slice _ _ _); [|lia]. destruct (block_contents_match _ _); lia.
  - destruct (b <? 0); [lia|]. destruct (slice _ _ _); [|lia]. destruct (block_contents_match _ _); [lia|].
    destruct (get _ _) as [b'|]; [|lia]. specialize (IH bh b' block). lia.
Qed.
Lemma first_steps_bound : forall bh h block, 0 <= first_steps bh h block <= 17.
Proof. intros. unfold first_steps. destruct (get _ _); [|lia]. pose proof (skip_steps_bound kMaxProbes bh z block). unfold kMaxProbes in *. lia. Qed.
Lemma next_steps_bound : forall bh b block, 0 <= next_steps bh b block <= 17.
Proof.
  intros. unfold next_steps. destruct (_ <=? _); [lia|]. destruct (get _ _); [|lia]. pose proof (skip_steps_bound kMaxProbes bh z block). unfold kMaxProbes in *. lia.
Qed.

Lemma left_steps_bound : forall n source s target t k, matching_left n source s target t = Some k ->
  0 <= k <= Z.of_nat n /\ left_steps n source s target t <= k + 1.
Proof.
  induction n as [|n IH]; intros source s target t k E; cbn [matching_left left_steps] in *; [injection E as <-; lia|].
  destruct (get source (s - 1)) as [a|]; [|discriminate]. destruct (get target (t - 1)) as [b|]; [|discriminate].
  destruct (negb (a =? b)); [injection E as <-; lia|]. destruct (matching_left _ _ _ _ _) as [k'|] eqn:E'; [|discriminate]. assert (k = 1 + k') as -> by congruence.
  specialize (IH _ _ _ _ _ E'). lia.
Qed.
Lemma right_steps_bound : forall n source s target t k, matching_right n source s target t = Some k ->
  0 <= k /\ right_steps n source s target t <= k + 1.
Proof.
  induction n as [|n IH]; intros source s target t k E; cbn [matching_right right_steps] in *; [injection E as <-; lia|].
  destruct (get source s) as [a|]; [|discriminate]. destruct (get target t) as [b|]; [|discriminate].
  destruct (a =? b); [|injection E as <-; lia]. destruct (matching_right _ _ _ _ _) as [k'|] eqn:E'; [|discriminate]. assert (k = 1 + k') as -> by congruence.
  specialize (IH _ _ _ _ _ E'). lia.
Qed.

(** A match so far: none, or one that begins within the data not encoded yet. *)
Definition placed (m : match_) : Prop := 0 <= m_size m /\ (m_size m = 0 \/ 0 <= m_target m).

Lemma extend_steps_bound : forall bh b target cand start size best best', 0 <= cand - start <= int32_max -> placed best ->
  extend_match bh b target cand start size best = Some best' ->
  extend_steps bh b target cand start size <= m_size best' - 14 /\ m_size best <= m_size best' /\ placed best'.
Proof.
  intros bh b target cand start size best best' CS P E. unfold extend_match in E. unfold extend_steps. cbv zeta in *.
  rewrite to_int32_id in * by (unfold int32_max in *; lia).
  destruct (matching_left _ _ _ _ _) as [l|] eqn:EL; [|discriminate]. destruct (matching_right _ _ _ _ _) as [r|] eqn:ER; [|discriminate].
  assert (best' = replace_if_better best (kBlockSize + l + r) (b * kBlockSize - l + bh_start bh) (cand - start - l)) as -> by congruence. clear E.
  destruct (left_steps_bound _ _ _ _ _ _ EL). destruct (right_steps_bound _ _ _ _ _ _ ER).
  destruct (replace_better best (kBlockSize + l + r) (b * kBlockSize - l + bh_start bh) (cand - start - l)) as (B0 & B1 & B2).
  unfold kBlockSize in *. split; [lia|]. split; [lia|]. destruct P as [P1 P2]. destruct B0 as [-> |(_ & E1 & _ & E2)]; [split; assumption|].
  split; [lia|]. right. rewrite E2. lia.
Qed.

Lemma find_steps_bound : forall n bh b block target cand start size best m, 0 <= cand - start <= int32_max -> placed best ->
  find_loop n bh b block target cand start size best = Some m ->
  find_steps n bh b block target cand start size best <= Z.of_nat n * (m_size m + 4) /\ m_size best <= m_size m /\ placed m.
Proof.
  induction n as [|n IH]; intros bh b block target cand start size best m CS P E; pose proof P as [P0 _]; cbn [find_loop find_steps] in *.
  - destruct (b <? 0); injection E as <-; (split; [change (Z.of_nat 0) with 0; lia|]; split; [lia|exact P]).
  - destruct (b <? 0); [injection E as <-; split; [apply Z.mul_nonneg_nonneg|split; [|exact P]]; lia|].
    destruct (extend_match _ _ _ _ _ _ _) as [best'|] eqn:EM; [|discriminate]. destruct (extend_steps_bound _ _ _ _ _ _ _ _ CS P EM) as (B1 & B2 & P').
    destruct (next_matching_block _ _ _) as [b'|]; [|discriminate]. destruct (IH _ _ _ _ _ _ _ _ _ CS P' E) as (B3 & B4 & P2).
    pose proof (next_steps_bound bh b block). split; [|split; [lia|exact P2]]. rewrite Nat2Z.inj_succ, Z.mul_succ_l. lia.
Qed.

Lemma best_steps_bound : forall bh h target cand start size best m, 0 <= cand - start <= int32_max -> placed best ->
  find_best_match bh h target cand start size best = Some m ->
  best_steps bh h target cand start size best <= 17 + 64 * (m_size m + 4) /\ m_size best <= m_size m /\ placed m.
Proof.
  intros bh h target cand start size best m CS P E. unfold find_best_match in E. unfold best_steps.
  destruct (slice _ _ _) as [block|]; [|discriminate]. destruct (first_matching_block _ _ _) as [b|]; [|discriminate].
  destruct (find_steps_bound _ _ _ _ _ _ _ _ _ _ CS P E) as (B1 & B2 & P'). pose proof (first_steps_bound bh h block).
  change (Z.of_nat kMaxMatchesToCheck) with 64 in B1. split; [lia|auto].
Qed.

(** The search at one position, in terms of the bytes encoded there. *)
Lemma copy_steps_bound : forall dh th h target cand start size k calls, 0 <= cand - start <= int32_max ->
  encode_copy_for_best_match dh th h target cand start size = Some (k, calls) ->
  (k = 0 /\ copy_steps dh th h target cand start size <= 4514) \/ (32 <= k /\ copy_steps dh th h target cand start size <= 546 + 128 * k).
Proof.
  intros dh th h target cand start size k calls CS E. unfold encode_copy_for_best_match in E. unfold copy_steps.
  destruct (find_best_match dh _ _ _ _ _ _) as [b1|] eqn:E1; [|discriminate].
  destruct (best_steps_bound _ _ _ _ _ _ _ _ CS (conj (Z.le_refl 0) (or_introl eq_refl) : placed no_match) E1) as (B1 & _ & P1).
  assert (exists m, (match th with Some th0 => find_best_match th0 h target cand start size b1 | None => Some b1 end) = Some m /\
     match th with Some th0 => best_steps th0 h target cand start size b1 | None => 0 end <= 17 + 64 * (m_size m + 4) /\ m_size b1 <= m_size m /\ placed m) as (m & E2 & B3 & B4 & P2).
  { destruct th as [th|]; [|exists b1; split; [reflexivity|]; split; [destruct P1; lia|split; [lia|exact P1]]].
    destruct (find_best_match th _ _ _ _ _ _) as [m|] eqn:E2; [|discriminate]. exists m. split; [reflexivity|]. exact (best_steps_bound _ _ _ _ _ _ _ _ CS P1 E2). }
  rewrite E2 in E. unfold kMinimumMatchSize in E. destruct P2 as [P2 P3].
  destruct (Z.leb_spec 32 (m_size m)) as [G|S]; cbn [negb] in E; [right|left; split; [congruence|lia]].
  destruct (0 <? m_target m); [destruct (slice _ _ _); [|discriminate]|]; assert (k = m_target m + m_size m) as -> by congruence; lia.
Qed.

Lemma add_blocks_steps_bound : forall fuel bh ptr end_, 0 <= add_blocks_steps fuel bh ptr end_ /\ (ptr < end_ -> kBlockSize * (add_blocks_steps fuel bh ptr end_ - 1) < end_ - ptr) /\ (end_ <= ptr -> add_blocks_steps fuel bh ptr end_ = 0).
Proof.
  induction fuel as [|fuel IH]; intros bh ptr end_; cbn [add_blocks_steps]; unfold kBlockSize in *.
  - destruct (Z.ltb_spec ptr end_); lia.
  - destruct (Z.ltb_spec ptr end_) as [L|L]; [|lia]. destruct (slice _ _ _); [|lia]. destruct (hash_direct _ _); [|lia].
    destruct (add_block _ _) as [bh'|]; [|lia]. destruct (IH bh' (ptr + 16) end_) as (P0 & P1 & P2). destruct (Z.lt_ge_cases (ptr + 16) end_); lia.
Qed.

Lemma add_all_steps_bound : forall bh end_, zlen (bh_source bh) <= int32_max ->
  0 <= add_all_steps bh end_ /\ (add_all_steps bh end_ = 0 \/ kBlockSize * (add_all_steps bh end_ - 1) < end_ - next_index_to_add bh).
Proof.
  intros bh end_ L. unfold add_all_steps. cbv zeta. destruct (_ <? end_); [lia|]. destruct (_ <=? _); [lia|]. destruct (Z.ltb_spec (zlen (bh_source bh)) kBlockSize); [lia|].
  unfold kBlockSize in *. rewrite to_int32_id by (unfold int32_max in *; lia).
  destruct (Z.ltb_spec (zlen (bh_source bh) - 16) end_) as [X|X];
    match goal with |- context [add_blocks_steps ?f bh ?p ?e] => destruct (add_blocks_steps_bound f bh p e) as (P0 & P1 & P2); unfold kBlockSize in *; destruct (Z.lt_ge_cases p e); lia end.
Qed.

Lemma loop_steps_bound : forall fuel dict dh dhs target next_encode cand h th ths blk,
  dict_hash_ok dict dh dhs -> target_hash_ok dict target cand th ths ->
  bytes_ok target -> zlen target <= int32_max ->
  0 <= next_encode <= cand -> cand + kBlockSize <= zlen target -> zlen target - cand <= Z.of_nat fuel ->
  slice target cand kBlockSize = Some blk -> hash_direct kBlockSize blk = Some h ->
  loop_steps fuel dh target (remove_table kBlockSize) next_encode cand h th <= 4516 * (zlen target - cand) + 147 * (zlen target - next_encode).
Proof.
  induction fuel as [|fuel IH]; intros dict dh dhs target ne cand h th ths blk D TH B L NE CL F S H.
  { unfold kBlockSize in CL. lia. }
  cbn [loop_steps]. cbv zeta.
  assert (kBlockSize = 16) as K by reflexivity.
  destruct (slice_inv _ _ _ _ _ S) as (_ & _ & _ & _ & LB).
  assert (0 <= h) as H0 by (eapply hash_direct_nonneg; [eapply slice_bytes_ok; eauto| |eauto]; lia).
  destruct (encode_copy_ok dict dh dhs th ths target h cand ne D (or_introl TH) H0 NE CL L) as (k & calls & EC & C).
  pose proof (copy_steps_bound dh th h target cand ne (zlen target - ne) k calls ltac:(lia) EC) as CB. rewrite EC.
  set (cs := copy_steps _ _ _ _ _ _ _) in *. clearbody cs.
  destruct C as [[-> ->]|[KR G]].
  - cbn [Z.ltb Z.compare]. destruct (Z.ltb_spec (zlen target - kBlockSize) (cand + 1)) as [E|E]; [lia|].
    destruct (next_hash target cand blk h B ltac:(lia) ltac:(lia) S H) as (f & la & blk' & h' & GF & GL & S' & H' & U).
    assert (exists th' ths', match th with
              | Some t => match add_one_index_hash t (to_int32 cand) h with Some th'0 => Some (Some th'0) | None => None end
              | None => Some None end = Some th' /\ target_hash_ok dict target (cand + 1) th' ths')
      as (th' & ths' & -> & TH').
    { destruct th as [bh|]; [|exists None, []; repeat split].
      destruct TH as (T1 & T2 & T3 & T4 & T5). unfold add_one_index_hash, next_index_to_add. rewrite (bo_last _ _ T1).
      rewrite to_int32_id by (unfold int32_max in *; lia). replace (zlen ths - 1 + 1) with (zlen ths) by lia.
      destruct (Z.eqb_spec cand (zlen ths * kBlockSize)) as [EQ|NEQ].
      - destruct (add_block_ok bh ths h T1) as (bh' & -> & OK & (S1 & S2 & S3)); [|exact H0|].
        { unfold number_of_blocks. rewrite T2. apply Z.lt_le_trans with (zlen ths + 1); [lia|]. apply Z.div_le_lower_bound; lia. }
        exists (Some bh'), (ths ++ [h]). split; [reflexivity|].
        cbn [target_hash_ok]. split; [exact OK|]. split; [congruence|]. split; [congruence|]. split.
        { eapply true_hashes_snoc; eauto. rewrite <- EQ. exact S. }
        rewrite zlen_app, zlen_cons, zlen_nil. lia.
      - exists (Some bh), ths. split; [reflexivity|].
        cbn [target_hash_ok]. split; [exact T1|]. split; [exact T2|]. split; [exact T3|]. split; [exact T4|]. lia. }
    rewrite GF, GL, U.
    pose proof (IH dict dh dhs target ne (cand + 1) h' th' ths' blk' D TH' B L ltac:(lia) ltac:(lia) ltac:(lia) S' H') as X. lia.
  - destruct (Z.ltb_spec 0 k) as [KP|KN]; [|lia].
    destruct (Z.ltb_spec (zlen target - kBlockSize) (ne + k)) as [E|E]; [lia|].
    assert (slice target (ne + k) kBlockSize = Some (ztake kBlockSize (zdrop (ne + k) target))) as S' by (apply slice_some; lia).
    rewrite S'. set (blk' := ztake kBlockSize _) in *. clearbody blk'.
    destruct (slice_inv _ _ _ _ _ S') as (_ & _ & _ & _ & LB').
    pose proof (slice_bytes_ok _ _ _ _ B S') as BB'.
    assert (hash_direct kBlockSize blk' = Some (poly blk' mod kBase)) as H' by (apply hash_direct_block; auto; lia).
    rewrite H'.
    destruct th as [bh|].
    + destruct TH as (T1 & T2 & T3 & T4 & T5).
      destruct (add_all_ok bh ths (ne + k)) as (bh' & more & A1 & A2 & A3 & (S1 & S2 & S3) & A4 & A5).
      { rewrite T2; exact B. } { exact T1. } { rewrite T2; exact T4. } { rewrite T2. lia. }
      rewrite to_int32_id by (unfold int32_max in *; lia). rewrite A1.
      destruct (add_all_steps_bound bh (ne + k)) as (AS0 & AS); [rewrite T2; exact L|].
      unfold next_index_to_add in AS. rewrite (bo_last _ _ T1) in AS. replace (zlen ths - 1 + 1) with (zlen ths) in AS by lia.
      assert (loop_steps fuel dh target (remove_table kBlockSize) (ne + k) (ne + k) (poly blk' mod kBase) (Some bh') <= 4516 * (zlen target - (ne + k)) + 147 * (zlen target - (ne + k))) as X.
      { eapply (IH dict dh dhs target (ne + k) (ne + k) (poly blk' mod kBase) (Some bh') (ths ++ more) blk' D);
          [|exact B|exact L|lia|lia|lia|exact S'|exact H'].
        cbn [target_hash_ok]. split; [exact A2|]. split; [congruence|]. split; [congruence|]. split; [rewrite <- T2; exact A3|].
        rewrite zlen_app. split.
        - destruct A4 as [-> | A4]; [rewrite zlen_nil; lia|exact A4].
        - destruct (Z.lt_ge_cases ((zlen ths + zlen more) * kBlockSize) (ne + k)) as [X|X]; [exfalso|exact X].
          pose proof (zlen_nonneg _ ths). pose proof (zlen_nonneg _ more).
          assert (zlen ths + zlen more < zlen ths + zlen more); [|lia]. apply A5; [|exact X].
          split; [lia|]. unfold number_of_blocks. rewrite T2. apply Z.lt_le_trans with (zlen ths + zlen more + 1); [lia|]. apply Z.div_le_lower_bound; lia. }
      lia.
    + pose proof (IH dict dh dhs target (ne + k) (ne + k) (poly blk' mod kBase) None [] blk' D I B L ltac:(lia) ltac:(lia) ltac:(lia) S' H') as X. lia.
Qed.

Lemma init_steps_bound : forall source start populate, zlen source <= int32_max -> 0 <= init_steps source start populate <= zlen source + 3.
Proof.
  intros source start populate L. pose proof (zlen_nonneg _ source). unfold init_steps.
  destruct (calc_table_size (zlen source)) as [ts|] eqn:E; [|lia]. destruct (Z.eqb_spec ts 0) as [|NZ]; [lia|]. cbv zeta.
  assert (0 <= ts <= 2 * (zlen source / 4 + 1)) as TS.
  { destruct (table_size_loop_ok 66 0 (zlen source / 4 + 1)) as (k & KR & EK & B); [lia|lia| | |].
    { unfold int32_max in L. assert (0 <= zlen source / 4 <= 2147483647) by (split; [apply Z.div_pos; lia|apply Z.div_le_upper_bound; lia]). change (2 ^ 32) with 4294967296. lia. }
    { assert (0 <= zlen source / 4) by (apply Z.div_pos; lia). change (2 ^ 0) with 1. lia. }
    unfold calc_table_size in E. cbv zeta in E. change (2 ^ 0) with 1 in EK. rewrite EK in E. destruct (_ && _); injection E as <-; lia. }
  unfold kBlockSize in *. pose proof (Z.mul_div_le (zlen source) 4 ltac:(lia)). pose proof (Z.mul_div_le (zlen source) 16 ltac:(lia)).
  assert (0 <= zlen source / 16) by (apply Z.div_pos; lia).
  assert (zlen source / 16 <= zlen source / 4) by (apply Z.div_le_compat_l; lia).
  destruct populate; [|lia].
  match goal with |- context [add_all_steps ?b ?e] => destruct (add_all_steps_bound b e L) as (A0 & A1) end.
  rewrite to_int32_id in * by (unfold int32_max in *; lia). unfold next_index_to_add, kBlockSize in A1. cbn [bh_last] in A1. lia.
Qed.

Theorem engine_steps_linear : forall en dict look target, engine_ok en dict -> bytes_ok target -> zlen dict + zlen target <= int32_max ->
  engine_steps en look target <= 4664 * zlen target + 3.
Proof.
  intros en dict look target (E1 & BD & dh & dhs & E2 & D & _) B L. unfold engine_steps. rewrite E2, E1. cbv zeta.
  pose proof (zlen_nonneg _ dict). pose proof (zlen_nonneg _ target).
  assert (kBlockSize = 16) as K by reflexivity.
  destruct (Z.eqb_spec (zlen target) 0); [lia|]. destruct (Z.ltb_spec (zlen target) kBlockSize) as [SM|BG]; [lia|].
  assert (exists th ths, (if look then create_target_hash target (zlen dict) else Some None) = Some th /\
       target_hash_ok dict target 0 th ths /\ is_some th = look) as (th & ths & -> & TH & IS).
  { destruct look; [|exists None, []; repeat split]. unfold create_target_hash.
    rewrite to_int32_id by (unfold int32_max in *; lia).
    destruct (bh_init_eq target (zlen dict) false) as (k & KR & OK & ->); [lia|].
    exists (Some (empty_bh target (zlen dict) k)), []. split; [reflexivity|]. split; [|reflexivity].
    cbn [target_hash_ok]. split; [exact OK|]. split; [reflexivity|]. split; [reflexivity|].
    split; [intros b h G; rewrite (proj2 (get_none _ _ _)) in G by (rewrite zlen_nil; lia); discriminate|]. rewrite zlen_nil. lia. }
  assert (look && (match th with None => true | Some _ => false end) = false) as ->
    by (destruct th, look; cbn in *; congruence).
  assert (slice target 0 kBlockSize = Some (ztake kBlockSize (zdrop 0 target))) as S' by (apply slice_some; lia).
  rewrite S'. set (blk' := ztake kBlockSize _) in *. clearbody blk'.
  destruct (slice_inv _ _ _ _ _ S') as (_ & _ & _ & _ & LB').
  pose proof (slice_bytes_ok _ _ _ _ B S') as BB'.
  assert (hash_direct kBlockSize blk' = Some (poly blk' mod kBase)) as H' by (apply hash_direct_block; auto; lia).
  rewrite H'.
  pose proof (loop_steps_bound (Z.to_nat (zlen target)) dict dh dhs target 0 0 (poly blk' mod kBase) th ths blk' D TH B
    ltac:(lia) ltac:(lia) ltac:(lia) ltac:(lia) S' H') as X.
  pose proof (init_steps_bound target (to_int32 (zlen dict)) false ltac:(lia)) as Y.
  destruct look; lia.
Qed.
