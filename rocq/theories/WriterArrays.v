(** The accesses of the code table writer to its arrays (proofs for C78). *)

From Coq Require Import ZifyBool ZifyNat.
From Verif Require Import Base ListFacts SpecEncode Varint AddrCache AddrCacheFacts CodeTable InstructionMap InstructionMapFacts EncodeTable.
Ltac Zify.zify_post_hook ::= Z.div_mod_to_equations.

(** ** The address cache *)

Record cache_fits (ns ss : Z) (c : cache) : Prop := {
  cf_near : near_size c = ns; cf_same : same_size c = ss;
  cf_nlen : zlen (near_a c) = ns; cf_slen : zlen (same_a c) = ss * 256;
  cf_slot : 0 <= next_slot c; cf_slot_lt : 0 < ns -> next_slot c < ns
}.

Lemma init_fits : forall ns ss c, 0 <= ns -> 0 <= ss -> cache_init ns ss = Some c -> cache_fits ns ss c /\ ns + ss <= 254.
Proof.
  intros ns ss c N S H. unfold cache_init in H. destruct (Z.ltb_spec 254 (ns + ss)); [discriminate|]. injection H as <-.
  split; [|lia]. constructor; cbn [near_size same_size next_slot near_a same_a]; try lia; apply zlen_zrepeat; lia.
Qed.

Lemma update_fits : forall ns ss c a, 0 <= ns -> 0 <= ss -> cache_fits ns ss c -> exists c', update_cache c a = Some c' /\ cache_fits ns ss c'.
Proof.
  intros ns ss c a N S [C1 C2 C3 C4 C5 C6]. unfold update_cache. rewrite C1, C2.
  destruct (Z.ltb_spec 0 ns).
  - destruct (put_some _ (near_a c) (next_slot c) a) as (l & E); [lia|]. rewrite E. apply put_inv in E as (_ & L & _).
    destruct (Z.ltb_spec 0 ss).
    + destruct (put_some _ (same_a c) (a mod (ss * 256)) a) as (l2 & E2); [rewrite C4; apply Z.mod_pos_bound; lia|]. rewrite E2. apply put_inv in E2 as (_ & L2 & _).
      eexists. split; [reflexivity|]. pose proof (Z.mod_pos_bound (next_slot c + 1) ns ltac:(lia)). constructor; cbn; try congruence; lia.
    + eexists. split; [reflexivity|]. pose proof (Z.mod_pos_bound (next_slot c + 1) ns ltac:(lia)). constructor; cbn; try congruence; lia.
  - destruct (Z.ltb_spec 0 ss).
    + destruct (put_some _ (same_a c) (a mod (ss * 256)) a) as (l2 & E2); [rewrite C4; apply Z.mod_pos_bound; lia|]. rewrite E2. apply put_inv in E2 as (_ & L2 & _).
      eexists. split; [reflexivity|]. constructor; cbn; try congruence; lia.
    + eexists. split; [reflexivity|]. constructor; cbn; try congruence; lia.
Qed.

Lemma near_loop_fits : forall ns ss c a k i best, cache_fits ns ss c -> ns <= 254 -> 0 <= i -> i + Z.of_nat k <= ns ->
  exists best', encode_near_loop c a k i best = Some best' /\ (fst best' = fst best \/ 2 <= fst best' <= ns + 1).
Proof.
  intros ns ss c a k. induction k as [|k IH]; intros i best C N I K; cbn [encode_near_loop]; [eauto|].
  destruct (get_some _ (near_a c) i) as (x & ->); [rewrite (cf_nlen _ _ _ C); lia|]. cbv zeta.
  destruct (IH (i + 1) (if (0 <=? a - x) && (a - x <? snd best) then (to_uchar (2 + i), a - x) else best)) as (b & E & D); auto; try lia.
  exists b. split; [exact E|]. destruct D as [D|D]; [|right; exact D].
  destruct ((0 <=? a - x) && (a - x <? snd best)); [|left; exact D]. cbn [fst] in D. rewrite to_uchar_id in D by lia. right. lia.
Qed.

Lemma encode_address_fits : forall ns ss c a here, 0 <= ns -> 0 <= ss -> ns + ss <= 254 -> cache_fits ns ss c ->
  exists mode e c', encode_address c a here = Some (mode, e, c') /\ 0 <= mode <= ns + ss + 1 /\ cache_fits ns ss c'.
Proof.
  intros ns ss c a here N S NS C. unfold encode_address.
  destruct ((a <? 0) || (here <=? a)) eqn:EA. { do 3 eexists. split; [reflexivity|]. split; [lia|exact C]. }
  destruct (update_fits ns ss c a N S C) as (c' & EU & C'). rewrite (cf_same _ _ _ C), (cf_near _ _ _ C).
  assert (exists mode e c'', (let here_e := here - a in let best1 := if here_e <? snd (0, a) then (1, here_e) else (0, a) in
      match encode_near_loop c a (Z.to_nat ns) 0 best1 with
      | None => None
      | Some best2 => match update_cache c a with None => None | Some c' => Some (fst best2, snd best2, c') end
      end) = Some (mode, e, c'') /\ 0 <= mode <= ns + ss + 1 /\ cache_fits ns ss c'') as NE.
  { cbv zeta. destruct (near_loop_fits ns ss c a (Z.to_nat ns) 0 (if here - a <? snd (0, a) then (1, here - a) else (0, a)) C ltac:(lia) ltac:(lia) ltac:(lia)) as (b & E & D).
    rewrite E, EU. do 3 eexists. split; [reflexivity|]. split; [|exact C'].
    destruct D as [D|D]; [|lia]. rewrite D. destruct (here - a <? snd (0, a)); cbn [fst]; lia. }
  destruct (Z.ltb_spec 0 ss); [|exact NE].
  pose proof (Z.mod_pos_bound a (ss * 256) ltac:(lia)) as PB.
  destruct (get_some _ (same_a c) (a mod (ss * 256))) as (x & ->); [rewrite (cf_slen _ _ _ C); lia|].
  destruct (x =? a); [|exact NE]. cbv zeta. rewrite EU. do 3 eexists. split; [reflexivity|]. split; [|exact C'].
  unfold first_same_mode. rewrite (to_uchar_id (2 + ns)) by lia. assert (0 <= (a mod (ss * 256)) / 256 < ss) by lia.
  rewrite (to_uchar_id (_ / 256)) by lia. rewrite to_uchar_id by lia. lia.
Qed.

(** ** The instructions *)

Definition last_ok (w : writer) : Prop := wr_last w = -1 \/ 0 <= wr_last w < zlen (wr_inst w).

Record rows (m : Z) (im : instruction_map) : Prop := {
  ro_first : f_num (im_first im) = 4 + m; ro_second : s_num (im_second im) = 4 + m;
  ro_fmax : 0 <= f_max (im_first im); ro_smax : 0 <= s_max (im_second im)
}.
Lemma make_rows : forall t m im, make_map t m = Some im -> rows m im.
Proof.
  intros t m im H. pose proof (make_map_ok _ _ _ H) as MO. constructor; [apply MO|apply MO|apply MO|].
  unfold make_map in H. destruct (fold_left (first_pass t) opcodes _) as [fm|]; [|discriminate].
  destruct (fold_left (second_pass t fm) opcodes _) as [sm|] eqn:E2; [|discriminate]. injection H as <-.
  destruct (fun X => second_fold t fm opcodes _ sm opcodes_bytes X E2) as (_ & _ & M); [constructor|]. cbn [im_second s_max] in *. rewrite M. apply find_max_nonneg.
Qed.

Definition row_of (inst mode : Z) : Z := if inst =? VCD_COPY then inst + mode else inst.
Lemma first_in : forall m im inst size mode, rows m im -> row_of inst mode < 4 + m -> exists op, first_lookup (im_first im) inst size mode = Some op.
Proof.
  intros m im inst size mode R H. unfold first_lookup. cbv zeta. fold (row_of inst mode). rewrite (ro_first _ _ R). destruct (_ <? size); [eauto|].
  destruct (Z.ltb_spec (row_of inst mode) (4 + m)); [eauto|lia].
Qed.
Lemma second_in : forall m im first inst size mode, rows m im -> row_of inst mode < 4 + m -> exists op, second_lookup (im_second im) first inst size mode = Some op.
Proof.
  intros m im first inst size mode R H. unfold second_lookup. cbv zeta. fold (row_of inst mode). rewrite (ro_second _ _ R). destruct (_ <? size); [eauto|].
  destruct (Z.ltb_spec (row_of inst mode) (4 + m)); [eauto|lia].
Qed.
Lemma first_out : forall m im inst mode, rows m im -> 4 + m <= row_of inst mode -> first_lookup (im_first im) inst 0 mode = None.
Proof.
  intros m im inst mode R H. unfold first_lookup. cbv zeta. fold (row_of inst mode). rewrite (ro_first _ _ R). pose proof (ro_fmax _ _ R).
  destruct (Z.ltb_spec (f_max (im_first im)) 0); [lia|]. destruct (Z.ltb_spec (row_of inst mode) (4 + m)); [lia|reflexivity].
Qed.
Lemma first_out_any : forall m im inst size mode, rows m im -> 4 + m <= row_of inst mode ->
  first_lookup (im_first im) inst size mode = None \/ first_lookup (im_first im) inst size mode = Some kNoOpcode.
Proof.
  intros m im inst size mode R H. unfold first_lookup. cbv zeta. fold (row_of inst mode). rewrite (ro_first _ _ R).
  destruct (_ <? size); [auto|]. destruct (Z.ltb_spec (row_of inst mode) (4 + m)); [lia|auto].
Qed.
Lemma second_out : forall m im first inst mode, rows m im -> 4 + m <= row_of inst mode -> second_lookup (im_second im) first inst 0 mode = None.
Proof.
  intros m im first inst mode R H. unfold second_lookup. cbv zeta. fold (row_of inst mode). rewrite (ro_second _ _ R). pose proof (ro_smax _ _ R).
  destruct (Z.ltb_spec (s_max (im_second im)) 0); [lia|]. destruct (Z.ltb_spec (row_of inst mode) (4 + m)); [lia|reflexivity].
Qed.
Lemma second_out_any : forall m im first inst size mode, rows m im -> 4 + m <= row_of inst mode ->
  second_lookup (im_second im) first inst size mode = None \/ second_lookup (im_second im) first inst size mode = Some kNoOpcode.
Proof.
  intros m im first inst size mode R H. unfold second_lookup. cbv zeta. fold (row_of inst mode). rewrite (ro_second _ _ R).
  destruct (_ <? size); [auto|]. destruct (Z.ltb_spec (row_of inst mode) (4 + m)); [lia|auto].
Qed.

(** An opcode is chosen: only instructions_and_sizes_ and last_opcode_index_ change. *)
Lemma single_shape : forall w m inst size mode w', encode_single w m inst size mode = Some w' -> last_ok w ->
  exists l k, w' = set_inst w l k /\ last_ok w'.
Proof.
  intros w m inst size mode w' H LO. unfold encode_single in H.
  assert (forall x, exists l k, set_inst w (wr_inst w ++ x :: []) (zlen (wr_inst w)) = set_inst w l k) as _ by eauto.
  assert (exists l k, w = set_inst w l k) as SELF by (exists (wr_inst w), (wr_last w); destruct w; reflexivity).
  assert (forall x y, last_ok (set_inst w (wr_inst w ++ x :: y) (zlen (wr_inst w)))) as LA.
  { intros x y. right. cbn [set_inst wr_last wr_inst]. rewrite zlen_app, zlen_cons. pose proof (zlen_nonneg _ (wr_inst w)). pose proof (zlen_nonneg _ y). lia. }
  destruct (if size <=? 255 then _ else _) as [op|]; [|discriminate].
  destruct (negb (op =? kNoOpcode)). { injection H as <-. do 2 eexists. split; [reflexivity|apply LA]. }
  destruct (first_lookup _ _ 0 _) as [op2|]; [|discriminate].
  destruct (op2 =? kNoOpcode); injection H as <-.
  - destruct SELF as (l & k & E). exists l, k. split; [exact E|exact LO].
  - do 2 eexists. split; [reflexivity|]. cbn [app]. apply LA.
Qed.
Lemma instruction_shape : forall w inst size mode w', encode_instruction w inst size mode = Some w' -> last_ok w ->
  exists l k, w' = set_inst w l k /\ last_ok w'.
Proof.
  intros w inst size mode w' H LO. unfold encode_instruction in H.
  destruct (wr_map w) as [m|].
  2: { injection H as <-. exists (wr_inst w), (wr_last w). split; [destruct w; reflexivity|exact LO]. }
  destruct (0 <=? wr_last w); [|eapply single_shape; eauto].
  destruct (get _ _) as [last|]; [|discriminate].
  destruct (if size <=? 255 then _ else _) as [op|]; [|discriminate].
  destruct (negb (op =? kNoOpcode)).
  { destruct (put _ _ _) as [l|]; [|discriminate]. injection H as <-. do 2 eexists. split; [reflexivity|]. left. reflexivity. }
  destruct (second_lookup _ _ _ 0 _) as [op2|]; [|discriminate].
  destruct (negb (op2 =? kNoOpcode)); [|eapply single_shape; eauto].
  destruct (put _ _ _) as [l|]; [|discriminate]. injection H as <-. do 2 eexists. split; [reflexivity|]. left. reflexivity.
Qed.

Lemma instruction_in : forall w im m inst size mode, wr_map w = Some im -> rows m im -> last_ok w -> row_of inst mode < 4 + m ->
  exists w', encode_instruction w inst size mode = Some w'.
Proof.
  intros w im m inst size mode WM R LO RO.
  assert (exists w', encode_single w im inst size mode = Some w') as ES.
  { unfold encode_single. destruct (first_in m im inst size mode R RO) as (op & ->). destruct (first_in m im inst 0 mode R RO) as (op0 & ->).
    destruct (size <=? 255); [destruct (negb (op =? kNoOpcode)); [eauto|]|change (negb (kNoOpcode =? kNoOpcode)) with false; cbv iota]; destruct (op0 =? kNoOpcode); eauto. }
  unfold encode_instruction. rewrite WM. destruct (Z.leb_spec 0 (wr_last w)) as [G|G]; [|exact ES].
  destruct LO as [LO|LO]; [lia|]. destruct (get_some _ (wr_inst w) (wr_last w) LO) as (last & ->).
  destruct (second_in m im last inst size mode R RO) as (op & ->). destruct (second_in m im last inst 0 mode R RO) as (op0 & ->).
  assert (forall v, exists l, put (wr_inst w) (wr_last w) v = Some l) as PU by (intros v; apply put_some; exact LO).
  destruct (if size <=? 255 then Some op else Some kNoOpcode) as [o|] eqn:EO; [|destruct (size <=? 255); discriminate].
  destruct (negb (o =? kNoOpcode)). { destruct (PU (to_uchar o)) as (l & ->). eauto. }
  destruct (negb (op0 =? kNoOpcode)). { destruct (PU (to_uchar op0)) as (l & ->). eauto. }
  exact ES.
Qed.

Lemma instruction_out : forall w im m inst size mode, wr_map w = Some im -> rows m im -> last_ok w -> 4 + m <= row_of inst mode ->
  encode_instruction w inst size mode = None.
Proof.
  intros w im m inst size mode WM R LO RO.
  assert (encode_single w im inst size mode = None) as ES.
  { unfold encode_single. rewrite (first_out m im inst mode R RO). destruct (size <=? 255); [|reflexivity].
    destruct (first_out_any m im inst size mode R RO) as [-> | ->]; reflexivity. }
  unfold encode_instruction. rewrite WM. destruct (Z.leb_spec 0 (wr_last w)) as [G|G]; [|exact ES].
  destruct LO as [LO|LO]; [lia|]. destruct (get_some _ (wr_inst w) (wr_last w) LO) as (last & ->).
  rewrite (second_out m im last inst mode R RO). destruct (size <=? 255); [|reflexivity].
  destruct (second_out_any m im last inst size mode R RO) as [-> | ->]; reflexivity.
Qed.

(** ** The calls *)

Record safe (m ns ss : Z) (w : writer) : Prop := {
  sf_map : exists im, wr_map w = Some im /\ rows m im;
  sf_sizes : wr_near w = ns /\ wr_same w = ss;
  sf_cache : cache_fits ns ss (wr_cache w);
  sf_last : last_ok w
}.

Lemma last_data : forall w l n, last_ok w -> last_ok (append_data w l n).
Proof.
  intros w l n H. unfold append_data, last_ok in *. pose proof (zlen_nonneg _ l). destruct (wr_il w); cbn [set_sections wr_last wr_inst]; [rewrite zlen_app|]; lia.
Qed.
Lemma last_addr : forall w l n, last_ok w -> last_ok (append_addr w l n).
Proof.
  intros w l n H. unfold append_addr, last_ok in *. pose proof (zlen_nonneg _ l). destruct (wr_il w); cbn [set_sections wr_last wr_inst]; [rewrite zlen_app|]; lia.
Qed.
Lemma safe_data : forall m ns ss w l n, safe m ns ss w -> safe m ns ss (append_data w l n).
Proof. intros m ns ss w l n [A B C D]. constructor; [| | |apply last_data; exact D]; unfold append_data; destruct (wr_il w); auto. Qed.
Lemma safe_addr : forall m ns ss w l n, safe m ns ss w -> safe m ns ss (append_addr w l n).
Proof. intros m ns ss w l n [A B C D]. constructor; [| | |apply last_addr; exact D]; unfold append_addr; destruct (wr_il w); auto. Qed.

Lemma instruction_safe : forall m ns ss w inst size mode, safe m ns ss w -> row_of inst mode < 4 + m ->
  exists w', encode_instruction w inst size mode = Some w' /\ safe m ns ss w'.
Proof.
  intros m ns ss w inst size mode [(im & WM & R) B C D] RO. destruct (instruction_in w im m inst size mode WM R D RO) as (w' & E).
  exists w'. split; [exact E|]. destruct (instruction_shape _ _ _ _ _ E D) as (l & k & -> & LO). constructor; eauto.
Qed.

Lemma call_safe : forall m ns ss w i, 0 <= ns -> 0 <= ss -> 0 <= m -> ns + ss <= 254 -> ns + ss + 1 <= m -> safe m ns ss w ->
  exists w', writer_call w i = Some w' /\ safe m ns ss w'.
Proof.
  intros m ns ss w i N S M0 NS M SF. destruct i as [d|a n|n b]; cbn [writer_call].
  - unfold writer_add. destruct (instruction_safe m ns ss w VCD_ADD (zlen d) 0 SF) as (w' & -> & SF'); [change (row_of VCD_ADD 0) with 1; lia|].
    eexists. split; [reflexivity|]. apply safe_data, SF'.
  - unfold writer_copy. pose proof SF as [(im & WM & R) B C D]. rewrite WM.
    destruct (encode_address_fits ns ss (wr_cache w) a (to_int32 (wr_dict_size w + wr_len w)) N S NS C) as (mode & e & c' & -> & MR & C').
    cbv zeta. destruct (instruction_safe m ns ss (set_state w c' (wr_dict_size w) (wr_len w) (Some im) (wr_last w)) VCD_COPY n mode) as (w' & -> & SF').
    + constructor; [exists im; auto|exact B|exact C'|exact D].
    + change (row_of VCD_COPY mode) with (3 + mode). lia.
    + eexists. split; [reflexivity|]. apply safe_addr, SF'.
  - unfold writer_run. destruct (instruction_safe m ns ss w VCD_RUN n 0 SF) as (w' & -> & SF'); [change (row_of VCD_RUN 0) with 2; lia|].
    eexists. split; [reflexivity|]. apply safe_data, SF'.
Qed.

Lemma init_safe : forall m ns ss w n, 0 <= ns -> 0 <= ss -> ns + ss <= 254 -> safe m ns ss w ->
  exists w', writer_init w n = Some (w', true) /\ safe m ns ss w'.
Proof.
  intros m ns ss w n N S NS [(im & WM & R) [B1 B2] C D]. unfold writer_init. rewrite WM, B1, B2.
  destruct (cache_init ns ss) as [c|] eqn:E; [|unfold cache_init in E; destruct (Z.ltb_spec 254 (ns + ss)); [lia|discriminate E]].
  apply init_fits in E as [C' _]; auto. eexists. split; [reflexivity|]. constructor; [exists im; auto|auto|exact C'|left; reflexivity].
Qed.

Lemma output_safe : forall m ns ss w, 0 <= ns -> 0 <= ss -> ns + ss <= 254 -> safe m ns ss w ->
  exists w' o, writer_output w = Some (w', o) /\ safe m ns ss w'.
Proof.
  intros m ns ss w N S NS SF. unfold writer_output. destruct (wr_inst w) eqn:EI.
  - destruct (init_safe m ns ss w (wr_dict_size w) N S NS SF) as (w' & -> & SF'). eauto.
  - destruct SF as [(im & WM & R) [B1 B2] C D].
    unfold writer_init. cbn [set_sections wr_map wr_near wr_same]. rewrite WM, B1, B2.
    destruct (cache_init ns ss) as [c|] eqn:E; [|unfold cache_init in E; destruct (Z.ltb_spec 254 (ns + ss)); [lia|discriminate E]].
    apply init_fits in E as [C' _]; auto. do 2 eexists. split; [reflexivity|]. constructor; [exists im; auto|auto|exact C'|left; reflexivity].
Qed.

(** ** Modes that the map has no row for *)

(** A writer with the cache [c] after [len] bytes of target. *)
Record at_state (m : Z) (w : writer) (c : cache) (dict len : Z) : Prop := {
  as_map : exists im, wr_map w = Some im /\ rows m im;
  as_cache : wr_cache w = c;
  as_dict : wr_dict_size w = dict; as_len : wr_len w = len;
  as_last : last_ok w
}.

Lemma copy_step : forall m w c dict len a mode e c', at_state m w c dict len -> 0 <= dict + len <= int32_max -> 0 <= len <= 1000 ->
  encode_address c a (dict + len) = Some (mode, e, c') ->
  writer_copy w a 1 = None \/ exists w', writer_copy w a 1 = Some w' /\ at_state m w' c' dict (len + 1) /\ mode <= m.
Proof.
  intros m w c dict len a mode e c' [(im & WM & R) B C D LO] DL L EA. unfold writer_copy. rewrite WM, B, C, D.
  rewrite to_int32_id by (unfold int32_max in *; lia). rewrite EA. cbv zeta.
  set (w1 := set_state w c' dict len (Some im) (wr_last w)). assert (last_ok w1) as LO1 by exact LO.
  destruct (encode_instruction w1 VCD_COPY 1 mode) as [w2|] eqn:E; [|left; reflexivity]. right. eexists. split; [reflexivity|].
  destruct (instruction_shape _ _ _ _ _ E LO1) as (l & k & -> & LO2).
  split.
  - constructor; [| | | |apply last_addr; exact LO2]; unfold append_addr, w1; cbn [set_inst set_state wr_il]; destruct (wr_il w); cbn [set_sections set_inst set_state wr_map wr_cache wr_dict_size wr_len];
      try reflexivity; try (exists im; auto); apply to_size_id; unfold size_max; lia.
  - destruct (Z.le_gt_cases mode m) as [|G]; [assumption|]. exfalso.
    rewrite (instruction_out w1 im m VCD_COPY 1 mode eq_refl R LO1) in E; [discriminate|]. change (row_of VCD_COPY mode) with (3 + mode). lia.
Qed.

Lemma calls_app : forall l l' w, writer_calls w (l ++ l') = match writer_calls w l with Some w' => writer_calls w' l' | None => None end.
Proof. induction l as [|i l IH]; intros l' w; cbn [app writer_calls]; [reflexivity|]. destruct (writer_call w i); [apply IH|reflexivity]. Qed.

Lemma put_same : forall k n, 0 <= k < n -> put (zrepeat 0 n) k 0 = Some (zrepeat 0 n).
Proof.
  intros k n K. destruct (put_some _ (zrepeat 0 n) k 0) as (l & E); [rewrite zlen_zrepeat; lia|]. rewrite E. f_equal.
  apply put_inv in E as (_ & L & G & O). apply get_ext. intros i _. destruct (Z.eq_dec i k) as [->|N]; [|apply O; exact N].
  rewrite G. symmetry. apply get_zrepeat. exact K.
Qed.

(** A cache with NEAR addresses only: [k] copies from address 0. *)
Definition zeros (ns k : Z) : cache := {| near_size := ns; same_size := 0; next_slot := k; near_a := zrepeat 0 ns; same_a := zrepeat 0 0 |}.
Lemma near_loop_zero : forall ns c k i best, near_a c = zrepeat 0 ns -> 0 <= i -> i + Z.of_nat k <= ns -> snd best = 0 ->
  encode_near_loop c 0 k i best = Some best.
Proof.
  intros ns c k. induction k as [|k IH]; intros i best E I K B; cbn [encode_near_loop]; [reflexivity|].
  rewrite E, get_zrepeat by lia. cbv zeta. rewrite B. change ((0 <=? 0 - 0) && (0 - 0 <? 0)) with false. cbv iota. apply IH; auto; lia.
Qed.
Lemma zeros_step : forall ns k here, 0 <= k < ns - 1 -> 0 < here -> encode_address (zeros ns k) 0 here = Some (0, 0, zeros ns (k + 1)).
Proof.
  intros ns k here K H. unfold encode_address. destruct (Z.leb_spec here 0); [lia|]. change ((0 <? 0) || false) with false. cbv iota.
  cbn [zeros same_size near_size]. change (0 <? 0) with false. cbv iota zeta. cbn [snd]. destruct (Z.ltb_spec (here - 0) 0); [lia|].
  rewrite (near_loop_zero ns) by (try reflexivity; lia). unfold update_cache. cbn [zeros near_size same_size near_a same_a next_slot].
  destruct (Z.ltb_spec 0 ns); [|lia]. rewrite put_same by lia. change (0 <? 0) with false. cbv iota. rewrite Z.mod_small by lia. reflexivity.
Qed.
Lemma zeros_copies : forall m ns k w, at_state m w (zeros ns 0) 2 0 -> 0 <= ns <= 254 -> Z.of_nat k < ns ->
  writer_calls w (repeat (Copy 0 1) k) = None \/ exists w', writer_calls w (repeat (Copy 0 1) k) = Some w' /\ at_state m w' (zeros ns (Z.of_nat k)) 2 (Z.of_nat k).
Proof.
  intros m ns k w A N. induction k as [|k IH]; intros K; [right; exists w; auto|].
  replace (repeat (Copy 0 1) (S k)) with (repeat (Copy 0 1) k ++ [Copy 0 1]) by (symmetry; apply repeat_cons). rewrite calls_app.
  destruct (IH ltac:(lia)) as [E|(w' & E & A')]; [rewrite E; left; reflexivity|]. rewrite E. cbn [writer_calls writer_call].
  destruct (copy_step m w' _ _ _ 0 0 0 (zeros ns (Z.of_nat k + 1)) A') as [F|(w2 & F & A2 & _)]; [unfold int32_max; lia|lia|apply zeros_step; lia| |].
  - left. rewrite F. reflexivity.
  - right. exists w2. rewrite F. split; [reflexivity|]. replace (Z.of_nat (S k)) with (Z.of_nat k + 1) by lia. exact A2.
Qed.

(** the last NEAR slot holds 1, the others 0 *)
Lemma near_loop_last : forall ns c k i, (forall j, 0 <= j < ns - 1 -> get (near_a c) j = Some 0) -> get (near_a c) (ns - 1) = Some 1 ->
  0 <= i -> i + Z.of_nat k = ns -> (0 < k)%nat -> ns <= 254 -> encode_near_loop c 1 k i (0, 1) = Some (ns + 1, 0).
Proof.
  intros ns c k. induction k as [|k IH]; intros i Z0 L I K P N; [lia|]. cbn [encode_near_loop].
  destruct k as [|k].
  - replace i with (ns - 1) by lia. rewrite L. cbv zeta. cbn [snd]. change ((0 <=? 1 - 1) && (1 - 1 <? 1)) with true. cbv iota. cbn [encode_near_loop].
    rewrite to_uchar_id by lia. f_equal. f_equal. lia.
  - rewrite Z0 by lia. cbv zeta. cbn [snd]. change ((0 <=? 1 - 0) && (1 - 0 <? 1)) with false. cbv iota. apply IH; auto; lia.
Qed.
Lemma near_loop_ones : forall ns c k i, near_a c = zrepeat 0 ns -> 0 <= i -> i + Z.of_nat k <= ns -> encode_near_loop c 1 k i (0, 1) = Some (0, 1).
Proof.
  intros ns c k. induction k as [|k IH]; intros i E I K; cbn [encode_near_loop]; [reflexivity|].
  rewrite E, get_zrepeat by lia. cbv zeta. cbn [snd]. change ((0 <=? 1 - 0) && (1 - 0 <? 1)) with false. cbv iota. apply IH; auto; lia.
Qed.

Lemma outside_near : forall m ns w, at_state m w (zeros ns 0) 2 0 -> 0 < ns <= 254 -> m < ns + 1 ->
  writer_calls w (repeat (Copy 0 1) (Z.to_nat (ns - 1)) ++ [Copy 1 1; Copy 1 1]) = None.
Proof.
  intros m ns w A N M. rewrite calls_app.
  destruct (zeros_copies m ns (Z.to_nat (ns - 1)) w A) as [E|(w1 & E & A1)]; [lia|lia|rewrite E; reflexivity|]. rewrite E. rewrite Z2Nat.id in A1 by lia.
  cbn [writer_calls writer_call].
  destruct (put_some _ (zrepeat 0 ns) (ns - 1) 1) as (l & EP); [rewrite zlen_zrepeat; lia|].
  set (c2 := {| near_size := ns; same_size := 0; next_slot := (ns - 1 + 1) mod ns; near_a := l; same_a := zrepeat 0 0 |}).
  assert (encode_address (zeros ns (ns - 1)) 1 (2 + (ns - 1)) = Some (0, 1, c2)) as EA.
  { unfold encode_address. destruct (Z.leb_spec (2 + (ns - 1)) 1); [lia|]. change ((1 <? 0) || false) with false. cbv iota.
    cbn [zeros same_size near_size]. change (0 <? 0) with false. cbv iota zeta. cbn [snd]. destruct (Z.ltb_spec (2 + (ns - 1) - 1) 1); [lia|].
    rewrite (near_loop_ones ns) by (try reflexivity; lia). unfold update_cache. cbn [zeros near_size same_size near_a same_a next_slot].
    destruct (Z.ltb_spec 0 ns); [|lia]. rewrite EP. change (0 <? 0) with false. cbv iota. reflexivity. }
  destruct (copy_step m w1 _ _ _ 1 0 1 c2 A1) as [F|(w2 & F & A2 & _)]; [unfold int32_max; lia|lia|exact EA|rewrite F; reflexivity|]. rewrite F.
  apply put_inv in EP as (_ & L & G & O).
  assert (exists c3, encode_address c2 1 (2 + (ns - 1 + 1)) = Some (ns + 1, 0, c3)) as (c3 & EA3).
  { unfold encode_address. destruct (Z.leb_spec (2 + (ns - 1 + 1)) 1); [lia|]. change ((1 <? 0) || false) with false. cbv iota.
    cbn [c2 same_size near_size]. change (0 <? 0) with false. cbv iota zeta. cbn [snd]. destruct (Z.ltb_spec (2 + (ns - 1 + 1) - 1) 1); [lia|].
    rewrite (near_loop_last ns c2 (Z.to_nat ns) 0 (fun j J => eq_trans (O j ltac:(lia)) (get_zrepeat 0 ns j ltac:(lia))) G) by lia.
    assert (cache_fits ns 0 c2) as CF.
    { constructor; cbn; try reflexivity; try lia. rewrite L. apply zlen_zrepeat. lia. }
    destruct (update_fits ns 0 c2 1 ltac:(lia) ltac:(lia) CF) as (c3 & EU & _). rewrite EU. exists c3. reflexivity. }
  destruct (copy_step m w2 _ _ _ 1 (ns + 1) 0 c3 A2) as [H|(w3 & H & A3 & LE)]; [unfold int32_max; lia|lia|exact EA3|rewrite H; reflexivity|lia].
Qed.

Lemma outside_same : forall m ns ss w c, cache_init ns ss = Some c -> at_state m w c (ss * 256) 0 -> 0 <= ns -> 0 < ss -> m < ns + ss + 1 ->
  writer_calls w [Copy (ss * 256 - 1) 1; Copy (ss * 256 - 1) 1] = None.
Proof.
  intros m ns ss w c EC A N S M. destruct (init_fits ns ss c N ltac:(lia) EC) as [CF NS]. set (a := ss * 256 - 1). cbn [writer_calls writer_call].
  assert (get (same_a c) a = Some 0) as G0.
  { unfold cache_init in EC. destruct (254 <? ns + ss); [discriminate|]. injection EC as <-. cbn [same_a]. apply get_zrepeat. unfold a. lia. }
  assert (a mod (ss * 256) = a) as MA by (apply Z.mod_small; unfold a; lia).
  destruct (update_fits ns ss c a N ltac:(lia) CF) as (c' & EU & CF').
  assert (get (same_a c') a = Some a) as G1.
  { unfold update_cache in EU. rewrite (cf_same _ _ _ CF) in EU. destruct (Z.ltb_spec 0 ss); [|lia]. rewrite MA in EU.
    destruct (if 0 <? near_size c then _ else _) as [[l sl]|]; [|discriminate]. destruct (put (same_a c) a a) as [l2|] eqn:EP; [|discriminate]. injection EU as <-.
    cbn [same_a]. apply put_inv in EP. apply EP. }
  assert (exists mode e, encode_address c a (ss * 256 + 0) = Some (mode, e, c')) as (mode & e & EA).
  { unfold encode_address. destruct (Z.ltb_spec a 0); [unfold a in *; lia|]. destruct (Z.leb_spec (ss * 256 + 0) a); [unfold a in *; lia|]. cbn [orb].
    rewrite (cf_same _ _ _ CF), (cf_near _ _ _ CF). destruct (Z.ltb_spec 0 ss); [|lia]. rewrite MA, G0. destruct (Z.eqb_spec 0 a); [unfold a in *; lia|].
    destruct (near_loop_fits ns ss c a (Z.to_nat ns) 0 (if ss * 256 + 0 - a <? a then (1, ss * 256 + 0 - a) else (0, a)) CF ltac:(lia) ltac:(lia) ltac:(lia)) as (b & E & _).
    cbv zeta. cbn [snd]. rewrite E, EU. eauto. }
  destruct (copy_step m w _ _ _ a mode e c' A) as [F|(w1 & F & A1 & _)]; [unfold int32_max; lia|lia|exact EA|rewrite F; reflexivity|]. rewrite F.
  destruct (update_fits ns ss c' a N ltac:(lia) CF') as (c2 & EU2 & _).
  assert (encode_address c' a (ss * 256 + (0 + 1)) = Some (ns + ss + 1, a mod 256, c2)) as EA2.
  { unfold encode_address. destruct (Z.ltb_spec a 0); [unfold a in *; lia|]. destruct (Z.leb_spec (ss * 256 + (0 + 1)) a); [unfold a in *; lia|]. cbn [orb].
    rewrite (cf_same _ _ _ CF'), (cf_near _ _ _ CF'). destruct (Z.ltb_spec 0 ss); [|lia]. rewrite MA, G1, Z.eqb_refl. cbv zeta. rewrite EU2.
    assert (a / 256 = ss - 1) as -> by (unfold a; lia). unfold first_same_mode. rewrite (to_uchar_id (ss - 1)), (to_uchar_id (2 + ns)), to_uchar_id by lia.
    replace (2 + ns + (ss - 1)) with (ns + ss + 1) by lia. reflexivity. }
  destruct (copy_step m w1 _ _ _ a (ns + ss + 1) (a mod 256) c2 A1) as [H|(w3 & H & A3 & LE)]; [unfold int32_max; lia|lia|exact EA2|rewrite H; reflexivity|lia].
Qed.

Lemma outside_none : forall m w c, cache_init 0 0 = Some c -> at_state m w c 3 0 -> m < 1 -> writer_calls w [Copy 2 1] = None.
Proof.
  intros m w c EC A M. injection EC as <-. cbn [writer_calls writer_call].
  destruct (copy_step m w _ _ _ 2 1 1 {| near_size := 0; same_size := 0; next_slot := 0; near_a := zrepeat 0 0; same_a := zrepeat 0 0 |} A) as [H|(w3 & H & A3 & LE)];
    [unfold int32_max; lia|lia|reflexivity|rewrite H; reflexivity|lia].
Qed.
