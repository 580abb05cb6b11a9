(** C50: COPYs are maximal.  C51: repetitive data takes constant space. *)

From Verif Require Import Base ListFacts Spec SpecEncode SpecFind SpecMaximal WriterFacts Engine EngineFacts EncodeTable Encoder EncoderFacts Properties_Encode Finds Maximal Runs.
From Coq Require Import ZifyBool ZifyNat.

(** ** C50 *)

(** No COPY could be one byte longer at its end.  If there is an ADD just before it,
    it could not begin one byte earlier either.  [T] is the target data before the
    COPY. *)
Theorem C50_maximal : forall dict look target en l l1 a n l2 T,
  bytes_ok dict -> bytes_ok target -> zlen dict + zlen target <= int32_max ->
  engine_init (new_engine dict) = Some (en, true) -> engine_encode en look target = Some (Some l) ->
  l = l1 ++ Copy a n :: l2 -> execute_all dict [] l1 = Some T ->
  ~ extends_right dict target (zlen T) a n /\
  (forall l0 d, l1 = l0 ++ [Add d] -> ~ extends_left dict target (zlen T) a).
Proof. exact copies_maximal. Qed.
Print Assumptions C50_maximal.

(** A COPY is the longest one at some position [q] in it: any match of a block at [q]
    that is easy to find (see C43), and that begins in the COPY or in the ADD just
    before it, is at most as long.  With target matching this includes the blocks of
    the target before [q]. *)
Theorem C50_longest : forall dict look target en l l1 a n l2 T,
  bytes_ok dict -> bytes_ok target -> zlen dict + zlen target <= int32_max ->
  engine_init (new_engine dict) = Some (en, true) -> engine_encode en look target = Some (Some l) ->
  l = l1 ++ Copy a n :: l2 -> execute_all dict [] l1 = Some T ->
  exists q, zlen T <= q /\ q + 16 <= zlen T + n /\
    forall i j m b, (zlen T <= j \/ exists l0 d, l1 = l0 ++ [Add d] /\ zlen T - zlen d <= j) ->
      (easy (zlen dict) dict b /\ match_at dict target i j m b q) \/
      (look = true /\ easy (zlen target) target b /\ 16 * b < q /\ match_at target target i j m b q) -> m <= n.
Proof. exact copies_longest. Qed.
Print Assumptions C50_longest.

(** The dictionary contains the middle of the target twice: 33 bytes of it in its
    first blocks, 40 bytes later.  The longer match is taken, with all its bytes. *)
Definition c50_mid : list Z := map (fun k => 100 + Z.of_nat k) (seq 0 40).
Definition c50_dict : list Z := ztake 33 c50_mid ++ zrepeat 1 15 ++ c50_mid ++ [2].
Definition c50_target : list Z := [5; 6; 7] ++ c50_mid ++ [8; 9].
Example C50_case : zlen c50_dict = 89 /\
  instructions c50_dict true c50_target = Some ([Add [5; 6; 7]] ++ Copy 48 40 :: [Add [8; 9]]) /\
  execute_all c50_dict [] [Add [5; 6; 7]] = Some [5; 6; 7] /\
  match_at c50_dict c50_target 0 3 33 0 3 /\ match_at c50_dict c50_target 48 3 40 3 3.
Proof.
  split; [vm_compute; reflexivity|]. split; [vm_compute; reflexivity|]. split; [vm_compute; reflexivity|].
  split; (split; [eexists; split; vm_compute; reflexivity|lia]).
Qed.

(** ** C51 *)

Lemma encode_cost : forall dict fl target c, bytes_ok dict -> bytes_ok target -> zlen dict + zlen target <= int32_max -> zlen target <= 2147483594 ->
  fl_json fl = false -> 0 <= c ->
  (forall en l, engine_init (new_engine dict) = Some (en, true) -> engine_encode en true target = Some (Some l) -> costs l <= c) ->
  exists v delta, encode (set_target_matching (set_format_flags (new_vcdiff_encoder dict) fl) true) target = Some (v, true, delta) /\
    zlen delta <= c + 52.
Proof.
  intros dict fl target c BD BT L L2 J C0 CO. pose proof (zlen_nonneg _ target). pose proof (zlen_nonneg _ dict).
  destruct (engine_init_ok dict BD) as (en & EI & EN); [lia|].
  unfold encode. cbn [set_target_matching set_format_flags new_vcdiff_encoder ve_engine ve_encoder ve_flags ve_look]. rewrite EI.
  destruct (new_encoder_inv en dict fl true true EN) as (im & E0); [lia|exact J|].
  destruct (start_encoding_ok _ _ _ _ _ E0) as (c0 & _ & ES & E1).
  destruct (encode_chunk_ok _ dict im _ _ target [] E1 eq_refl BT L L2) as (w' & out & EC & _ & _ & _ & O).
  unfold encode_stream. rewrite ES. cbn [encode_chunks]. rewrite EC.
  unfold finish_encoding. cbn [set_coder ec_allowed negb ec_coder coder_finish]. do 2 eexists. split; [reflexivity|].
  rewrite app_nil_r, zlen_app. destruct (write_header_bytes (ec_flags (new_encoder en fl true))) as [_ ->].
  destruct O as [[_ ->]|(NE & _ & _ & _ & O)]; [rewrite zlen_nil; lia|].
  destruct (engine_encode_ok en dict true target EN BT NE L) as (l & EE & _). specialize (O l EE). specialize (CO en l EI EE). lia.
Qed.

(** A target of equal bytes takes at most 100 bytes, however long it is and whatever
    the dictionary contains. *)
Theorem C51_run_size : forall dict fl b n, bytes_ok dict -> byte_ok b -> 0 <= n <= 2147483594 -> zlen dict + n <= int32_max ->
  fl_json fl = false ->
  exists v delta, encode (set_target_matching (set_format_flags (new_vcdiff_encoder dict) fl) true) (zrepeat b n) = Some (v, true, delta) /\
    zlen delta <= 100.
Proof.
  intros dict fl b n BD BB N L J.
  assert (bytes_ok (zrepeat b n)) as BT by (apply Forall_forall; intros x X; apply repeat_spec in X; subst; exact BB).
  apply (encode_cost dict fl (zrepeat b n) 48); try (rewrite zlen_zrepeat by lia); auto; try lia.
  intros en l EI EE. apply (run_costs dict (zrepeat b n) en l); auto; [apply zrepeat_periodic|]. rewrite zlen_zrepeat; lia.
Qed.
Print Assumptions C51_run_size.

(** With a dictionary of less than 32 bytes, a target that repeats with a period of at
    most 32 bytes takes at most 121 bytes, however long it is. *)
Theorem C51_periodic_size : forall p dict fl target, 0 < p <= 32 -> periodic p target -> zlen dict < 32 ->
  bytes_ok dict -> bytes_ok target -> zlen target <= 2147483594 -> fl_json fl = false ->
  exists v delta, encode (set_target_matching (set_format_flags (new_vcdiff_encoder dict) fl) true) target = Some (v, true, delta) /\
    zlen delta <= 121.
Proof.
  intros p dict fl target P PE SD BD BT L J.
  apply (encode_cost dict fl target 69); auto; try (unfold int32_max; lia).
  intros en l EI EE. apply (periodic_costs p dict target en l); auto. unfold int32_max; lia.
Qed.
Print Assumptions C51_periodic_size.

(** Without target matching the same data is not found: 200 equal bytes stay an ADD. *)
Definition delta_size (dict target : list Z) (look : bool) : option Z :=
  match encode (set_target_matching (new_vcdiff_encoder dict) look) target with
  | Some (_, true, delta) => Some (zlen delta)
  | _ => None
  end.
Example C51_case :
  delta_size [1; 2; 3] (zrepeat 7 200) true = Some 21 /\ delta_size [1; 2; 3] (zrepeat 7 200) false = Some 220 /\
  instructions [1; 2; 3] true (zrepeat 7 200) = Some [Add [7]; Copy 3 199] /\
  periodic 5 (concat (repeat [1; 2; 3; 4; 5] 30)) /\ delta_size [] (concat (repeat [1; 2; 3; 4; 5] 30)) true = Some 25.
Proof.
  split; [vm_compute; reflexivity|]. split; [vm_compute; reflexivity|]. split; [vm_compute; reflexivity|]. split; [|vm_compute; reflexivity].
  intros i I L. assert (zlen (concat (repeat [1; 2; 3; 4; 5] 30)) = 150) as E by (vm_compute; reflexivity). rewrite E in L.
  assert (forallb (fun k => match get (concat (repeat [1; 2; 3; 4; 5] 30)) (Z.of_nat k + 5), get (concat (repeat [1; 2; 3; 4; 5] 30)) (Z.of_nat k) with
    Some x, Some y => x =? y | _, _ => false end) (seq 0 145) = true) as F by (vm_compute; reflexivity).
  rewrite forallb_forall in F. specialize (F (Z.to_nat i)). rewrite in_seq in F. specialize (F ltac:(lia)). rewrite Z2Nat.id in F by lia.
  destruct (get _ (i + 5)) as [x|]; [|discriminate]. destruct (get _ i) as [y|]; [|discriminate]. f_equal. lia.
Qed.
