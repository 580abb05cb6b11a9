(** The code table writer (encodetable.cc) writes windows that mean the
    instructions it was given. *)

From Verif Require Import Base Spec SpecEncode SpecInstr Varint VarintFacts AddrCache AddrCacheFacts CodeTable
  InstructionMap CodeTableFacts AdlerFacts CopyFacts BodyFacts InstructionMapFacts EncodeTable.
From Coq Require Import ZifyBool ZifyNat.

(** A writer that has been constructed with a validated table and Init-ed. *)
Record wcfg (w : writer) (im : instruction_map) : Prop := {
  wc_table : table_ok (wr_table w);
  wc_mode : wr_max_mode w = 1 + wr_near w + wr_same w;
  wc_mode255 : wr_max_mode w <= 255;
  wc_near : 0 <= wr_near w <= 253;
  wc_same : 0 <= wr_same w;
  wc_valid : validate (wr_table w) (wr_max_mode w) = Some true;
  wc_map : wr_map w = Some im;
  wc_map_ok : map_ok (wr_table w) (wr_max_mode w) im
}.

Lemma wcfg_valid : forall w im, wcfg w im -> valid_table (wr_table w) (wr_max_mode w).
Proof.
  intros w im C. destruct C as [T M M2 N S V MP MO]. split; [exact T|]. split; [lia|].
  destruct (validate_eq (wr_table w) (wr_max_mode w) T) as (b & E & IFF); [lia|]. rewrite V in E. injection E as <-.
  apply (proj1 IFF eq_refl).
Qed.

Definition wsec (w : writer) : sec3 := (wr_inst w, wr_data w, wr_addr w).
Definition inst_of (s : sec3) : list Z := fst (fst s).

(** The last opcode is [i], it stands for the single instruction [h] with bytes
    [p], and could be replaced by an opcode for two instructions. *)
Definition last_single (w : writer) (seg : list Z) (ins : list instruction) (items : list item) (hist T : list Z) : Prop :=
  exists pre i h p s1 ins0 i0,
    ins = ins0 ++ [i0] /\ items = pre ++ [i] /\ wr_last w = zlen (inst_of (items_sec (wr_il w) pre)) /\
    single (wr_table w) (i_op i) h /\
    item_sec (wr_il w) i = app3 ([i_op i], [], []) (piece_sec (wr_il w) p) /\
    zlen (snd s1) < zlen T /\
    (forall L, zlen (snd s1) <= L ->
       items_read (entry (wr_table w)) (wr_near w) (wr_same w) L seg pre ([], []) s1 ins0) /\
    (forall L, zlen (snd s1) < L ->
       half_reads (wr_near w) (wr_same w) L seg h p s1 (hist, T) [i0]).

Definition total (w : writer) : Z := zlen (wr_inst w) + zlen (wr_data w) + zlen (wr_addr w).

Record winv (w : writer) (im : instruction_map) (seg : list Z) (ins : list instruction) (items : list item) (hist T : list Z) : Prop := {
  wi_cfg : wcfg w im;
  wi_mean : forall L, zlen T <= L ->
    items_read (entry (wr_table w)) (wr_near w) (wr_same w) L seg items ([], []) (hist, T) ins;
  wi_cache : cache_rep (wr_cache w) hist /\ near_size (wr_cache w) = wr_near w /\ same_size (wr_cache w) = wr_same w;
  wi_sec : wsec w = items_sec (wr_il w) items;
  wi_dict : wr_dict_size w = zlen seg;
  wi_len : wr_len w = zlen T;
  wi_last : wr_last w = -1 \/ last_single w seg ins items hist T;
  wi_bytes : bytes_ok (wr_inst w) /\ bytes_ok (wr_data w) /\ bytes_ok (wr_addr w);
  wi_ne : (items = [] /\ T = []) \/
          (items <> [] /\ T <> [] /\ wr_inst w <> [] /\ (wr_il w = false -> wr_data w <> [] \/ wr_addr w <> []))
}.

Ltac zl := cbn [app]; repeat (rewrite zlen_app || rewrite zlen_cons || rewrite zlen_nil).
Ltac bok := repeat first [assumption | apply Forall_nil | apply Forall_cons | (apply bytes_ok_app; split)].

Lemma put_mid : forall A (a b : list A) x y, put (a ++ x :: b) (zlen a) y = Some (a ++ y :: b).
Proof.
  Local Transparent put zlen.
  intros A a b x y. unfold put. rewrite zlen_app, zlen_cons. pose proof (zlen_nonneg _ a). pose proof (zlen_nonneg _ b).
  destruct (Z.leb_spec 0 (zlen a)); [|lia]. destruct (Z.ltb_spec (zlen a) (zlen a + (1 + zlen b))); [|lia]. cbn [andb].
  f_equal. unfold zlen. rewrite Nat2Z.id. clear. induction a as [|z a IH]; cbn; [reflexivity|]. rewrite IH. reflexivity.
  Local Opaque put zlen.
Qed.
Lemma get_mid : forall A (a b : list A) x, get (a ++ x :: b) (zlen a) = Some x.
Proof.
  Local Transparent get zlen.
  intros A a b x. unfold get, zlen. destruct (Z.ltb_spec (Z.of_nat (length a)) 0); [lia|]. rewrite Nat2Z.id.
  rewrite nth_error_app2 by lia. rewrite Nat.sub_diag. reflexivity.
  Local Opaque get zlen.
Qed.

Lemma items_read_app : forall tbl ns ss L seg a b s s1 s2 x y,
  items_read tbl ns ss L seg a s s1 x -> items_read tbl ns ss L seg b s1 s2 y ->
  items_read tbl ns ss L seg (a ++ b) s s2 (x ++ y).
Proof.
  intros tbl ns ss L seg a b s s1 s2 x y H. revert s2 y. induction H as [s|i l s sa sb sc x1 x2 x3 BI LT H1 H2 H3 IH]; intros s2 y HB.
  - exact HB.
  - cbn [app]. rewrite <- !app_assoc. econstructor; eauto.
Qed.

(** ** What EncodeInstruction does *)

Definition choice (w : writer) (seg : list Z) (ins : list instruction) (items : list item) (hist T : list Z) (inst size mode : Z) (w' : writer) : Prop :=
  exists k ps op, size_code k ps size /\ byte_ok op /\ bytes_ok ps /\ zlen ps <= 5 /\
   ((single (wr_table w) op (half_at (row inst mode) k) /\
     w' = set_inst w (wr_inst w ++ [op] ++ ps) (zlen (wr_inst w))) \/
    (exists pre i h p s1 a b ins0 i0,
       ins = ins0 ++ [i0] /\ items = pre ++ [i] /\ entry (wr_table w) op = (h, half_at (row inst mode) k) /\
       item_sec (wr_il w) i = app3 ([i_op i], [], []) (piece_sec (wr_il w) p) /\
       zlen (snd s1) < zlen T /\
       (forall L, zlen (snd s1) <= L ->
          items_read (entry (wr_table w)) (wr_near w) (wr_same w) L seg pre ([], []) s1 ins0) /\
       (forall L, zlen (snd s1) < L -> half_reads (wr_near w) (wr_same w) L seg h p s1 (hist, T) [i0]) /\
       a = inst_of (items_sec (wr_il w) pre) /\
       wr_inst w = a ++ [i_op i] ++ b /\
       w' = set_inst w (a ++ [op] ++ b ++ ps) (-1))).

Lemma I32_ok : type_ok I32.
Proof. left. reflexivity. Qed.
Lemma I64_ok : type_ok I64.
Proof. right. reflexivity. Qed.

Lemma size_bytes_ok : forall n, 0 <= n <= int32_max ->
  varint (size_bytes n) n /\ bytes_ok (size_bytes n) /\ 1 <= zlen (size_bytes n) <= 5 /\
  size_length n = zlen (size_bytes n).
Proof.
  intros n N. unfold size_bytes, size_length. rewrite to_int32_id by (unfold int32_max in *; lia).
  split; [apply encode_bytes_ok; [apply I32_ok|exact N]|].
  split; [apply is_varint_bytes_ok; apply (encode_bytes_ok I32 n I32_ok N)|].
  split; [|apply (varint_length_ok I32); [apply I32_ok|exact N]].
  unfold encode_bytes. destruct (encode_total I32 n I32_ok N) as (l & -> & _ & L & _). cbn in L.
  Local Transparent zlen. unfold zlen. Local Opaque zlen. lia.
Qed.

Lemma encode_single_ok : forall w im seg ins items hist T inst size mode,
  winv w im seg ins items hist T -> 1 <= inst <= 3 -> 1 <= size <= int32_max -> 0 <= mode <= wr_max_mode w ->
  exists w', encode_single w im inst size mode = Some w' /\ choice w seg ins items hist T inst size mode w'.
Proof.
  intros w im seg ins items hist T inst size mode W I S M. pose proof (wi_cfg _ _ _ _ _ _ _ W) as C.
  pose proof (wcfg_valid w im C) as VT. pose proof (wc_map_ok _ _ C) as MO.
  unfold encode_single.
  assert (exists op, (if size <=? 255 then first_lookup (im_first im) inst size mode else Some kNoOpcode) = Some op /\
             (op <> kNoOpcode -> single (wr_table w) op (half_at (row inst mode) size))) as (op & -> & SO).
  { destruct (size <=? 255); [|exists kNoOpcode; split; [reflexivity|congruence]].
    destruct (first_lookup_total _ _ im inst size mode MO I M) as [op E]. exists op. split; [exact E|].
    intros N. eapply first_lookup_sound; eauto. lia. }
  destruct (Z.eqb_spec op kNoOpcode) as [->|NE]; cbn [negb].
  - destruct (first_lookup_explicit (wr_table w) (wr_max_mode w) im inst mode (wc_table _ _ C)) as (op & E & N); auto.
    { destruct VT as (_ & ? & _). lia. } { apply (wc_valid _ _ C). }
    rewrite E. destruct (Z.eqb_spec op kNoOpcode); [contradiction|].
    pose proof (first_lookup_sound _ _ _ _ _ _ _ VT MO I (proj1 M) E N) as SG.
    eexists. split; [reflexivity|]. exists 0, (size_bytes size), op.
    destruct (size_bytes_ok size) as (V & B & L & _); [lia|].
    destruct SG as (BO & SG). split; [right; auto|]. split; [exact BO|]. split; [exact B|]. split; [lia|].
    left. split; [exact (conj BO SG)|]. unfold to_uchar. rewrite Z.mod_small by exact BO. reflexivity.
  - specialize (SO NE). pose proof SO as (BO & _).
    eexists. split; [reflexivity|]. exists size, [], op. split; [left; repeat split; lia|]. split; [exact BO|]. split; [constructor|].
    split; [rewrite zlen_nil; lia|].
    left. split; [exact SO|]. unfold to_uchar. rewrite Z.mod_small by exact BO. rewrite app_nil_r. reflexivity.
Qed.

Lemma encode_instruction_ok : forall w im seg ins items hist T inst size mode,
  winv w im seg ins items hist T -> 1 <= inst <= 3 -> 1 <= size <= int32_max -> 0 <= mode <= wr_max_mode w ->
  exists w', encode_instruction w inst size mode = Some w' /\ choice w seg ins items hist T inst size mode w'.
Proof.
  intros w im seg ins items hist T inst size mode W I S M. pose proof (wi_cfg _ _ _ _ _ _ _ W) as C.
  pose proof (wcfg_valid w im C) as VT. pose proof (wc_map_ok _ _ C) as MO.
  unfold encode_instruction. rewrite (wc_map _ _ C).
  destruct (wi_last _ _ _ _ _ _ _ W) as [-> | (pre & i & h & p & s1 & ins0 & i0 & EN & EI & EL & SG & IS & LT & MP & HM)].
  { change (0 <=? -1) with false. cbn iota. apply encode_single_ok; auto. }
  destruct (Z.leb_spec 0 (wr_last w)) as [_|NL]; [|rewrite EL in NL; pose proof (zlen_nonneg _ (inst_of (items_sec (wr_il w) pre))); lia].
  pose proof (wi_sec _ _ _ _ _ _ _ W) as SEC. rewrite EI, items_sec_app in SEC.
  rewrite (items_sec_cons _ i []) in SEC. rewrite IS in SEC.
  remember (items_sec (wr_il w) pre) as sp eqn:ESP. destruct sp as [[a da] aa].
  remember (piece_sec (wr_il w) p) as pp eqn:EPP. destruct pp as [[pi pd] pa].
  assert (items_sec (wr_il w) [] = nil3) as N3 by (destruct (wr_il w); reflexivity). rewrite N3, app3_nil_r in SEC.
  cbn [app3 app] in SEC. unfold wsec in SEC. injection SEC as SI SD SA.
  change (inst_of (a, da, aa)) with a in EL.
  rewrite EL, SI, get_mid.
  assert (exists op, (if size <=? 255 then second_lookup (im_second im) (i_op i) inst size mode else Some kNoOpcode) = Some op /\
             (op <> kNoOpcode -> byte_ok op /\ exists h1, single (wr_table w) (i_op i) h1 /\ entry (wr_table w) op = (h1, half_at (row inst mode) size))) as (op & -> & SO).
  { destruct (size <=? 255); [|exists kNoOpcode; split; [reflexivity|congruence]].
    destruct (second_lookup_total _ _ im (i_op i) inst size mode MO I M) as [op E]. exists op. split; [exact E|].
    intros N. eapply second_lookup_sound; eauto. lia. }
  destruct (Z.eqb_spec op kNoOpcode) as [->|NE]; cbn [negb].
  - destruct (second_lookup_total _ _ im (i_op i) inst 0 mode MO I M) as [op E]. rewrite E.
    destruct (Z.eqb_spec op kNoOpcode) as [->|NE]; cbn [negb].
    { apply encode_single_ok; auto. }
    destruct (second_lookup_sound _ _ _ _ _ _ _ _ VT MO I (proj1 M) E NE) as (BO & h1 & SG1 & EE).
    rewrite (single_fun _ _ _ _ SG1 SG) in EE. rewrite put_mid.
    eexists. split; [reflexivity|].
    destruct (size_bytes_ok size) as (V & B & L & _); [lia|].
    exists 0, (size_bytes size), op. split; [right; auto|]. split; [exact BO|]. split; [exact B|]. split; [lia|].
    right. exists pre, i, h, p, s1, a, pi, ins0, i0. split; [exact EN|]. split; [exact EI|]. split; [exact EE|]. split; [rewrite IS, <- EPP; reflexivity|].
    split; [exact LT|]. split; [exact MP|]. split; [exact HM|]. split; [rewrite <- ESP; reflexivity|].
    split; [exact SI|]. unfold to_uchar. rewrite Z.mod_small by exact BO. rewrite <- app_assoc. reflexivity.
  - destruct (SO NE) as (BO & h1 & SG1 & EE). rewrite (single_fun _ _ _ _ SG1 SG) in EE. rewrite put_mid.
    eexists. split; [reflexivity|].
    exists size, [], op. split; [left; repeat split; lia|]. split; [exact BO|]. split; [constructor|]. split; [rewrite zlen_nil; lia|].
    right. exists pre, i, h, p, s1, a, pi, ins0, i0. split; [exact EN|]. split; [exact EI|]. split; [exact EE|]. split; [rewrite IS, <- EPP; reflexivity|].
    split; [exact LT|]. split; [exact MP|]. split; [exact HM|]. split; [rewrite <- ESP; reflexivity|].
    split; [exact SI|]. unfold to_uchar. rewrite Z.mod_small by exact BO. rewrite app_nil_r. reflexivity.
Qed.

(** ** One instruction *)

Definition cfg_of (w : writer) := (wr_il w, wr_table w, wr_max_mode w, wr_near w, wr_same w, wr_map w).

Lemma wcfg_eq : forall w w' im, cfg_of w' = cfg_of w -> wcfg w im -> wcfg w' im.
Proof.
  intros w w' im E C. unfold cfg_of in E. injection E as E1 E2 E3 E4 E5 E6. destruct C.
  constructor; rewrite ?E2, ?E3, ?E4, ?E5, ?E6; assumption.
Qed.

Lemma single_item : forall t il op h p ns ss seg, single t op h -> exists i, i_op i = op /\
  item_sec il i = app3 ([op], [], []) (piece_sec il p) /\
  forall L s s' x, zlen (snd s) < L -> half_reads ns ss L seg h p s s' x ->
    items_read (entry t) ns ss L seg [i] s s' x.
Proof.
  intros t il op h p ns ss seg (B & N & [E|E]).
  - exists {| i_op := op; i_first := p; i_second := no_piece |}. split; [reflexivity|]. split.
    { rewrite item_sec_split. cbn [i_op i_first i_second]. rewrite piece_sec_no, app3_nil_r. reflexivity. }
    intros L s s' x LT HM. rewrite <- (app_nil_r x). eapply ir_cons with (s1 := s') (s2 := s') (x2 := []) (x3 := []); cbn [i_op i_first i_second]; auto.
    + rewrite E. exact HM.
    + rewrite E. constructor.
    + constructor.
  - exists {| i_op := op; i_first := no_piece; i_second := p |}. split; [reflexivity|]. split.
    { rewrite item_sec_split. cbn [i_op i_first i_second]. rewrite piece_sec_no, app3_nil_l. reflexivity. }
    intros L s s' x LT HM. replace x with ([] ++ x ++ []) by (cbn; apply app_nil_r). eapply ir_cons with (s1 := s) (s2 := s') (x1 := []) (x3 := []); cbn [i_op i_first i_second]; auto.
    + rewrite E. constructor.
    + rewrite E. exact HM.
    + constructor.
Qed.

Definition piece_tail (il : bool) (pd pa : list Z) : sec3 :=
  if il then (pd ++ pa, [], []) else ([], pd, pa).

Lemma piece_sec_tail : forall il ps pd pa,
  piece_sec il {| p_size := ps; p_data := pd; p_addr := pa |} = app3 (ps, [], []) (piece_tail il pd pa).
Proof. intros [|] ps pd pa; cbn; [reflexivity|]. rewrite app_nil_r. reflexivity. Qed.

Lemma zlen3_app : forall (a b : sec3) x y, app3 a b = (x, y) ->
  zlen (fst x) + zlen (snd x) + zlen y =
  (zlen (fst (fst a)) + zlen (snd (fst a)) + zlen (snd a)) + (zlen (fst (fst b)) + zlen (snd (fst b)) + zlen (snd b)).
Proof. intros [[a1 a2] a3] [[b1 b2] b3] [x1 x2] y H. cbn in H. injection H as <- <- <-. cbn [fst snd]. rewrite !zlen_app. lia. Qed.

Lemma winv_step : forall w im seg ins items hist T inst size mode w1 w' pd pa hist' T' i1,
  winv w im seg ins items hist T -> choice w seg ins items hist T inst size mode w1 ->
  cfg_of w' = cfg_of w ->
  wsec w' = app3 (wsec w1) (piece_tail (wr_il w) pd pa) -> wr_last w' = wr_last w1 ->
  wr_dict_size w' = wr_dict_size w -> wr_len w' = zlen T' ->
  cache_rep (wr_cache w') hist' /\ near_size (wr_cache w') = wr_near w /\ same_size (wr_cache w') = wr_same w ->
  zlen T < zlen T' -> bytes_ok pd -> bytes_ok pa -> pd ++ pa <> [] ->
  (forall L k ps, zlen T < L -> size_code k ps size ->
     half_reads (wr_near w) (wr_same w) L seg (half_at (row inst mode) k)
       {| p_size := ps; p_data := pd; p_addr := pa |} (hist, T) (hist', T') [i1]) ->
  (exists items', winv w' im seg (ins ++ [i1]) items' hist' T') /\ total w' <= total w + 6 + zlen pd + zlen pa.
Proof.
  intros w im seg ins items hist T inst size mode w1 w' pd pa hist' T' i1 W CH CF SE LA DS LN CA LT BD BA NE HM.
  destruct CH as (k & ps & op & SC & BO & BP & LP & CH).
  pose proof W as [WC WM WCA WS WD WL WLA (B1 & B2 & B3) WN].
  pose proof CF as CF'. unfold cfg_of in CF'. injection CF' as F1 F2 F3 F4 F5 F6.
  set (p := {| p_size := ps; p_data := pd; p_addr := pa |}).
  destruct CH as [(SG & ->)|(pre & i & h & p0 & s1 & a & b & ins0 & i0 & EN & EI & EE & IS & LT1 & MP & HP & EA & EW & ->)].
  - destruct (single_item (wr_table w) (wr_il w) op _ p (wr_near w) (wr_same w) seg SG) as (i & EO & IS & MI).
    assert (wsec w' = items_sec (wr_il w') (items ++ [i])) as SEC.
    { rewrite F1, SE, items_sec_app, <- WS, (items_sec_cons _ i []), IS. unfold p. rewrite piece_sec_tail.
      assert (items_sec (wr_il w) [] = nil3) as -> by (destruct (wr_il w); reflexivity). rewrite app3_nil_r.
      unfold wsec, set_inst; cbn [wr_inst wr_data wr_addr].
      rewrite app3_assoc. rewrite app3_assoc. f_equal. cbn. rewrite !app_nil_r, <- app_assoc. reflexivity. }
    assert (total w' <= total w + 6 + zlen pd + zlen pa /\ bytes_ok (wr_inst w') /\ bytes_ok (wr_data w') /\ bytes_ok (wr_addr w') /\
            wr_inst w' <> [] /\ (wr_il w' = false -> wr_data w' <> [] \/ wr_addr w' <> [])) as (TO & BB1 & BB2 & BB3 & NI & ND).
    { rewrite F1. unfold wsec, set_inst in SE; cbn [wr_inst wr_data wr_addr] in SE. unfold total. destruct (wr_il w) eqn:IL; cbn [piece_tail app3] in SE; injection SE as -> -> ->; rewrite ?app_nil_r.
      - zl. split; [lia|].
        split; [bok|]. split; [exact B2|]. split; [exact B3|]. split; [|congruence].
        intros X. apply app_eq_nil in X as [X _]. apply app_eq_nil in X as [_ X]. discriminate.
      - zl. split; [lia|].
        split; [bok|]. split; [bok|]. split; [bok|].
        split; [intros X; apply app_eq_nil in X as [_ X]; discriminate|]. intros _.
        destruct pd as [|x pd]; [right|left]; intros X; apply app_eq_nil in X as [_ X]; [|discriminate]. subst pa. apply NE. reflexivity. }
    split; [|exact TO]. exists (items ++ [i]).
    assert (forall L, zlen T < L -> items_read (entry (wr_table w)) (wr_near w) (wr_same w) L seg [i] (hist, T) (hist', T') [i1]) as MI'.
    { intros L LL. apply MI; [exact LL|]. apply HM; auto. }
    constructor; rewrite ?F1, ?F2, ?F3, ?F4, ?F5; auto.
    + eapply wcfg_eq; eauto.
    + intros L LL. eapply items_read_app; [apply WM; lia|apply MI'; lia].
    + rewrite <- F1. exact SEC.
    + congruence.
    + right. exists items, i, (half_at (row inst mode) k), p, (hist, T), ins, i1. rewrite ?F1, ?F2, ?F4, ?F5.
      split; [reflexivity|]. split; [reflexivity|]. split; [rewrite LA, <- WS; reflexivity|]. split; [rewrite EO; exact SG|].
      split; [rewrite IS, EO; reflexivity|]. split; [exact LT|]. split; [exact WM|]. intros L LL. apply HM; auto.
    + right. split; [intros X; apply app_eq_nil in X as [_ X]; discriminate|]. split; [intros ->; rewrite zlen_nil in LT; pose proof (zlen_nonneg _ T); lia|].
      split; [exact NI|]. rewrite <- F1. exact ND.
  - set (i' := {| i_op := op; i_first := p0; i_second := p |}).
    assert (items_sec (wr_il w) [] = nil3) as N3 by (destruct (wr_il w); reflexivity).
    pose proof WS as WS'. rewrite EI, items_sec_app, (items_sec_cons _ i []), IS, N3, app3_nil_r in WS'.
    assert (wsec w' = items_sec (wr_il w') (pre ++ [i'])) as SEC.
    { rewrite F1, SE, items_sec_app, (items_sec_cons _ i' []), N3, app3_nil_r, item_sec_split. cbn [i' i_op i_first i_second].
      unfold p. rewrite piece_sec_tail. unfold wsec, set_inst in *; cbn [wr_inst wr_data wr_addr] in *.
      rewrite !app3_assoc. f_equal. subst a. destruct (items_sec (wr_il w) pre) as [[a da] aa].
      destruct (piece_sec (wr_il w) p0) as [[x y] z]. cbn in *. injection WS' as WS1 WS2 WS3. rewrite EW in WS1.
      apply app_inv_head in WS1. injection WS1 as ->. rewrite <- !app_assoc. rewrite WS2, WS3, !app_nil_r. reflexivity. }
    assert (bytes_ok a /\ bytes_ok b) as [BA1 BB].
    { rewrite EW in B1. apply bytes_ok_app in B1 as [? B1']. apply bytes_ok_app in B1' as [? ?]. auto. }
    assert (items <> []) as INE by (rewrite EI; destruct pre; discriminate).
    destruct WN as [[X _]|(_ & _ & _ & ND0)]; [contradiction|].
    assert (total w' <= total w + 6 + zlen pd + zlen pa /\ bytes_ok (wr_inst w') /\ bytes_ok (wr_data w') /\ bytes_ok (wr_addr w') /\
            wr_inst w' <> [] /\ (wr_il w' = false -> wr_data w' <> [] \/ wr_addr w' <> [])) as (TO & BB1 & BB2 & BB3 & NI & ND).
    { rewrite F1. unfold wsec, set_inst in SE; cbn [wr_inst wr_data wr_addr] in SE. unfold total. rewrite EW. destruct (wr_il w) eqn:IL; cbn [piece_tail app3] in SE; injection SE as -> -> ->; rewrite ?app_nil_r.
      - zl. split; [lia|].
        split; [bok|]. split; [exact B2|]. split; [exact B3|]. split; [|congruence].
        destruct a; discriminate.
      - zl. split; [lia|].
        split; [bok|]. split; [bok|]. split; [bok|].
        split; [destruct a; discriminate|]. intros _.
        destruct pd as [|x pd]; [right|left]; intros X; apply app_eq_nil in X as [_ X]; [|discriminate]. subst pa. apply NE. reflexivity. }
    split; [|exact TO]. exists (pre ++ [i']).
    constructor; rewrite ?F1, ?F2, ?F3, ?F4, ?F5; auto.
    + eapply wcfg_eq; eauto.
    + intros L LL. rewrite EN, <- app_assoc. eapply items_read_app; [apply MP; lia|]. change ([i0] ++ [i1]) with ([i0] ++ [i1] ++ []).
      eapply ir_cons with (s1 := (hist, T)) (s2 := (hist', T')); cbn [i' i_op i_first i_second].
      * exact BO.
      * lia.
      * rewrite EE. apply HP. lia.
      * rewrite EE. apply HM; [lia|exact SC].
      * constructor.
    + rewrite <- F1. exact SEC.
    + congruence.
    + right. split; [intros X; apply app_eq_nil in X as [_ X]; discriminate|]. split; [intros ->; rewrite zlen_nil in LT; pose proof (zlen_nonneg _ T); lia|].
      split; [exact NI|]. rewrite <- F1. exact ND.
Qed.

Definition set_cache (w : writer) (c : cache) : writer :=
  set_state w c (wr_dict_size w) (wr_len w) (wr_map w) (wr_last w).

Lemma encode_single_cache : forall w c im inst size mode,
  encode_single (set_cache w c) im inst size mode = option_map (fun x => set_cache x c) (encode_single w im inst size mode).
Proof.
  intros w c im inst size mode. unfold encode_single. cbn [set_cache set_state wr_inst].
  destruct (if size <=? 255 then _ else _) as [op|]; [|reflexivity]. destruct (negb _); [reflexivity|].
  destruct (first_lookup _ _ _ _) as [op2|]; [|reflexivity]. destruct (_ =? _); reflexivity.
Qed.
Lemma encode_instruction_cache : forall w c inst size mode,
  encode_instruction (set_cache w c) inst size mode = option_map (fun x => set_cache x c) (encode_instruction w inst size mode).
Proof.
  intros w c inst size mode. unfold encode_instruction. change (wr_map (set_cache w c)) with (wr_map w).
  change (wr_last (set_cache w c)) with (wr_last w). change (wr_inst (set_cache w c)) with (wr_inst w).
  destruct (wr_map w) as [im|] eqn:EM; [|reflexivity]. rewrite encode_single_cache.
  destruct (_ <=? _); [|reflexivity]. destruct (get _ _) as [l|]; [|reflexivity].
  destruct (if size <=? 255 then _ else _) as [op|]; [|reflexivity].
  destruct (negb _). { destruct (put _ _ _); [|reflexivity]. unfold set_inst, set_cache. cbn. rewrite EM. reflexivity. }
  destruct (second_lookup _ _ _ _ _) as [op2|]; [|reflexivity].
  destruct (negb _); [|reflexivity]. destruct (put _ _ _); [|reflexivity]. unfold set_inst, set_cache. cbn. rewrite EM. reflexivity.
Qed.

Definition good_instruction (i : instruction) : Prop :=
  match i with
  | Add d => 1 <= zlen d /\ bytes_ok d
  | Copy a n => 1 <= n
  | Run n b => 1 <= n /\ byte_ok b
  end.
Definition cost (i : instruction) : Z :=
  match i with Add d => 6 + zlen d | Copy _ _ => 11 | Run _ _ => 7 end.

(** The members that the calls leave alone. *)
Definition cks_of (w : writer) := (cfg_of w, wr_has_cks w, wr_cks w, wr_dict_size w).

Lemma choice_keeps : forall w seg ins items hist T inst size mode w1,
  choice w seg ins items hist T inst size mode w1 ->
  cks_of w1 = cks_of w /\ wr_data w1 = wr_data w /\ wr_addr w1 = wr_addr w /\ wr_len w1 = wr_len w /\ wr_cache w1 = wr_cache w.
Proof.
  intros w seg ins items hist T inst size mode w1 (k & ps & op & _ & _ & _ & _ & [(_ & ->)|(pre & i & h & p & s1 & a & b & ? & ? & _ & _ & _ & _ & _ & _ & _ & _ & _ & ->)]);
    repeat split; reflexivity.
Qed.

Lemma addr_bytes_eq : forall c c' mode e, near_size c' = near_size c -> same_size c' = same_size c ->
  addr_bytes c' mode e = addr_bytes c mode e.
Proof. intros c c' mode e N S. unfold addr_bytes, write_as_varint, is_same_mode, first_same_mode, last_mode. rewrite N, S. reflexivity. Qed.

Lemma addr_bytes_len : forall c mode e, 0 <= e <= int32_max -> bytes_ok (addr_bytes c mode e) /\ 1 <= zlen (addr_bytes c mode e) <= 5.
Proof.
  intros c mode e E. unfold addr_bytes. destruct (write_as_varint c mode).
  - destruct (size_bytes_ok e E) as (_ & B & L & _). unfold size_bytes in *. rewrite to_int32_id in * by (unfold int32_max in *; lia). auto.
  - split; [|rewrite zlen_cons, zlen_nil; lia]. constructor; [|constructor]. unfold byte_ok, to_uchar. apply Z.mod_pos_bound. lia.
Qed.

Lemma append_data_sec : forall w l n, wsec (append_data w l n) = app3 (wsec w) (piece_tail (wr_il w) l []).
Proof. intros w l n. unfold append_data, piece_tail, wsec. destruct (wr_il w); cbn; rewrite ?app_nil_r; reflexivity. Qed.
Lemma append_addr_sec : forall w l n, wsec (append_addr w l n) = app3 (wsec w) (piece_tail (wr_il w) [] l).
Proof. intros w l n. unfold append_addr, piece_tail, wsec. destruct (wr_il w); cbn; rewrite ?app_nil_r; reflexivity. Qed.
Lemma append_data_rest : forall w l n, cks_of (append_data w l n) = cks_of w /\ wr_last (append_data w l n) = wr_last w /\
  wr_cache (append_data w l n) = wr_cache w /\ wr_len (append_data w l n) = to_size (wr_len w + n).
Proof. intros w l n. unfold append_data. destruct (wr_il w) eqn:E; unfold cks_of, cfg_of; cbn; rewrite ?E; auto. Qed.
Lemma append_addr_rest : forall w l n, cks_of (append_addr w l n) = cks_of w /\ wr_last (append_addr w l n) = wr_last w /\
  wr_cache (append_addr w l n) = wr_cache w /\ wr_len (append_addr w l n) = to_size (wr_len w + n).
Proof. intros w l n. unfold append_addr. destruct (wr_il w) eqn:E; unfold cks_of, cfg_of; cbn; rewrite ?E; auto. Qed.

Lemma cks_of_fields : forall w w', cks_of w' = cks_of w ->
  cfg_of w' = cfg_of w /\ wr_il w' = wr_il w /\ wr_dict_size w' = wr_dict_size w.
Proof. intros w w' E. unfold cks_of, cfg_of in *. injection E as F1 F2 F3 F4 F5 F6 F7 F8 F9. repeat split; congruence. Qed.

Lemma size_max_int : int32_max <= size_max.
Proof. unfold int32_max, size_max. lia. Qed.

Lemma writer_call_ok : forall w im seg ins items hist T i T',
  winv w im seg ins items hist T -> good_instruction i -> execute seg T i = Some T' -> zlen seg + zlen T' <= int32_max ->
  exists w' items' hist', writer_call w i = Some w' /\ winv w' im seg (ins ++ [i]) items' hist' T' /\
    total w' <= total w + cost i /\ cks_of w' = cks_of w /\ zlen T < zlen T'.
Proof.
  intros w im seg ins items hist T i T' W G X L. pose proof (zlen_nonneg _ T). pose proof (zlen_nonneg _ seg). pose proof size_max_int.
  pose proof (wi_cache _ _ _ _ _ _ _ W) as (WCA & WCN & WCS). pose proof (wi_len _ _ _ _ _ _ _ W) as WL. pose proof (wi_dict _ _ _ _ _ _ _ W) as WD.
  pose proof (wi_cfg _ _ _ _ _ _ _ W) as WC.
  assert (0 <= wr_max_mode w) as MM by (destruct WC; lia).
  destruct i as [d|a n|n b]; cbn [execute good_instruction writer_call cost] in *.
  - injection X as <-. destruct G as [G1 G2]. rewrite zlen_app in L. unfold writer_add.
    destruct (encode_instruction_ok w im seg ins items hist T VCD_ADD (zlen d) 0 W) as (w1 & -> & CH); [unfold VCD_ADD; lia|lia|lia|].
    destruct (choice_keeps _ _ _ _ _ _ _ _ _ _ CH) as (K1 & K2 & K3 & K4 & K5).
    destruct (append_data_rest w1 d (zlen d)) as (R1 & R2 & R3 & R4).
    destruct (cks_of_fields _ _ K1) as (KC & KI & KD). pose proof (cks_of_fields _ _ R1) as (RC & RI & RD).
    destruct (winv_step w im seg ins items hist T VCD_ADD (zlen d) 0 w1 (append_data w1 d (zlen d)) d [] hist (T ++ d) (Add d) W CH) as ((items' & W') & TO).
    + congruence.
    + rewrite append_data_sec, KI. reflexivity.
    + exact R2.
    + congruence.
    + rewrite R4, K4, WL, zlen_app. apply to_size_id. lia.
    + rewrite R3, K5. auto.
    + rewrite zlen_app. lia.
    + exact G2.
    + constructor.
    + rewrite app_nil_r. intros ->. rewrite zlen_nil in G1. lia.
    + intros L0 k ps LL SC. apply (hr_add _ _ _ _ k ps (zlen d)); auto.
    + exists (append_data w1 d (zlen d)), items', hist. split; [reflexivity|]. split; [exact W'|]. rewrite zlen_nil in TO.
      split; [lia|]. split; [congruence|]. rewrite zlen_app. lia.
  - destruct (Z.leb_spec 0 a); cbn [andb] in X; [|discriminate]. destruct (Z.ltb_spec a (zlen seg + zlen T)); [|discriminate].
    destruct (copy_bytewise_length _ _ _ _ _ X) as (bs & ET & LB). rewrite ET, zlen_app in L.
    unfold writer_copy. rewrite (wc_map _ _ WC). rewrite WD, WL, to_int32_id by (unfold int32_max in *; lia).
    destruct (encode_address_ok (wr_cache w) hist a (zlen seg + zlen T) WCA) as (mode & e & c' & EA & M & EB & AC & CR & CN & CS); [lia|lia|].
    rewrite EA. cbv zeta.
    assert (set_state w c' (zlen seg) (zlen T) (Some im) (wr_last w) = set_cache w c') as ->
      by (unfold set_cache; rewrite WD, WL, (wc_map _ _ WC); reflexivity).
    rewrite encode_instruction_cache.
    destruct (encode_instruction_ok w im seg ins items hist T VCD_COPY n mode W) as (w1 & -> & CH); [unfold VCD_COPY; lia|lia|destruct WC; lia|].
    cbn [option_map].
    destruct (choice_keeps _ _ _ _ _ _ _ _ _ _ CH) as (K1 & K2 & K3 & K4 & K5).
    rewrite (addr_bytes_eq (wr_cache w) c') by assumption.
    destruct (addr_bytes_len (wr_cache w) mode e EB) as [AB AL].
    set (pa := addr_bytes (wr_cache w) mode e) in *.
    destruct (append_addr_rest (set_cache w1 c') pa n) as (R1 & R2 & R3 & R4).
    assert (cks_of (set_cache w1 c') = cks_of w) as K1' by (rewrite <- K1; reflexivity).
    destruct (cks_of_fields _ _ K1') as (KC & KI & KD). pose proof (cks_of_fields _ _ R1) as (RC & RI & RD).
    destruct (winv_step w im seg ins items hist T VCD_COPY n mode w1 (append_addr (set_cache w1 c') pa n) [] pa (a :: hist) T' (Copy a n) W CH) as ((items' & W') & TO).
    + congruence.
    + rewrite append_addr_sec, KI. reflexivity.
    + exact R2.
    + congruence.
    + rewrite R4. change (wr_len (set_cache w1 c')) with (wr_len w1). rewrite K4, WL, ET, zlen_app, LB, to_size_id; lia.
    + rewrite R3. change (wr_cache (set_cache w1 c')) with c'. rewrite CN, CS. auto.
    + rewrite ET, zlen_app. lia.
    + constructor.
    + exact AB.
    + cbn [app]. intros Y. rewrite Y, zlen_nil in AL. lia.
    + intros L0 k ps LL SC. unfold row. change (VCD_COPY =? VCD_COPY) with true. cbn iota.
      assert (half_at (VCD_COPY + mode) k = HCopy k mode) as ->.
      { unfold half_at, VCD_COPY. destruct (Z.eqb_spec (3 + mode) 0); [lia|]. destruct (Z.eqb_spec (3 + mode) 1); [lia|].
        destruct (Z.eqb_spec (3 + mode) 2); [lia|]. f_equal. lia. }
      apply (hr_copy _ _ _ _ k mode ps n); auto. rewrite <- WCN, <- WCS. exact AC.
    + exists (append_addr (set_cache w1 c') pa n), items', (a :: hist). split; [reflexivity|]. split; [exact W'|]. rewrite zlen_nil in TO.
      split; [lia|]. split; [congruence|]. rewrite ET, zlen_app. lia.
  - injection X as <-. destruct G as [G1 G2]. rewrite zlen_app, zlen_zrepeat in L by lia. unfold writer_run.
    destruct (encode_instruction_ok w im seg ins items hist T VCD_RUN n 0 W) as (w1 & -> & CH); [unfold VCD_RUN; lia|lia|lia|].
    destruct (choice_keeps _ _ _ _ _ _ _ _ _ _ CH) as (K1 & K2 & K3 & K4 & K5).
    destruct (append_data_rest w1 [b] n) as (R1 & R2 & R3 & R4).
    destruct (cks_of_fields _ _ K1) as (KC & KI & KD). pose proof (cks_of_fields _ _ R1) as (RC & RI & RD).
    destruct (winv_step w im seg ins items hist T VCD_RUN n 0 w1 (append_data w1 [b] n) [b] [] hist (T ++ zrepeat b n) (Run n b) W CH) as ((items' & W') & TO).
    + congruence.
    + rewrite append_data_sec, KI. reflexivity.
    + exact R2.
    + congruence.
    + rewrite R4, K4, WL, zlen_app, zlen_zrepeat by lia. apply to_size_id. lia.
    + rewrite R3, K5. auto.
    + rewrite zlen_app, zlen_zrepeat by lia. lia.
    + constructor; auto.
    + constructor.
    + discriminate.
    + intros L0 k ps LL SC. apply (hr_run _ _ _ _ k ps n); auto.
    + exists (append_data w1 [b] n), items', hist. split; [reflexivity|]. split; [exact W'|]. rewrite zlen_cons, zlen_nil in TO.
      split; [lia|]. split; [congruence|]. rewrite zlen_app, zlen_zrepeat by lia. lia.
Qed.

Fixpoint costs (l : list instruction) : Z := match l with [] => 0 | i :: tl => cost i + costs tl end.

Lemma execute_grows : forall seg T i T', good_instruction i -> execute seg T i = Some T' -> exists b, T' = T ++ b.
Proof.
  intros seg T [d|a n|n b] T' G X; cbn in X.
  - injection X as <-. eauto.
  - destruct (_ && _); [|discriminate]. destruct (copy_bytewise_length _ _ _ _ _ X) as (bs & -> & _). eauto.
  - injection X as <-. eauto.
Qed.
Lemma execute_all_grows : forall l seg T T', Forall good_instruction l -> execute_all seg T l = Some T' -> exists b, T' = T ++ b.
Proof.
  induction l as [|i l IH]; intros seg T T' G X; cbn [execute_all] in X.
  - injection X as <-. exists []. rewrite app_nil_r. reflexivity.
  - destruct (execute seg T i) as [T1|] eqn:E; [|discriminate]. inversion G; subst.
    destruct (execute_grows _ _ _ _ H1 E) as (b & ->). destruct (IH _ _ _ H2 X) as (b2 & ->). exists (b ++ b2). rewrite app_assoc. reflexivity.
Qed.

Lemma writer_calls_ok : forall l w im seg ins items hist T T',
  winv w im seg ins items hist T -> Forall good_instruction l -> execute_all seg T l = Some T' -> zlen seg + zlen T' <= int32_max ->
  exists w' items' hist', writer_calls w l = Some w' /\ winv w' im seg (ins ++ l) items' hist' T' /\
    total w' <= total w + costs l /\ cks_of w' = cks_of w.
Proof.
  induction l as [|i l IH]; intros w im seg ins items hist T T' W G X L; cbn [execute_all writer_calls costs] in *.
  - injection X as <-. exists w, items, hist. split; [reflexivity|]. split; [rewrite app_nil_r; exact W|]. split; [lia|reflexivity].
  - destruct (execute seg T i) as [T1|] eqn:E; [|discriminate]. inversion G; subst.
    destruct (execute_all_grows _ _ _ _ H2 X) as (b & EB).
    destruct (writer_call_ok _ _ _ _ _ _ _ _ _ W H1 E) as (w1 & it1 & h1 & -> & W1 & TO1 & K1 & _).
    { rewrite EB, zlen_app in L. pose proof (zlen_nonneg _ b). lia. }
    destruct (IH _ _ _ _ _ _ _ _ W1 H2 X L) as (w2 & it2 & h2 & -> & W2 & TO2 & K2).
    exists w2, it2, h2. split; [reflexivity|]. split; [rewrite <- app_assoc in W2; exact W2|]. split; [lia|congruence].
Qed.

(** ** Init and Output *)

Lemma writer_init_ok : forall w im dict, wcfg w im -> wr_inst w = [] -> wr_data w = [] -> wr_addr w = [] -> zlen dict <= int32_max ->
  exists w', writer_init w (zlen dict) = Some (w', true) /\ winv w' im dict [] [] [] [] /\ cfg_of w' = cfg_of w /\
    wr_has_cks w' = wr_has_cks w /\ wr_cks w' = wr_cks w /\ total w' = 0.
Proof.
  intros w im dict WC E1 E2 E3 L. unfold writer_init. rewrite (wc_map _ _ WC).
  destruct (cache_init (wr_near w) (wr_same w)) as [c|] eqn:EC.
  2: { exfalso. unfold cache_init in EC. destruct (Z.ltb_spec 254 (wr_near w + wr_same w)); [|discriminate]. destruct WC; lia. }
  destruct (cache_init_rep _ _ _ (wc_near _ _ WC) (wc_same _ _ WC) EC) as (CR & CN & CS).
  eexists. split; [reflexivity|].
  assert (cfg_of (set_state w c (zlen dict) 0 (Some im) (-1)) = cfg_of w) as CF.
  { unfold cfg_of; cbn. rewrite (wc_map _ _ WC). reflexivity. }
  split; [|split; [exact CF|repeat split; cbn; unfold total; cbn; rewrite ?E1, ?E2, ?E3; auto]].
  constructor; cbn [set_state wr_inst wr_data wr_addr wr_dict_size wr_len wr_last wr_cache wr_near wr_same wr_il].
  - eapply wcfg_eq; [exact CF|exact WC].
  - intros L0 _. constructor.
  - auto.
  - unfold wsec; cbn. rewrite E1, E2, E3. destruct (wr_il w); reflexivity.
  - reflexivity.
  - reflexivity.
  - left. reflexivity.
  - rewrite E1, E2, E3. repeat split; constructor.
  - left. auto.
Qed.

Definition fits (w : writer) (f : format) : Prop :=
  f_table f = entry (wr_table w) /\ f_near f = wr_near w /\ f_same f = wr_same w /\
  (wr_il w = true -> f_ext f = true) /\ (wr_has_cks w = true -> f_ext f = true).

Lemma cks_bytes_ok : forall v, 0 <= v < 4294967296 ->
  varint (encode_bytes I64 v) v /\ bytes_ok (encode_bytes I64 v) /\ 1 <= zlen (encode_bytes I64 v) <= 10 /\ varint_length v = zlen (encode_bytes I64 v).
Proof.
  intros v V. assert (0 <= v <= kMaxVal I64) as V' by (cbn [I64 kMaxVal]; unfold int64_max; lia).
  split; [apply encode_bytes_ok; [apply I64_ok|exact V']|].
  split; [apply is_varint_bytes_ok; apply (encode_bytes_ok I64 v I64_ok V')|].
  split; [|apply (varint_length_ok I64); [apply I64_ok|exact V']].
  unfold encode_bytes. destruct (encode_total I64 v I64_ok V') as (l & -> & _ & L & _). cbn in L.
  Local Transparent zlen. unfold zlen. Local Opaque zlen. lia.
Qed.

Lemma writer_output_ok : forall w im dict ins items hist T f prev,
  winv w im dict ins items hist T -> fits w f -> (wr_has_cks w = true -> wr_cks w = adler_sum 0 T) ->
  zlen dict + zlen T <= int32_max -> total w <= 2147483600 -> T <> [] ->
  exists w' bytes, writer_output w = Some (w', bytes) /\ window_reads f dict prev bytes T ins /\ bytes_ok bytes /\
    zlen bytes <= total w + 47 /\ hd 0 bytes = (if wr_has_cks w then 5 else 1) /\
    winv w' im dict [] [] [] [] /\ cks_of w' = cks_of w /\ total w' = 0.
Proof.
  intros w im dict ins items hist T f prev W (FT & FN & FS & FI & FC) CK L TO NT.
  pose proof W as [WC WM WCA WS WD WL WLA (B1 & B2 & B3) WN]. destruct WN as [[_ X]|(NI & _ & NW & ND)]; [contradiction|].
  pose proof (zlen_nonneg _ T). pose proof (zlen_nonneg _ dict). unfold writer_output.
  pose proof (zlen_nonneg _ (wr_inst w)). pose proof (zlen_nonneg _ (wr_data w)). pose proof (zlen_nonneg _ (wr_addr w)).
  unfold total in TO.
  destruct (writer_init_ok (set_sections w [] [] [] (wr_len w)) im dict) as (w' & EI & W' & CF & HC & CC & TT); try reflexivity.
  { eapply wcfg_eq; [|exact WC]. reflexivity. } { lia. }
  exists w', (window_bytes w). split.
  { destruct (wr_inst w); [congruence|]. cbn [set_sections wr_dict_size]. rewrite WD. cbn [set_sections] in EI. rewrite EI. reflexivity. }
  assert (cks_of w' = cks_of w) as KK.
  { unfold cks_of. rewrite CF, HC, CC, (wi_dict _ _ _ _ _ _ _ W'), WD. reflexivity. }
  destruct (size_bytes_ok (wr_len w)) as (V1 & VB1 & VL1 & VE1); [lia|].
  destruct (size_bytes_ok (zlen (wr_data w))) as (V2 & VB2 & VL2 & VE2); [unfold int32_max; lia|].
  destruct (size_bytes_ok (zlen (wr_inst w))) as (V3 & VB3 & VL3 & VE3); [unfold int32_max; lia|].
  destruct (size_bytes_ok (zlen (wr_addr w))) as (V4 & VB4 & VL4 & VE4); [unfold int32_max; lia|].
  destruct (size_bytes_ok (wr_dict_size w)) as (V5 & VB5 & VL5 & VE5); [lia|].
  destruct (size_bytes_ok 0) as (V6 & VB6 & VL6 & VE6); [unfold int32_max; lia|].
  set (bck := if wr_has_cks w then encode_bytes I64 (wr_cks w) else []).
  assert (bytes_ok bck /\ zlen bck <= 10 /\ zlen bck = (if wr_has_cks w then varint_length (wr_cks w) else 0) /\
          checksum_field f (if wr_has_cks w then 5 else 1) bck T) as (KB & KL & KE & KF).
  { unfold bck, checksum_field. destruct (wr_has_cks w).
    - rewrite FC by reflexivity. cbn [andb]. change (Z.testbit 5 2) with true. cbn iota. rewrite CK by reflexivity.
      destruct (cks_bytes_ok (adler_sum 0 T) (adler_sum_range 0 T)) as (U1 & U2 & U3 & U4). split; [exact U2|]. split; [lia|]. split; [auto|exact U1].
    - change (Z.testbit 1 2) with false. rewrite andb_false_r. split; [constructor|]. rewrite zlen_nil. split; [lia|]. auto. }
  pose proof (zlen_nonneg _ bck).
  assert (delta_length w = zlen (size_bytes (wr_len w) ++ [0] ++ size_bytes (zlen (wr_data w)) ++ size_bytes (zlen (wr_inst w)) ++ size_bytes (zlen (wr_addr w)) ++ bck)
            + zlen (wr_data w) + zlen (wr_inst w) + zlen (wr_addr w)) as DL.
  { unfold delta_length. zl. rewrite VE1, VE2, VE3, VE4, KE. lia. }
  assert (0 <= delta_length w <= int32_max) as DB.
  { rewrite DL. zl. unfold int32_max. lia. }
  destruct (size_bytes_ok (delta_length w) DB) as (V7 & VB7 & VL7 & VE7).
  split; [|split; [|split; [|split; [reflexivity|split; [exact W'|split; [exact KK|exact TT]]]]]].
  - assert (window_bytes w = [if wr_has_cks w then 5 else 1] ++ (size_bytes (wr_dict_size w) ++ size_bytes 0) ++ size_bytes (delta_length w)
        ++ size_bytes (wr_len w) ++ [0] ++ size_bytes (zlen (wr_data w)) ++ size_bytes (zlen (wr_inst w)) ++ size_bytes (zlen (wr_addr w)) ++ bck
        ++ (wr_data w ++ wr_inst w ++ wr_addr w)) as ->.
    { unfold window_bytes. fold bck. rewrite <- !app_assoc. reflexivity. }
    eapply window_reads_intro with (items := items) (hist := hist); try eassumption.
    + destruct (wr_has_cks w); unfold byte_ok; lia.
    + apply seg_dict with (len := zlen dict) (pos := 0).
      * destruct (wr_has_cks w); reflexivity.
      * destruct (wr_has_cks w); reflexivity.
      * rewrite <- WD. exact V5.
      * exact V6.
      * Local Transparent slice. unfold slice. Local Opaque slice. pose proof (zlen_nonneg _ dict).
        assert (zdrop 0 dict = dict) as -> by reflexivity.
        destruct (Z.leb_spec 0 0); [|lia]. destruct (Z.leb_spec 0 (zlen dict)); [|lia]. destruct (Z.leb_spec (0 + zlen dict) (zlen dict)); [|lia].
        cbn [andb]. rewrite ztake_all by lia. reflexivity.
    + rewrite <- WL. exact V1.
    + unfold byte_ok; lia.
    + reflexivity.
    + unfold layout, interleaved. unfold wsec, items_sec in WS. destruct (wr_il w).
      * left. injection WS as -> -> ->. rewrite FI by reflexivity. cbn [app]. rewrite app_nil_r, zlen_nil. auto.
      * right. injection WS as WS1 WS2 WS3. rewrite WS2, WS3 in ND. rewrite WS1, WS2, WS3. split; [|auto]. intros (_ & Y1 & Y2). destruct (ND eq_refl) as [Z1|Z1]; apply Z1.
        -- destruct (concat (map item_data items)); [reflexivity|]. rewrite zlen_cons in Y1. pose proof (zlen_nonneg _ l). lia.
        -- destruct (concat (map item_addr items)); [reflexivity|]. rewrite zlen_cons in Y2. pose proof (zlen_nonneg _ l). lia.
    + rewrite FT, FN, FS. apply WM. lia.
  - unfold window_bytes. fold bck. bok; try (destruct (wr_has_cks w)); unfold byte_ok; lia.
  - unfold window_bytes, total. fold bck. zl. lia.
Qed.

Lemma writer_output_empty : forall w im dict ins items hist,
  winv w im dict ins items hist [] -> zlen dict <= int32_max ->
  exists w', writer_output w = Some (w', []) /\ winv w' im dict [] [] [] [] /\ cks_of w' = cks_of w /\ total w' = 0.
Proof.
  intros w im dict ins items hist W L.
  pose proof W as [WC WM WCA WS WD WL WLA (B1 & B2 & B3) WN]. destruct WN as [[-> _]|(_ & X & _)]; [|congruence].
  assert (wr_inst w = [] /\ wr_data w = [] /\ wr_addr w = []) as (E1 & E2 & E3).
  { unfold wsec, items_sec in WS. destruct (wr_il w); injection WS as -> -> ->; auto. }
  unfold writer_output. rewrite E1.
  destruct (writer_init_ok w im dict WC E1 E2 E3 L) as (w' & EI & W' & CF & HC & CC & TT). rewrite WD, EI.
  exists w'. split; [reflexivity|]. split; [exact W'|]. split; [|exact TT].
  unfold cks_of. rewrite CF, HC, CC, (wi_dict _ _ _ _ _ _ _ W'), WD. reflexivity.
Qed.
