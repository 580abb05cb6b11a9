(** The instructions for which a sequence of opcodes stands (RFC 3284 sections
    5.4-5.5).  No definition of a model file is used here.  [half_reads] and
    [items_read] are [half_means] and [items_mean] (without tolerance) with the
    list of the instructions read added. *)

From Verif Require Import Base Spec SpecEncode.

Inductive half_reads (ns ss L : Z) (seg : list Z) : half -> piece -> wstate -> wstate -> list instruction -> Prop :=
| hr_noop : forall s, half_reads ns ss L seg HNoop no_piece s s []
| hr_add : forall k ps n d hist T,
    zlen T < L -> size_code k ps n -> zlen d = n ->
    half_reads ns ss L seg (HAdd k) {| p_size := ps; p_data := d; p_addr := [] |}
               (hist, T) (hist, T ++ d) [Add d]
| hr_run : forall k ps n b hist T,
    zlen T < L -> size_code k ps n ->
    half_reads ns ss L seg (HRun k) {| p_size := ps; p_data := [b]; p_addr := [] |}
               (hist, T) (hist, T ++ zrepeat b n) [Run n b]
| hr_copy : forall k m ps n pa a hist T T',
    zlen T < L -> size_code k ps n ->
    addr_code ns ss hist (zlen seg + zlen T) m pa a ->
    copy_bytewise (Z.to_nat n) seg T a = Some T' ->
    half_reads ns ss L seg (HCopy k m) {| p_size := ps; p_data := []; p_addr := pa |}
               (hist, T) (a :: hist, T') [Copy a n].

Inductive items_read (tbl : code_table) (ns ss L : Z) (seg : list Z)
  : list item -> wstate -> wstate -> list instruction -> Prop :=
| ir_nil : forall s, items_read tbl ns ss L seg [] s s []
| ir_cons : forall i l s s1 s2 s3 x1 x2 x3,
    byte_ok (i_op i) -> zlen (snd s) < L ->
    half_reads ns ss L seg (fst (tbl (i_op i))) (i_first i) s s1 x1 ->
    half_reads ns ss L seg (snd (tbl (i_op i))) (i_second i) s1 s2 x2 ->
    items_read tbl ns ss L seg l s2 s3 x3 ->
    items_read tbl ns ss L seg (i :: l) s s3 (x1 ++ x2 ++ x3).

Lemma half_reads_means : forall ns ss L seg h p s s' x,
  half_reads ns ss L seg h p s s' x -> half_means ns ss L seg h p s s'.
Proof. intros ns ss L seg h p s s' x H. destruct H; econstructor; eauto. Qed.
Lemma items_read_means : forall tbl ns ss L seg items s s' x,
  items_read tbl ns ss L seg items s s' x -> items_mean false tbl ns ss L seg items s s'.
Proof.
  intros tbl ns ss L seg items s s' x H. induction H; [constructor|].
  econstructor; eauto using half_reads_means.
Qed.
Lemma half_means_reads : forall ns ss L seg h p s s',
  half_means ns ss L seg h p s s' -> exists x, half_reads ns ss L seg h p s s' x.
Proof. intros ns ss L seg h p s s' H. destruct H; eexists; econstructor; eauto. Qed.
Lemma items_mean_reads : forall tbl ns ss L seg items s s',
  items_mean false tbl ns ss L seg items s s' -> exists x, items_read tbl ns ss L seg items s s' x.
Proof.
  intros tbl ns ss L seg items s s' H. remember false as d eqn:D. induction H as [s|i l s s1 s2 s3 OB LT H1 H2 IM IH|]; [exists []; constructor| |congruence].
  destruct (half_means_reads _ _ _ _ _ _ _ _ H1) as (x1 & R1). destruct (half_means_reads _ _ _ _ _ _ _ _ H2) as (x2 & R2).
  destruct IH as (x3 & R3). eexists. eapply ir_cons; eauto.
Qed.

(** [window_reads f dict prev bytes T l]: [bytes] is a window (without any
    tolerance) that yields [T] by the instructions [l]. *)
Inductive window_reads (f : format) (dict prev : list Z) : list Z -> list Z -> list instruction -> Prop :=
| window_reads_intro : forall ind seg_bytes seg b_delta delta_len b_target di b_nd n_data b_ni n_inst
                        b_na n_addr b_cks items body hist T l,
    byte_ok ind -> segment f dict prev ind seg_bytes seg ->
    varint b_delta delta_len ->
    varint b_target (zlen T) ->
    byte_ok di -> Z.land di 7 = 0 ->
    varint b_nd n_data -> varint b_ni n_inst -> varint b_na n_addr ->
    checksum_field f ind b_cks T ->
    layout strict f items n_data n_inst n_addr body ->
    delta_len = zlen (b_target ++ [di] ++ b_nd ++ b_ni ++ b_na ++ b_cks) + n_data + n_inst + n_addr ->
    items_read (f_table f) (f_near f) (f_same f) (zlen T) seg items ([], []) (hist, T) l ->
    window_reads f dict prev
      ([ind] ++ seg_bytes ++ b_delta ++ b_target ++ [di] ++ b_nd ++ b_ni ++ b_na ++ b_cks ++ body) T l.

Lemma window_reads_window : forall f dict prev bytes T l,
  window_reads f dict prev bytes T l -> Spec.window strict f dict prev bytes T.
Proof.
  intros f dict prev bytes T l W. destruct W. eapply window_intro; eauto. cbn [strict t_drop]. eapply items_read_means; eauto.
Qed.
Lemma window_window_reads : forall f dict prev bytes T,
  Spec.window strict f dict prev bytes T -> exists l, window_reads f dict prev bytes T l.
Proof.
  intros f dict prev bytes T W. inversion W as [ind sb seg bd dl bt di bnd nd bni ni bna na bcks items body hist T1 BI SG VD VT BDI DI VND VNI VNA CF LA DL IM EW ET].
  subst. cbn [strict t_drop] in IM. destruct (items_mean_reads _ _ _ _ _ _ _ _ IM) as (x & R). exists x. eapply window_reads_intro; eauto.
Qed.
